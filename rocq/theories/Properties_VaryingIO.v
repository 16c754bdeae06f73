(** * C23, C24: programs that write Varyings and read into them. *)
From Verif Require Import Base Bytes Values Streams Types EntityWriter EntityReader Sections Items ItemSpec Documents DocSpec CodecFacts ArraySafety
  ValueEqSpec DynTypes DynTypesFacts Varying VaryingSpec VaryingFacts VaryingCodec VaryingIO VaryingIOSpec VaryingIOFacts Properties_Varying.
Open Scope N_scope.

(** C23: value semantics also for programs that write Varyings and read into them, whatever bytes are read
    and wherever reading stops (a failed read, an unknown type id, an exception): no use of a deleted object,
    no double delete, and the object always holds nothing or an object of the type it says. *)
Theorem C23_io_value_semantics : forall l, x_legal_run (fun _ => None) l ->
  exists outs s E, x_run l v_start = Done (outs, s) /\ x_specs l (fun _ => None) outs E.
Proof. intros l H. destruct (t_io_run l H) as (xs & s & E & H1 & H2 & _). exists xs, s, E. auto. Qed.
Print Assumptions C23_io_value_semantics.

(** C23: such programs lose no memory, move assignments apart: the data a failed or interrupted read has
    allocated, and the data a read replaces, have an owner or are deleted. *)
Theorem C23_io_no_leak : forall l outs s, x_legal_run (fun _ => None) l -> Forall x_no_move_assign l ->
  x_run l v_start = Done (outs, s) ->
  forall a, hs_heap s a <> None -> exists i v, hs_vars s i = Some v /\ h_data v = Some a.
Proof. intros l outs s H F E. destruct (t_io_run l H) as (xs & s' & E' & H1 & _ & H3). assert (s' = s) by congruence. subst. auto. Qed.
Print Assumptions C23_io_no_leak.

(** C24: in such programs, writing a Varying to a new stream writes the documented bytes, and reading these bytes
    (whatever follows) gives the variable the type, container and value, whatever it held. *)
Theorem C24_io_write : forall i k c init lim fl E out E', E i = Some (Holds k c) -> typed k c ->
  room init lim (len (nodes_bytes fl (varying_doc k c))) ->
  exists s0, fresh init lim fl = Done s0 /\
    (x_spec (XWrite i 0 (w_open s0)) E out E' ->
     E' = E /\ exists st, out = XWrote true st /\ ws_data (w_stream st) = nodes_bytes fl (varying_doc k c)).
Proof.
  intros i [t ct] c init lim fl E out E' Hi Ht Hr. destruct (t_v_roundtrip t ct c init lim fl Ht Hr) as (s0 & st & F & W & D & _).
  exists s0. split; [exact F|]. cbn [x_spec]. intros (-> & x & Hx & H). rewrite Hi in Hx. injection Hx as <-. rewrite W in H. split; eauto.
Qed.
Print Assumptions C24_io_write.
Theorem C24_io_read : forall i k c e lft fl post E out E', typed k c ->
  read_room e (len (nodes_bytes fl (varying_doc k c))) (len (nodes_bytes fl (varying_doc k c)) + len post) ->
  x_spec (XRead e i 0 lft (r_open (RS (nodes_bytes fl (varying_doc k c) ++ post) 0 fl))) E out E' ->
  E' = bind_var i (Some (Holds k c)) E /\
  exists st, out = XGot true st /\ r_stream st = RS (nodes_bytes fl (varying_doc k c) ++ post) (len (nodes_bytes fl (varying_doc k c))) fl.
Proof.
  intros i k c e lft fl post E out E' Ht Hr (x & y & Hx & -> & _ & H). cbn zeta.
  destruct (reads_open _ _ _ e fl post (v_reads k c x Ht) Hr) as (st' & R & S). rewrite R in H. destruct H as (-> & V & _).
  symmetry in V. apply v_of_holds in V. subst y. split; eauto.
Qed.
Print Assumptions C24_io_read.

(** The hypotheses are met: a value is written, and read into two other variables, one of them from cut
    bytes and one with data of another type. *)
Definition io_bytes : list byte := nodes_bytes false (varying_doc u32_class (num32 x2a)).
Definition io_env : renv := RE 1000 (fun _ => x00).
Definition io_prog (s0 : wstream) : list xop :=
  [XOp (VDefault 0); XOp (VInitT 0 u32_class); XOp (VSet 0 u32_class (num32 x2a)); XWrite 0 0 (w_open s0);
   XOp (VDefault 1); XOp (VInitT 1 (TString, CtVec)); XRead io_env 1 0 (fun k => cval_default (fst k) (snd k)) (r_open (RS io_bytes 0 false));
   XOp (VEquals 0 1); XOp (VGet 1 u32_class);
   XRead io_env 1 0 (fun k => cval_default (fst k) (snd k)) (r_open (RS (firstn 20 io_bytes) 0 false)); XOp (VIsInit 1);
   XOp (VDestroy 1); XOp (VDestroy 0)].
Example io_example : exists s0 st r1 r2 s, fresh 16 1000 false = Done s0 /\ x_legal_run (fun _ => None) (io_prog s0) /\ Forall x_no_move_assign (io_prog s0) /\
  x_run (io_prog s0) v_start =
    Done ([XOut OUnit; XOut OUnit; XOut OUnit; XWrote true st; XOut OUnit; XOut OUnit; XGot true r1; XOut (OBool true); XOut (OVal (num32 x2a));
           XGot false r2; XOut (OBool false); XOut OUnit; XOut OUnit], s).
Proof.
  destruct (fresh 16 1000 false) as [s0| |] eqn:F; try discriminate F. vm_compute in F. injection F as <-.
  eexists _, _, _, _, _. split; [reflexivity|]. split; [|split; [repeat constructor|vm_compute; reflexivity]].
  unfold io_prog. cbn [x_legal_run x_legal v_legal].
  split; [reflexivity|]. intros o1 E1 (r1 & _ & _ & ->).
  split; [reflexivity|]. intros o2 E2 (r2 & _ & _ & ->).
  split; [vm_compute; auto|]. intros o3 E3 (r3 & _ & [(_ & _ & ->)|(H & _)]); [|destruct (H (cval_default (TUInt I32) CtNone)); reflexivity].
  split; [exists (Holds u32_class (num32 x2a)); split; [reflexivity|vm_compute; discriminate]|]. intros o4 E4 (-> & _).
  split; [reflexivity|]. intros o5 E5 (r5 & _ & _ & ->).
  split; [reflexivity|]. intros o6 E6 (r6 & _ & _ & ->).
  assert (T : forall k, typed k (cval_default (fst k) (snd k))) by exact default_typed.
  split; [split; [reflexivity|]; split; [exact T|]; eexists; split; [reflexivity|apply read_undef; vm_compute; discriminate]|].
  intros o7 E7 (x7 & y7 & X7 & -> & _ & _).
  split; [split; reflexivity|]. intros o8 E8 (r8 & _ & -> & _).
  split; [reflexivity|]. intros o9 E9 (r9 & _ & -> & _).
  split; [split; [reflexivity|]; split; [exact T|]; exists y7; split; [reflexivity|apply read_undef; vm_compute; discriminate]|].
  intros o10 E10 (x10 & y10 & X10 & -> & _ & _).
  split; [reflexivity|]. intros o11 E11 (r11 & _ & -> & _).
  split; [reflexivity|]. intros o12 E12 (r12 & _ & _ & ->).
  split; [reflexivity|]. auto.
Qed.
