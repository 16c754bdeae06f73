(** * C22-C24: dynamic types and Varying. *)
From Verif Require Import Base Bytes Values Streams Types EntityWriter EntityReader Sections Items ItemSpec Documents DocSpec CodecFacts
  ValueEqSpec DynTypes DynTypesFacts Varying VaryingSpec VaryingFacts VaryingCodec Validator.
Open Scope N_scope.

(** C22: for any two ids whatever, the probing loop ends after at most 577 steps without leaving the table,
    and finds exactly the type that has these ids, nothing if there is none. *)
Theorem C22_lookup_exact : forall dt ct n, (577 <= n)%nat ->
  exists r, find_type_class n dt ct = Some r /\
    (forall t c, r = Some (t, c) <-> dt_id t = dt /\ ct_id c = ct) /\
    (r = None <-> forall t c, ~ (dt_id t = dt /\ ct_id c = ct)).
Proof.
  intros dt ct n Hn. destruct (t_find_class n dt ct Hn) as (r & E & H). exists r. split; [exact E|]. split.
  - intros t c. rewrite H. apply class_ids_iff.
  - destruct r as [[t c]|].
    + split; [discriminate|]. intros X. destruct (X t c). apply (class_ids_iff (t, c)), H. reflexivity.
    + split; [|reflexivity]. intros _ t c X. apply (class_ids_iff (t, c)) in X. apply H in X. discriminate.
Qed.
Print Assumptions C22_lookup_exact.

(** C22: all 54 x 6 combinations are registered. *)
Theorem C22_all_registered : length all_classes = 324%nat /\ (forall k, In k all_classes) /\ NoDup all_classes /\
  forall k, In (Some k) class_table.
Proof.
  split; [reflexivity|]. split; [exact all_classes_all|]. split; [exact classes_nodup|exact class_in_table].
Qed.
Print Assumptions C22_all_registered.

(** C22: with ids of no type every function fails and changes nothing, whatever the data. *)
Theorem C22_unknown_ids : forall dt ct, (forall t c, ~ (dt_id t = dt /\ ct_id c = ct)) ->
  dyn_new dt ct = None /\
  forall a b key h e wst rst,
    dyn_delete dt ct a = Done false /\ dyn_clear dt ct a = Done (false, a) /\ dyn_write dt ct key h a wst = Done (false, wst) /\
    dyn_read e dt ct key h a rst = Done (false, a, rst) /\ dyn_copy dt ct a b = Done (false, a) /\ dyn_equals dt ct a b = Done false.
Proof. exact t_unknown. Qed.
Print Assumptions C22_unknown_ids.

(** C22: with null data every function fails and changes nothing, whatever the ids. *)
Theorem C22_null_data : forall dt ct a key h e wst rst,
    dyn_delete dt ct None = Done false /\ dyn_clear dt ct None = Done (false, None) /\ dyn_write dt ct key h None wst = Done (false, wst) /\
    dyn_read e dt ct key h None rst = Done (false, None, rst) /\ dyn_copy dt ct None a = Done (false, None) /\
    dyn_copy dt ct a None = Done (false, a) /\ dyn_equals dt ct None a = Done false /\ dyn_equals dt ct a None = Done false.
Proof. exact t_null. Qed.
Print Assumptions C22_null_data.

(** C22: with the ids of a type, and objects of this type, each function does what it does for the
    type: a default value is allocated, cleared values are default values, values are written and read
    with the type, copied, and compared. *)
Theorem C22_known_ids : forall t c, let dt := dt_id t in let ct := ct_id c in
  dyn_new dt ct = Some (Obj (t, c) (cval_default t c)) /\
  forall v w key h e wst rst, typed (t, c) v -> typed (t, c) w ->
    let x := Some (Obj (t, c) v) in let y := Some (Obj (t, c) w) in
    dyn_delete dt ct x = Done true /\
    dyn_clear dt ct x = Done (true, Some (Obj (t, c) (cval_default t c))) /\
    dyn_write dt ct key h x wst = w_write h t key v wst /\
    dyn_read e dt ct key h x rst = (do r <- r_read e h t key v rst; let '(ok, v', rst') := r in Done (ok, Some (Obj (t, c) v'), rst')) /\
    dyn_copy dt ct x y = Done (true, y) /\
    exists b, dyn_equals dt ct x y = Done b /\ (b = true <-> cval_same t v w).
Proof. exact t_known. Qed.
Print Assumptions C22_known_ids.

(** C23: every program on Varyings that respects object lifetimes runs without undefined behaviour (no
    use of a deleted object, no double delete, no access under a wrong type) and without exceptions other
    than those of Data<T>(), and behaves as if every Varying contained its typed value: Data<T>() succeeds
    exactly for the type set; copies are independent of their source; moves transfer the value.
    Self-assignment, as specified in VaryingSpec, leaves the object empty. *)
Theorem C23_value_semantics : forall l, v_legal_run (fun _ => false) l ->
  exists outs s E, v_run l v_start = Done (outs, s) /\ v_specs l (fun _ => None) outs E.
Proof. intros l H. destruct (t_varying_run l H) as (xs & s & E & H1 & H2 & _). exists xs, s, E. auto. Qed.
Print Assumptions C23_value_semantics.

(** C23: without move assignments no memory is lost: every object in the heap belongs to a Varying. *)
Theorem C23_no_leak : forall l outs s, v_legal_run (fun _ => false) l -> Forall no_move_assign l ->
  v_run l v_start = Done (outs, s) ->
  forall a, hs_heap s a <> None -> exists i v, hs_vars s i = Some v /\ h_data v = Some a.
Proof. intros l outs s H F E. destruct (t_varying_run l H) as (xs & s' & E' & H1 & _ & H3). assert (s' = s) by congruence. subst. auto. Qed.
Print Assumptions C23_no_leak.

(** C23, findings: move assignment (to another object or itself) leaks the old data; self-assignment
    destroys the data; two uninitialised Varyings are not equal. *)
Definition u32_class : tclass := (TUInt I32, CtNone).
Definition num32 (b : byte) : cval := CV (VP [b; x00; x00; x00]).
Theorem C23_move_assignment_leaks_refuted : exists outs s,
  v_run [VDefault 0; VInitT 0 u32_class; VDefault 1; VMoveAssign 0 1; VDestroy 0; VDestroy 1] v_start = Done (outs, s) /\
  hs_heap s 0 <> None /\ forall i, hs_vars s i = None.
Proof.
  eexists _, _. split; [vm_compute; reflexivity|]. split; [vm_compute; discriminate|]. intros [|[p|p|]]; reflexivity.
Qed.
Print Assumptions C23_move_assignment_leaks_refuted.
Theorem C23_self_assignment_refuted : exists s,
  v_run [VDefault 0; VInitT 0 u32_class; VSet 0 u32_class (num32 x07); VAssign 0 0; VIsInit 0; VGet 0 u32_class] v_start
  = Done ([OUnit; OUnit; OUnit; OUnit; OBool false; OThrow], s).
Proof. eexists. vm_compute. reflexivity. Qed.
Print Assumptions C23_self_assignment_refuted.
Theorem C23_empty_not_equal_refuted : exists s, v_run [VDefault 0; VDefault 1; VEquals 0 1; VCopyCtor 2 0; VEquals 0 2] v_start
  = Done ([OUnit; OUnit; OBool false; OUnit; OBool false], s).
Proof. eexists. vm_compute. reflexivity. Qed.
Print Assumptions C23_empty_not_equal_refuted.

(** C24: Write of an initialised Varying succeeds, the bytes are those of the documented layout (the
    two ids, then the value), and Read into any Varying, with anything behind, gives the same type, container and
    value, and ends behind it. *)
Theorem C24_roundtrip : forall t c v init lim fl, typed (t, c) v ->
  room init lim (len (nodes_bytes fl (varying_doc (t, c) v))) ->
  exists s0 st, fresh init lim fl = Done s0 /\ v_write 0 (v_of (Holds (t, c) v)) (w_open s0) = Done (true, st) /\
    ws_data (w_stream st) = nodes_bytes fl (varying_doc (t, c) v) /\
    forall e old post, read_room e (ws_pos (w_stream st)) (ws_pos (w_stream st) + len post) ->
      exists st', v_read e 0 (v_of old) (r_open (RS (ws_data (w_stream st) ++ post) 0 fl)) = Done (true, v_of (Holds (t, c) v), st') /\
        r_stream st' = RS (ws_data (w_stream st) ++ post) (ws_pos (w_stream st)) fl.
Proof. exact t_v_roundtrip. Qed.
Print Assumptions C24_roundtrip.

(** C24: an uninitialised Varying is not written: Write returns false and the stream is unchanged;
    validation reports it. *)
Theorem C24_uninitialised : forall x h st,
  (v_validate (v_of x) = [] <-> exists k v, x = Holds k v) /\
  (v_validate (v_of x) <> [] -> v_write h (v_of x) st = Done (false, st) /\ v_validate (v_of x) = [NullNotAllowed]).
Proof.
  intros [dt ct|k v] h st; cbn.
  - split; [split; [discriminate|intros (k & v & H); discriminate]|]. auto.
  - split; [split; [eauto|auto]|]. intros H. destruct H. reflexivity.
Qed.
Print Assumptions C24_uninitialised.

(** The hypotheses are met. *)
Definition vprog : list vop :=
  [VDefault 0; VInit 0 0x33 0x10; VInit 0 0x999 0; VInitT 0 u32_class; VSet 0 u32_class (num32 x2a); VGet 0 (TFloat F32, CtNone);
   VCopyCtor 1 0; VEquals 0 1; VSet 1 u32_class (num32 x00); VGet 0 u32_class; VEquals 0 1; VMoveCtor 2 0; VIsInit 0; VGet 2 u32_class;
   VAssign 1 2; VEquals 1 2; VClear 1; VGet 1 u32_class; VDestroy 2; VAssign 1 0; VType 1].
Example varying_example : v_legal_run (fun _ => false) vprog /\ (exists s, v_run vprog v_start =
   Done ([OUnit; OBool true; OBool false; OUnit; OUnit; OThrow; OUnit; OBool true; OUnit; OVal (num32 x2a); OBool false; OUnit; OBool false;
          OVal (num32 x2a); OUnit; OBool true; OUnit; OVal (num32 x00); OUnit; OUnit; OType 0 0], s)) /\
  typed (TString, CtIdx) (CIdx [VS [x68; x69]; VS []] [1; 0; 1]) /\
  room 16 1000 (len (nodes_bytes true (varying_doc (TString, CtIdx) (CIdx [VS [x68; x69]; VS []] [1; 0; 1])))).
Proof.
  split; [vm_compute; repeat split; discriminate|]. split; [eexists; vm_compute; reflexivity|]. split.
  - split; [|reflexivity]. split; [split; [repeat constructor; vm_compute; reflexivity|vm_compute; reflexivity]|].
    repeat constructor; vm_compute; reflexivity.
  - unfold room. repeat split; vm_compute; congruence.
Qed.
