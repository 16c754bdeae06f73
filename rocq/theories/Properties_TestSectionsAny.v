(** * C59: a class whose objects contain objects of the same class, read from arbitrary bytes. *)
From Verif Require Import Base Bytes Values Types Format FileSpec Streams EntityWriter EntityReader Items ItemSpec EntityProps Sections Documents DocSpec Damage
  SectionTheorems TestSections TestSectionsSpec TestSectionsFacts TestSectionsAnySpec TestSectionsAny TestSectionsDeep.
Open Scope N_scope.

(** C59: whatever the bytes, Read of a section_object, with a stack that is deep enough for the number of bytes (one call for
    every 103 of them, or 167 with double components), has no undefined behaviour: it returns an object that can exist with
    the stream unchanged and a position in it, or it throws because of memory, for one of the named reasons. *)
Theorem C59_any_bytes : forall f e d data pos flip, len data < 2^62 -> e_lim e < 2^60 -> pos <= len data ->
  len data - pos < obj_least f * N.of_nat d ->
  match read f d e 0 (r_open (RS data pos flip)) with
  | Done (ok, o, st) => obj_ok f o /\ rs_data (r_stream st) = data /\ rs_flip (r_stream st) = flip /\ pos <= rs_pos (r_stream st) <= len data
  | Throw => e_lim e < 4 * len data \/ name_damaged flip data pos \/ array_cut flip data pos \/ too_many (e_lim e) flip data pos
  | Undef => False
  end.
Proof. exact t_sections_any. Qed.
Print Assumptions C59_any_bytes.

(** C59: a stack that is less deep than the object that was written overflows (with C58_sections_test: the depth of the
    object is exactly the stack that Read needs). *)
Theorem C59_deep : forall f o init lim fl, obj_ok f o -> room init lim (len (nodes_bytes fl (doc f o))) ->
  exists s0 st, fresh init lim fl = Done s0 /\ write f 0 o (w_open s0) = Done (true, st) /\
    ws_data (w_stream st) = nodes_bytes fl (doc f o) /\
    forall e d post, (d < depth o)%nat -> read_room e (ws_pos (w_stream st)) (ws_pos (w_stream st) + len post) ->
      read f d e 0 (r_open (RS (ws_data (w_stream st) ++ post) 0 fl)) = Undef.
Proof. exact t_sections_deep. Qed.
Print Assumptions C59_deep.

(** C59, finding: no fixed stack is deep enough for all files. For every number [n] of calls there is a file of 156 (n + 1)
    bytes (220 with double components), as Write makes it, with which Read overflows a stack of [n] calls and succeeds with
    one more. *)
Theorem C59_stack_refuted : forall f fl n, exists file o,
  len file = (match f with F32 => 156 | F64 => 220 end) * (N.of_nat n + 1) /\ obj_ok f o /\
  forall e, 4 * len file <= e_lim e -> 2 * len file < 2^64 ->
    read f n e 0 (r_open (RS file 0 fl)) = Undef /\
    exists st, read f (S n) e 0 (r_open (RS file 0 fl)) = Done (true, o, st) /\ r_stream st = RS file (len file) fl.
Proof.
  intros f fl n. exists (nodes_bytes fl (doc f (chain f n))), (chain f n).
  split; [exact (chain_size f fl n)|]. split; [apply chain_ok|]. intros e He Hb. set (file := nodes_bytes fl (doc f (chain f n))) in *.
  assert (R : room 1 (2 * len file) (len file)).
  { unfold file in *. rewrite (chain_size f fl n) in *. unfold chain_least in *. unfold room, two64. destruct f; lia. }
  destruct (t_sections_deep f (chain f n) 1 (2 * len file) fl (chain_ok f n) R) as (s0 & st & E0 & E & Hd & H).
  destruct (t_write_doc 1 (2 * len file) fl (doc f (chain f n)) (proj1 (proj1 (doc_legal f) _ (chain_ok f n))) R) as (s1 & st1 & E1 & Ew & Hd1 & Hp1).
  destruct (t_sections_test f (chain f n) 1 (2 * len file) fl (chain_ok f n) R) as (s0' & st' & E0' & E' & Hd' & H').
  rewrite E0 in E0', E1. injection E0' as <-. injection E1 as <-. rewrite E in E'. injection E' as <-.
  rewrite (proj1 (w_sim f) _ _ _ _ Ew) in E. injection E as <-. fold file in Hd, Hp1.
  assert (RR : read_room e (ws_pos (w_stream st1)) (ws_pos (w_stream st1) + len (@nil byte))).
  { unfold read_room, two64. change (len (@nil byte)) with 0. rewrite Hp1. fold file. lia. }
  specialize (H e n [] ltac:(rewrite chain_depth; lia) RR).
  specialize (H' e (S n) [] ltac:(rewrite chain_depth; lia) RR). rewrite app_nil_r, Hd in H, H'. split; [exact H|].
  destruct H' as (st2 & H2 & S2). exists st2. split; [exact H2|]. rewrite S2, Hp1. fold file. reflexivity.
Qed.
Print Assumptions C59_stack_refuted.

(** The hypotheses are met, and every outcome happens: an object of three in each other; the same file with the last byte
    changed (the read fails); a vector with 2^40 elements, for which 2^39 bytes of memory are too little. *)
Definition file3 : list byte := nodes_bytes false (doc F32 (chain F32 2)).
Definition many : list byte :=
  nodes_bytes false (Cons (NItem (Item TString k_name (COpt None))) (Cons (NItem (Item (TMat D4 F32) k_transform (CV (VP (new_transform F32))))) (Cons (NNullSection k_sub) Nil)))
  ++ n2b 0xd1 :: num W64 false 14 ++ n2b (len k_vec) :: k_vec ++ num W16 false 0 ++ num W64 false (2^40).
Example C59_example : len file3 = 468 /\ len file3 < obj_least F32 * N.of_nat 5 /\ len many < obj_least F32 * N.of_nat 2 /\
  (exists st, read F32 5 (RE 100000 (fun _ => x00)) 0 (r_open (RS file3 0 false)) = Done (true, chain F32 2, st)) /\
  (exists o st, read F32 5 (RE 100000 (fun _ => x00)) 0 (r_open (RS (removelast file3 ++ [xff]) 0 false)) = Done (false, o, st)) /\
  read F32 2 (RE 100000 (fun _ => x00)) 0 (r_open (RS file3 0 false)) = Undef /\
  read F32 2 (RE (2^39) (fun _ => x00)) 0 (r_open (RS many 0 false)) = Throw.
Proof.
  split; [vm_compute; reflexivity|]. split; [vm_compute; reflexivity|]. split; [vm_compute; reflexivity|].
  split; [eexists; vm_compute; reflexivity|]. split; [eexists _, _; vm_compute; reflexivity|]. split; vm_compute; reflexivity.
Qed.
