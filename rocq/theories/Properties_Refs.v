(** * C44: references are unforgeable handles. *)
From Verif Require Import Base Bytes BytesFacts Values Types Keys Refs RefSpec RefFacts.
Open Scope N_scope.

(** C44: make_ref returns the id the operating system created, never null; it throws exactly if the
    operating system reports anything but success or stores the null id. *)
Theorem C44_make : forall r, len (rp_id r) = 16 ->
  make_ref r = (if rp_ok r && negb (zeros (rp_id r)) then Done (rp_id r) else Throw) /\
  (forall id, make_ref r = Done id -> ref_bool ERef id = true).
Proof.
  intros r L. pose proof (make_ref_spec r L) as E. split; [exact E|]. intros id H. rewrite E in H.
  destruct (rp_ok r), (zeros (rp_id r)) eqn:Z; try discriminate H. injection H as <-.
  unfold ref_bool. rewrite id_ne_neg, id_eq_zero by exact L. rewrite Z. reflexivity.
Qed.
Print Assumptions C44_make.

(** C44: whatever a program does with references (of either class), and whatever the operating system
    answers: the program is defined iff it only uses live objects; each object then holds the id of its
    handle: null, one that an earlier make_ref created, or one the program was given; a make_ref that
    fails changes nothing. If the operating system creates no id twice, all comparisons and bool
    conversions give what comparing the handles gives. *)
Theorem C44_handles : forall k os p, os_sized os -> for_kind k p ->
  match h_run (created os) (h_start k) p with
  | None => r_run k os (r_start k) p = Undef
  | Some a => exists s, r_run k os (r_start k) p = Done s /\
      r_objs s = map (option_map (id_of k os)) (h_objs a) /\
      (os_fresh k os p -> r_seen s = h_seen a) /\
      (forall h, In (Some h) (h_objs a) -> h = Null \/ (exists n, h = Made n /\ created os n = true) \/
                 (exists id, h = Given id /\ In id (given_ids k p) /\ zeros id = false))
  end.
Proof. exact t_refs. Qed.
Print Assumptions C44_handles.

(** Finding: x = std::move( x ) loses the reference (ISD_entity_ref.inl:18, ISD_package_ref.inl:15). *)
Theorem C44_self_move_refuted :
  ~ (forall k os x p s s', r_run k os (r_start k) p = Done s -> r_run k os (r_start k) (p ++ [RMoveTo x x]) = Done s' ->
     r_objs s' = r_objs s).
Proof.
  intros H. specialize (H PRef (fun _ => Reply false []) 0%nat [RFrom (id_sup PRef)] _ _ eq_refl eq_refl). discriminate H.
Qed.
Print Assumptions C44_self_move_refuted.
(** Finding: entity_ref::_sup() can be assigned to by anyone, so it need not be the greatest reference. *)
Theorem C44_sup_overwritten_refuted :
  ~ (forall os p s, r_run ERef os (r_start ERef) p = Done s -> at_ (r_objs s) 1%nat = Some (id_sup ERef)).
Proof.
  intros H. specialize (H (fun _ => Reply false []) [RCopyTo 1 0] _ eq_refl). discriminate H.
Qed.
Print Assumptions C44_sup_overwritten_refuted.

(** Witness: two references made (one attempt failing), copied, moved from and compared. *)
Definition os0 (n : nat) : reply :=
  match n with
  | O => Reply false (rep x07 16)
  | S m => Reply true (le 16 (N.of_nat n))
  end.
Definition prog44 : list rop :=
  [RMake; RMake; RMake; RNewCopy 2; REq 2 3; REq 2 4; RNe 2 3; RMoveTo 3 2; RBool 2; REq 3 4; RDestroy 4; RMakeTo 2; REq 2 3; RBool 1].
Example C44_example : os_sized os0 /\ for_kind ERef prog44 /\ os_fresh ERef os0 prog44 /\
  (exists s, r_run ERef os0 (r_start ERef) prog44 = Done s /\
     r_seen s = [false; true; true; false; true; true; false; true; true; false; true]) /\
  (exists a, h_run (created os0) (h_start ERef) prog44 = Some a /\
     h_objs a = [Some Null; Some (Given (id_sup ERef)); Some (Made 3); Some (Made 1); None]).
Proof.
  split; [intros [|n]; [reflexivity|]; cbn [os0 rp_id]; unfold len; rewrite le_length; reflexivity|].
  split; [split; [|discriminate]; intros id [<-|[]]; reflexivity|].
  split.
  - split.
    + intros n m Hn Hm Cn Cm. change (length prog44) with 14%nat in *.
      do 14 (destruct n as [|n]; [do 14 (destruct m as [|m]; [solve [reflexivity|discriminate]|]); lia|]). lia.
    + intros n Hn Cn [E|[]]. change (length prog44) with 14%nat in *.
      do 14 (destruct n as [|n]; [discriminate|]). lia.
  - split; eexists; split; vm_compute; reflexivity.
Qed.
