(** * StdSetFacts: sorted lists behave as sets. Proofs. *)
From Coq Require Import Sorting.Sorted.
From Verif Require Import Base Keys KeySpec StdSet.
Local Open Scope nat_scope.

Section S.
Context {A : Type} (lt : A -> A -> bool) (LT : strict_total_order lt).

Notation ssorted := (StronglySorted (fun a b => lt a b = true)).

Lemma lt_irr a : lt a a = false. Proof. apply LT. Qed.
Lemma lt_tr a b c : lt a b = true -> lt b c = true -> lt a c = true. Proof. apply LT. Qed.
Lemma lt_asym a b : lt a b = true -> lt b a = false.
Proof. intros H. destruct (lt b a) eqn:E; auto. pose proof (lt_tr _ _ _ H E). rewrite lt_irr in H0; discriminate. Qed.
Lemma lt_neither a b : lt a b = false -> lt b a = false -> a = b.
Proof. intros H1 H2. destruct LT as (_ & _ & T). destruct (T a b) as [H|[H|H]]; congruence. Qed.
(** a <= b < c -> a < c and so on *)
Lemma nlt_tr a b c : lt b a = false -> lt b c = true -> lt a c = true.
Proof.
  intros H1 H2. destruct (lt a b) eqn:E; [eapply lt_tr; eauto|]. rewrite (lt_neither a b); auto.
Qed.
Lemma nlt_tr2 a b c : lt a b = true -> lt c b = false -> lt a c = true.
Proof.
  intros H1 H2. destruct (lt b c) eqn:E; [eapply lt_tr; eauto|]. rewrite <- (lt_neither b c); auto.
Qed.

Lemma equiv_iff a b : equiv lt a b = true <-> a = b.
Proof.
  unfold equiv. rewrite andb_true_iff, !negb_true_iff. split.
  - intros [H1 H2]. apply lt_neither; auto.
  - intros ->. rewrite lt_irr; auto.
Qed.
Lemma mem_iff x l : set_mem lt x l = true <-> In x l.
Proof.
  unfold set_mem. rewrite existsb_exists. split.
  - intros (y & Hy & E). apply equiv_iff in E. subst; auto.
  - intros H. exists x. split; auto. apply equiv_iff; auto.
Qed.
Lemma mem_false x l : set_mem lt x l = false <-> ~ In x l.
Proof. rewrite <- mem_iff. destruct (set_mem lt x l); split; congruence. Qed.

Lemma insert_in x y l : In y (set_insert lt x l) <-> y = x \/ In y l.
Proof.
  induction l as [|z l IH]; cbn; [intuition congruence|].
  destruct (lt x z) eqn:E1; cbn; [intuition congruence|].
  destruct (lt z x) eqn:E2; cbn.
  - rewrite IH. tauto.
  - rewrite <- (lt_neither x z E1 E2). intuition congruence.
Qed.
Lemma insert_sorted x l : ssorted l -> ssorted (set_insert lt x l).
Proof.
  induction l as [|z l IH]; cbn; intros H.
  - constructor; constructor.
  - inversion H as [|? ? Hs Hf]; subst. destruct (lt x z) eqn:E1.
    + constructor; auto. constructor; auto. eapply Forall_impl; [|exact Hf]. intros; eapply lt_tr; eauto.
    + destruct (lt z x) eqn:E2; auto. constructor; auto.
      apply Forall_forall. intros y Hy. apply insert_in in Hy. destruct Hy as [->|Hy]; auto.
      rewrite Forall_forall in Hf; auto.
Qed.
Lemma insert_old x l : In x l -> ssorted l -> set_insert lt x l = l.
Proof.
  induction l as [|z l IH]; cbn; intros H S; [tauto|]. inversion S as [|? ? Hs Hf]; subst.
  destruct H as [->|H].
  - rewrite lt_irr; auto.
  - rewrite Forall_forall in Hf. pose proof (Hf x H) as L. rewrite (lt_asym _ _ L), L, IH; auto.
Qed.
Lemma erase_in x y l : In y (set_erase lt x l) <-> In y l /\ y <> x.
Proof.
  unfold set_erase. rewrite filter_In, negb_true_iff. split; intros [H1 H2]; split; auto.
  - intros ->. assert (equiv lt x x = true) by (apply equiv_iff; auto). congruence.
  - destruct (equiv lt x y) eqn:E; auto. apply equiv_iff in E. congruence.
Qed.
Lemma sorted_nodup l : ssorted l -> NoDup l.
Proof.
  induction 1 as [|a l H IH F]; constructor; auto. intros Hi. rewrite Forall_forall in F.
  pose proof (F a Hi). rewrite lt_irr in H0; discriminate.
Qed.

Lemma sorted_ext l r : ssorted l -> ssorted r -> (forall x, In x l <-> In x r) -> l = r.
Proof.
  intros Hl; revert r; induction Hl as [|a l Hs IH Hf]; intros r Hr E.
  - destruct r as [|b r]; auto. destruct (proj2 (E b)); left; auto.
  - destruct Hr as [|b r Hs' Hf'].
    + destruct (proj1 (E a)); left; auto.
    + rewrite Forall_forall in *.
      assert (a = b).
      { destruct (proj1 (E a) (or_introl eq_refl)) as [|Ha]; auto.
        destruct (proj2 (E b) (or_introl eq_refl)) as [|Hb]; auto.
        pose proof (Hf _ Hb) as L1. pose proof (Hf' _ Ha) as L2. rewrite (lt_asym _ _ L1) in L2. discriminate. }
      subst b. f_equal. apply IH; auto. intros x. split; intros Hx.
      * destruct (proj1 (E x) (or_intror Hx)) as [<-|]; auto. pose proof (Hf _ Hx). rewrite lt_irr in H; discriminate.
      * destruct (proj2 (E x) (or_intror Hx)) as [<-|]; auto. pose proof (Hf' _ Hx). rewrite lt_irr in H; discriminate.
Qed.

Lemma fold_insert_in l s y : In y (fold_left (fun s x => set_insert lt x s) l s) <-> In y l \/ In y s.
Proof.
  revert s; induction l as [|x l IH]; intros s; cbn; [tauto|]. rewrite IH, insert_in. intuition congruence.
Qed.
Lemma fold_insert_sorted l s : ssorted s -> ssorted (fold_left (fun s x => set_insert lt x s) l s).
Proof. revert s; induction l; intros s H; cbn; auto. apply IHl, insert_sorted, H. Qed.
Lemma set_of_in l y : In y (set_of lt l) <-> In y l.
Proof. unfold set_of. rewrite fold_insert_in. cbn. tauto. Qed.
Lemma set_of_sorted l : ssorted (set_of lt l).
Proof. apply fold_insert_sorted. constructor. Qed.
Lemma set_of_id l : ssorted l -> set_of lt l = l.
Proof. intros H. apply sorted_ext; auto using set_of_sorted. intros; apply set_of_in. Qed.

(** Iterator ranges. *)
Lemma sorted_tail_ge y r x : ssorted (y :: r) -> lt y x = false -> Forall (fun z => lt z x = false) (y :: r).
Proof.
  intros S H. inversion S as [|? ? _ Hf]; subst. constructor; auto.
  eapply Forall_impl; [|exact Hf]. cbn. intros z Hz. destruct (lt z x) eqn:E; auto.
  rewrite (lt_tr _ _ _ Hz E) in H. discriminate.
Qed.
Lemma filter_all {B} (f : B -> bool) l : Forall (fun x => f x = true) l -> filter f l = l.
Proof. induction 1; cbn; auto. rewrite H, IHForall; auto. Qed.
Lemma filter_none {B} (f : B -> bool) l : Forall (fun x => f x = false) l -> filter f l = [].
Proof. induction 1; cbn; auto. rewrite H; auto. Qed.

Lemma lower_bound_filter x l : ssorted l -> lower_bound lt x l = filter (fun z => negb (lt z x)) l.
Proof.
  induction l as [|y r IH]; intros S; cbn; auto. inversion S; subst.
  destruct (lt y x) eqn:E; cbn; auto. f_equal. symmetry. apply filter_all.
  pose proof (sorted_tail_ge _ _ _ S E) as F. inversion F; subst.
  eapply Forall_impl; [|eassumption]. cbn. intros z ->; auto.
Qed.
Lemma upper_bound_filter x l : ssorted l -> upper_bound lt x l = filter (lt x) l.
Proof.
  induction l as [|y r IH]; intros S; cbn; auto. inversion S as [|? ? ? F]; subst.
  destruct (lt x y) eqn:E; cbn; auto. f_equal. symmetry. apply filter_all.
  eapply Forall_impl; [|exact F]. intros; eapply lt_tr; eauto.
Qed.

(** [p] holds on an upper part of the sorted list, [q] on a part of that: the range is the difference. *)
Lemma range_filter (p q : A -> bool) l : 
  (forall z, q z = true -> p z = true) ->
  (forall a b, lt a b = true -> p a = true -> p b = true) ->
  (forall a b, lt a b = true -> q a = true -> q b = true) ->
  ssorted l ->
  length (filter q l) <= length (filter p l) /\
  range (filter p l) (filter q l) = filter (fun z => p z && negb (q z)) l.
Proof.
  intros Hqp Up Uq. induction l as [|y r IH]; intros S; cbn; auto.
  inversion S as [|? ? S' F]; subst. destruct (IH S') as [L R]. clear IH.
  destruct (p y) eqn:Ep, (q y) eqn:Eq; cbn [length andb negb].
  - split; [lia|]. unfold range. cbn [length].
    assert (Fq : filter q r = r).
    { apply filter_all. eapply Forall_impl; [|exact F]. cbn. intros; eapply Uq; eauto. }
    assert (Fp : filter p r = r).
    { apply filter_all. eapply Forall_impl; [|exact F]. cbn. intros; eapply Up; eauto. }
    rewrite Fq, Fp, Nat.sub_diag. cbn [firstn]. symmetry. apply filter_none.
    eapply Forall_impl; [|exact F]. cbn. intros z Hz. rewrite (Uq _ _ Hz Eq), andb_false_r; auto.
  - split; [lia|]. unfold range in *.
    change (length (y :: filter p r)) with (Datatypes.S (length (filter p r))).
    replace (Datatypes.S (length (filter p r)) - length (filter q r)) with (Datatypes.S (length (filter p r) - length (filter q r))) by lia.
    cbn [firstn]. rewrite R. reflexivity.
  - rewrite (Hqp _ Eq) in Ep. discriminate.
  - auto.
Qed.

Lemma range_lower_upper x y l : ssorted l -> lt y x = false ->
  length (upper_bound lt y l) <= length (lower_bound lt x l) /\
  range (lower_bound lt x l) (upper_bound lt y l) = filter (fun z => negb (lt z x) && negb (lt y z)) l.
Proof.
  intros S H. rewrite lower_bound_filter, upper_bound_filter by auto.
  apply (range_filter (fun z => negb (lt z x)) (lt y)); auto.
  - intros z Hz. rewrite negb_true_iff. destruct (lt z x) eqn:E; auto. rewrite (lt_tr _ _ _ Hz E) in H; discriminate.
  - intros a b Hab. rewrite !negb_true_iff. intros Ha. destruct (lt b x) eqn:E; auto. rewrite (lt_tr _ _ _ Hab E) in Ha; discriminate.
  - intros a b Hab Ha. eapply lt_tr; eauto.
Qed.
Lemma range_lower_lower x y l : ssorted l -> lt y x = false ->
  length (lower_bound lt y l) <= length (lower_bound lt x l) /\
  range (lower_bound lt x l) (lower_bound lt y l) = filter (fun z => negb (lt z x) && lt z y) l.
Proof.
  intros S H. rewrite !lower_bound_filter by auto.
  destruct (range_filter (fun z => negb (lt z x)) (fun z => negb (lt z y)) l) as [L R]; auto.
  - intros z. rewrite !negb_true_iff. intros Hz. destruct (lt z x) eqn:E; auto. rewrite (nlt_tr2 _ _ _ E H) in Hz. discriminate.
  - intros a b Hab. rewrite !negb_true_iff. intros Ha. destruct (lt b x) eqn:E; auto. rewrite (lt_tr _ _ _ Hab E) in Ha; discriminate.
  - intros a b Hab. rewrite !negb_true_iff. intros Ha. destruct (lt b y) eqn:E; auto. rewrite (lt_tr _ _ _ Hab E) in Ha; discriminate.
  - split; auto. rewrite R. apply filter_ext. intros z. rewrite negb_involutive. reflexivity.
Qed.
End S.

Lemma pair_lt_order {A} (lt : A -> A -> bool) : strict_total_order lt -> strict_total_order (pair_lt lt).
Proof.
  intros LT. pose proof LT as (R & Tr & To). unfold pair_lt. split; [|split].
  - intros [a b]; cbn. rewrite !R. reflexivity.
  - intros [a b] [c d] [e f]; cbn. rewrite !orb_true_iff, !andb_true_iff, !negb_true_iff.
    intros [H1|[H1 H2]] [H3|[H3 H4]].
    + left; eauto.
    + left. eapply (nlt_tr2 lt LT); eauto.
    + left. eapply (nlt_tr lt LT); eauto.
    + right. split; [|eauto]. destruct (lt e a) eqn:E; auto.
      pose proof (nlt_tr2 lt LT _ _ _ E H1). congruence.
  - intros [a b] [c d]; cbn. rewrite !orb_true_iff, !andb_true_iff, !negb_true_iff.
    destruct (To a c) as [H|[H|H]]; auto. subst. rewrite R.
    destruct (To b d) as [H|[H|H]]; auto. subst; auto.
Qed.
