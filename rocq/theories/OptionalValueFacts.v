(** * OptionalValueFacts: the unique_ptr inside optional_value. Proofs. *)
From Coq Require Import Permutation.
From Verif Require Import Base Containers ContainerSpec ContainerFacts.

Section S.
Context {T : Type}.
Notation store := (store T).

Definition opt1 (p : option nat) : list nat := match p with Some a => [a] | None => [] end.
Definition somes (l : list (option nat)) : list nat := flat_map opt1 l.
Definition full (c : option T) : bool := match c with Some _ => true | None => false end.
Definition cell (s : store) (p : option nat) : option T :=
  match p with None => None | Some a => match nth_error (cells s) a with Some c => c | None => None end end.
Definition view (s : store) : list (option T) := map (cell s) (ptrs s).

Definition owned (own : list nat) (cs : list (option T)) : Prop :=
  NoDup own /\ (forall a, In a own -> exists v, nth_error cs a = Some (Some v)) /\
  length (filter full cs) = length own.
Definition inv (q : list nat) (s : store) : Prop := owned (q ++ somes (ptrs s)) (cells s).

Lemma owned_perm o o' cs : Permutation o o' -> owned o cs -> owned o' cs.
Proof.
  intros P (N & L & C). split; [|split].
  - eapply Permutation_NoDup; eauto.
  - intros a H. apply L. eapply Permutation_in; [apply Permutation_sym; eauto|auto].
  - rewrite C. apply Permutation_length; auto.
Qed.

Lemma somes_put i p old l : nth_error l i = Some old ->
  Permutation (opt1 old ++ somes (put i p l)) (opt1 p ++ somes l).
Proof.
  revert i; induction l as [|b l IH]; destruct i; cbn; intros E; inversion E; subst.
  - rewrite !app_assoc. apply Permutation_app_tail, Permutation_app_comm.
  - specialize (IH i H0). fold (somes l) (somes (put i p l)).
    rewrite !app_assoc. rewrite (Permutation_app_comm (opt1 old)), (Permutation_app_comm (opt1 p)).
    rewrite <- !app_assoc. apply Permutation_app_head. exact IH.
Qed.

Lemma filter_put_none cs a v : nth_error cs a = Some (Some v) ->
  length (filter full cs) = S (length (filter full (put a None cs))).
Proof.
  revert a; induction cs as [|c cs IH]; destruct a; cbn; intros E; inversion E; subst; cbn; auto.
  destruct (full c); cbn; rewrite (IH a H0); reflexivity.
Qed.
Lemma filter_put_some cs a v w : nth_error cs a = Some (Some v) ->
  length (filter full cs) = length (filter full (put a (Some w) cs)).
Proof.
  revert a; induction cs as [|c cs IH]; destruct a; cbn; intros E; inversion E; subst; cbn; auto.
  destruct (full c); cbn; rewrite (IH a H0); reflexivity.
Qed.

Lemma nth_error_app_l {A} (l r : list A) i a : nth_error l i = Some a -> nth_error (l ++ r) i = Some a.
Proof. intros H. rewrite nth_error_app1; auto. apply nth_error_Some. rewrite H; discriminate. Qed.

Lemma in_somes l p i : nth_error l i = Some (Some p) -> In p (somes l).
Proof.
  intros H. apply nth_error_In in H. unfold somes. apply in_flat_map. exists (Some p). cbn; auto.
Qed.

Lemma ptr_inj l i k a : NoDup (somes l) -> nth_error l i = Some (Some a) -> nth_error l k = Some (Some a) -> i = k.
Proof.
  revert i k. induction l as [|q l IH]; intros i k N E F.
  { destruct i; discriminate. }
  cbn in N. destruct i, k; cbn in *; auto.
  - inversion E; subst. cbn in N. inversion N as [|? ? N1 N2]; subst. destruct N1. eapply in_somes; eauto.
  - inversion F; subst. cbn in N. inversion N as [|? ? N1 N2]; subst. destruct N1. eapply in_somes; eauto.
  - f_equal. apply IH; auto. destruct q; cbn in N; [inversion N|]; auto.
Qed.

Lemma view_eq s s' : ptrs s' = ptrs s ->
  (forall a, In a (somes (ptrs s)) -> nth_error (cells s') a = nth_error (cells s) a) -> view s' = view s.
Proof.
  intros P H. unfold view. rewrite P. clear P. revert H.
  induction (ptrs s) as [|p l IH]; cbn; intros H; auto.
  f_equal.
  - destruct p; cbn; auto. rewrite (H n); auto. left; auto.
  - apply IH. intros a Ha. apply H. apply in_or_app; auto.
Qed.

Lemma alloc_ok q s v n s' : inv q s -> alloc v s = (n, s') ->
  inv (n :: q) s' /\ ptrs s' = ptrs s /\ cell s' (Some n) = Some v /\ view s' = view s.
Proof.
  unfold alloc. intros (N & L & C) E; inversion E; subst; clear E.
  assert (X : forall a, In a (q ++ somes (ptrs s)) -> a < length (cells s)).
  { intros a Ha. destruct (L a Ha) as [w Hw]. apply nth_error_Some. rewrite Hw; discriminate. }
  split; [|split; [reflexivity|split]].
  - cbn. split; [|split].
    + constructor; auto. intros Hi. apply X in Hi. lia.
    + intros a [<-|Ha].
      * exists v. cbn. rewrite nth_error_app2, Nat.sub_diag; [reflexivity|lia].
      * destruct (L a Ha) as [w Hw]. exists w. apply nth_error_app_l; auto.
    + cbn [cells ptrs]. rewrite filter_app, app_length, C. cbn. unfold full. cbn. lia.
  - cbn. rewrite nth_error_app2, Nat.sub_diag; [reflexivity|lia].
  - apply view_eq; auto. intros a Ha. cbn. apply nth_error_app1. apply X. apply in_or_app; auto.
Qed.

Lemma set_ptr_ok q s i p old : nth_error (ptrs s) i = Some old -> inv (opt1 p ++ q) s ->
  inv (opt1 old ++ q) (set_ptr i p s) /\ view (set_ptr i p s) = put i (cell s p) (view s) /\
  length (ptrs (set_ptr i p s)) = length (ptrs s).
Proof.
  intros E H. split; [|split].
  - unfold inv in *. cbn. eapply owned_perm; [|exact H].
    rewrite <- !app_assoc, !(Permutation_app_comm q), !app_assoc.
    apply Permutation_app_tail. symmetry. apply somes_put; auto.
  - unfold view. cbn. rewrite map_put. reflexivity.
  - cbn. apply put_length.
Qed.

Lemma free_ok q s old : inv (opt1 old ++ q) s ->
  exists s', free old s = Done s' /\ inv q s' /\ view s' = view s /\ ptrs s' = ptrs s.
Proof.
  destruct old as [a|]; cbn.
  2:{ intros H. exists s. auto. }
  intros (N & L & C). destruct (L a (or_introl eq_refl)) as [v Hv]. cbn in Hv. rewrite Hv.
  eexists; split; [reflexivity|].
  inversion N as [|? ? Ni Nd]; subst.
  assert (O : forall b, In b (q ++ somes (ptrs s)) -> a <> b) by (intros b Hb ->; auto).
  split; [|split; [|reflexivity]].
  - split; [exact Nd|split].
    + intros b Hb. cbn. rewrite put_other by auto. apply L. right; auto.
    + cbn [cells ptrs]. cbn in C. rewrite (filter_put_none _ _ _ Hv) in C. lia.
  - apply view_eq; [reflexivity|]. intros b Hb. cbn. apply put_other, O, in_or_app; auto.
Qed.

Lemma ptr_reset_ok q s i p : i < length (ptrs s) -> inv (opt1 p ++ q) s ->
  exists s', ptr_reset i p s = Done s' /\ inv q s' /\ view s' = put i (cell s p) (view s).
Proof.
  intros Hi H. destruct (nth_error_lt _ _ Hi) as [old E].
  unfold ptr_reset, ptr. rewrite E. cbn.
  destruct (set_ptr_ok q s i p old E H) as (I1 & V1 & _).
  destruct (free_ok q _ old I1) as (s2 & E2 & I2 & V2 & _).
  exists s2. split; [exact E2|]. split; [exact I2|]. rewrite V2, V1. reflexivity.
Qed.

Lemma view_length s : length (view s) = length (ptrs s).
Proof. apply map_length. Qed.
Lemma view_nth s j p : nth_error (ptrs s) j = Some p -> nth j (view s) None = cell s p.
Proof. intros E. apply nth_map_none; auto. Qed.

Lemma clone_ok q s j : inv q s -> j < length (ptrs s) ->
  exists p s', clone j s = Done (p, s') /\ inv (opt1 p ++ q) s' /\ view s' = view s /\
    cell s' p = nth j (view s) None /\ ptrs s' = ptrs s.
Proof.
  intros H Hj. destruct (nth_error_lt _ _ Hj) as [p E].
  unfold clone, ptr. rewrite E. cbn. rewrite (view_nth _ _ _ E).
  destruct p as [a|].
  - pose proof H as (N & L & C).
    destruct (L a) as [v Hv]. { apply in_or_app; right. eapply in_somes; eauto. }
    unfold deref. rewrite Hv. cbn -[alloc].
    destruct (alloc v s) as [n s1] eqn:A.
    destruct (alloc_ok q s v n s1 H A) as (I1 & P1 & C1 & V1).
    exists (Some n), s1. split; [unfold alloc in A; inversion A; reflexivity|]. split; [exact I1|]. split; [exact V1|].
    split; [|exact P1]. rewrite C1. unfold cell. rewrite Hv. reflexivity.
  - exists None, s. repeat split; auto; apply H.
Qed.

Lemma new_var_ok s p : inv (opt1 p) s -> inv [] (new_var p s) /\ view (new_var p s) = view s ++ [cell s p].
Proof.
  intros H. split.
  - unfold inv, new_var in *. cbn. eapply owned_perm; [|exact H].
    unfold somes. rewrite flat_map_app. cbn. rewrite app_nil_r. apply Permutation_app_comm.
  - unfold view, new_var. cbn. rewrite map_app. reflexivity.
Qed.

Lemma put_comm {A} i j (a b : A) l : i <> j -> put i a (put j b l) = put j b (put i a l).
Proof. revert i j; induction l; destruct i, j; cbn; intros; try lia; f_equal; auto. Qed.

Context (d : T).
Notation K := (value_kind d).
Notation sstep := (spec_step K).
Lemma ov_sim o s : inv [] s -> legal_step K o (view s) ->
  exists s', ov_step d o s = Done s' /\ inv [] s' /\ view s' = sstep o (view s).
Proof.
  intros HI [OF H]. destruct o; try discriminate OF; clear OF; rewrite ?view_length in H.
  - cbn. unfold ov_new. eexists; split; [reflexivity|]. apply (new_var_ok s None HI).
  - unfold ov_step, ov_new_value. destruct (alloc a s) as [n s1] eqn:A.
    destruct (alloc_ok [] s a n s1 HI A) as (I1 & P1 & C1 & V1).
    destruct (new_var_ok s1 (Some n) I1) as [I2 V2].
    eexists; split; [reflexivity|]. split; [exact I2|]. rewrite V2, V1, C1. reflexivity.
  - destruct (clone_ok [] s j HI H) as (p & s1 & E & I1 & V1 & C1 & _).
    cbn. unfold ov_new_copy. rewrite E. cbn. eexists; split; [reflexivity|].
    rewrite app_nil_r in I1. destruct (new_var_ok s1 p I1) as [A B]. split; [exact A|].
    rewrite B, V1, C1. reflexivity.
  - destruct (nth_error_lt _ _ H) as [p E]. cbn. unfold ov_new_move, ptr. rewrite E. cbn.
    eexists; split; [reflexivity|].
    destruct (set_ptr_ok [] s j None p E) as (I1 & V1 & _). { exact HI. }
    rewrite app_nil_r in I1. destruct (new_var_ok _ p I1) as [A B]. split; [exact A|].
    rewrite B, V1, (view_nth _ _ _ E). reflexivity.
  - destruct H as [H1 H2]. destruct (clone_ok [] s j HI H2) as (p & s1 & E & I1 & V1 & C1 & P1).
    cbn. unfold ov_copy_assign. rewrite E. cbn -[ptr_reset].
    destruct (ptr_reset_ok [] s1 i p) as (s2 & E2 & I2 & V2); [rewrite P1; auto|exact I1|].
    exists s2. split; [exact E2|]. split; [exact I2|]. rewrite V2, V1, C1. reflexivity.
  - destruct H as [H1 H2]. destruct (nth_error_lt _ _ H2) as [p E].
    cbn. unfold ov_move_assign. unfold ptr at 1. rewrite E. cbn -[ptr_reset].
    destruct (set_ptr_ok [] s j None p E) as (I1 & V1 & L1). { exact HI. }
    destruct (ptr_reset_ok [] (set_ptr j None s) i p) as (s2 & E2 & I2 & V2); [rewrite L1; auto|exact I1|].
    exists s2. split; [exact E2|]. split; [exact I2|]. rewrite V2, V1.
    change (cell (set_ptr j None s) p) with (cell s p). rewrite (view_nth _ _ _ E). cbn [cell].
    destruct (Nat.eqb_spec i j) as [->|N].
    + rewrite put_put. rewrite (view_nth _ _ _ E). reflexivity.
    + apply put_comm; auto.
  - destruct (ptr_reset_ok [] s i None) as (s2 & E2 & I2 & V2); [auto|exact HI|].
    exists s2. split; [exact E2|]. split; [exact I2|]. rewrite V2. reflexivity.
  - unfold ov_step, ov_set_default, ov_set. destruct (alloc d s) as [n s1] eqn:A.
    destruct (alloc_ok [] s d n s1 HI A) as (I1 & P1 & C1 & V1).
    destruct (ptr_reset_ok [] s1 i (Some n)) as (s2 & E2 & I2 & V2); [rewrite P1; auto|exact I1|].
    exists s2. split; [exact E2|]. split; [exact I2|]. rewrite V2, V1, C1. reflexivity.
  - unfold ov_step, ov_set. destruct (alloc a s) as [n s1] eqn:A.
    destruct (alloc_ok [] s a n s1 HI A) as (I1 & P1 & C1 & V1).
    destruct (ptr_reset_ok [] s1 i (Some n)) as (s2 & E2 & I2 & V2); [rewrite P1; auto|exact I1|].
    exists s2. split; [exact E2|]. split; [exact I2|]. rewrite V2, V1, C1. reflexivity.
  - destruct H as [H F]. destruct (nth_error_lt _ _ H) as [p E].
    cbn in F. rewrite (view_nth _ _ _ E) in F. destruct p as [b|]; [|discriminate].
    cbn. unfold ov_store, ptr. rewrite E. cbn.
    pose proof HI as (N & L & C). cbn in L, N, C. destruct (L b) as [w Hw]. { eapply in_somes; eauto. }
    unfold deref. rewrite Hw. cbn. eexists; split; [reflexivity|].
    assert (Hb : b < length (cells s)) by (apply nth_error_Some; rewrite Hw; discriminate).
    split.
    + split; [exact N|split].
      * intros c Hc. cbn. destruct (Nat.eq_dec b c) as [->|X].
        -- exists a. apply put_same; auto.
        -- rewrite put_other by auto. apply L; auto.
      * cbn [cells ptrs app]. rewrite <- (filter_put_some _ _ _ _ Hw). exact C.
    + unfold view at 1. cbn [ptrs].
      apply nth_error_ext; intros k. destruct (Nat.eq_dec i k) as [->|X].
      * rewrite put_same by (rewrite view_length; auto). rewrite nth_error_map, E. cbn.
        rewrite put_same by auto. reflexivity.
      * rewrite put_other by auto. unfold view. rewrite !nth_error_map.
        destruct (nth_error (ptrs s) k) as [[c|]|] eqn:Ek; cbn; auto.
        rewrite put_other; auto. intros ->.
        apply X. eapply ptr_inj; eauto.
Qed.
Lemma look_cell (s : store) i p : inv [] s -> nth_error (ptrs s) i = Some p -> ov_look s i = Done (cell s p).
Proof.
  intros (N & L & C) E. cbn in L. unfold ov_look, ov_has_value, ov_value, ptr. rewrite E. cbn.
  destruct p as [a|]; cbn; [|reflexivity].
  destruct (L a) as [v Hv]. { eapply in_somes; eauto. }
  unfold deref. rewrite Hv. reflexivity.
Qed.

Lemma somes_view s : inv [] s -> length (filter filled_opt (view s)) = length (somes (ptrs s)).
Proof.
  intros (N & L & C). cbn in *. unfold view. clear N C. revert L.
  induction (ptrs s) as [|p l IH]; cbn; intros L; auto.
  destruct p as [a|]; cbn.
  - destruct (L a) as [v Hv]; [left; auto|]. rewrite Hv. cbn. f_equal. apply IH. intros; apply L; right; auto.
  - apply IH; auto.
Qed.

Lemma t_optional_value p : legal K p [] ->
  exists s, crun (ov_step d) p (MkStore [] []) = Done s /\
    (forall i v, nth_error (spec_run K p []) i = Some v -> ov_look s i = Done v) /\
    live s = length (filter filled_opt (spec_run K p [])).
Proof.
  intros H.
  assert (H0 : inv [] (MkStore [] [])).
  { split; [constructor|split]; [|reflexivity]. intros a []. }
  destruct (crun_sim (ov_step d) view K (inv [])
    (fun o s Hi Hl => ov_sim o s Hi Hl) p (MkStore [] []) H0 H) as (s & E & I1 & V).
  exists s. split; [exact E|]. change (view (MkStore [] [])) with (@nil (option T)) in V.
  rewrite <- V. split.
  - intros i v Hv. unfold view in Hv. rewrite nth_error_map in Hv.
    destruct (nth_error (ptrs s) i) eqn:Ep; [|discriminate]. cbn in Hv. inversion Hv; subst.
    apply look_cell; auto.
  - rewrite (somes_view s I1). unfold live. destruct I1 as (_ & _ & C). exact C.
Qed.

Lemma ov_look_ptr (s : store) i a : ov_look s i = Done a ->
  (a = None /\ ptr i s = Done None) \/
  (exists p v, a = Some v /\ ptr i s = Done (Some p) /\ deref p s = Done v).
Proof.
  unfold ov_look, ov_has_value, ov_value. destruct (ptr i s) as [[p|]| |] eqn:E; cbn; try discriminate.
  - destruct (deref p s) eqn:D; cbn; try discriminate. intros H; inversion H; subst. right. eauto.
  - intros H; inversion H; subst. auto.
Qed.

Lemma t_ov_eq (teq tne : T -> T -> bool) s i j a b : ov_look s i = Done a -> ov_look s j = Done b ->
  ov_eq teq i j s = Done (opt_same teq a b) /\
  ((forall x y, tne x y = negb (teq x y)) -> ov_ne tne i j s = Done (negb (opt_same teq a b))).
Proof.
  intros Ha Hb. unfold ov_eq, ov_ne.
  destruct (ov_look_ptr _ _ _ Ha) as [[-> E]|(p & v & -> & E & D)];
  destruct (ov_look_ptr _ _ _ Hb) as [[-> E']|(p' & v' & -> & E' & D')]; rewrite E, E'; cbn; auto.
  rewrite D, D'. cbn. split; auto. intros ->. reflexivity.
Qed.
Lemma t_ov_eq_value (teq tne : T -> T -> bool) s i a w : ov_look s i = Done a ->
  ov_eq_value teq i w s = Done (opt_same teq a (Some w)) /\
  ((forall x y, tne x y = negb (teq x y)) -> ov_ne_value tne i w s = Done (negb (opt_same teq a (Some w)))).
Proof.
  intros Ha. unfold ov_eq_value, ov_ne_value.
  destruct (ov_look_ptr _ _ _ Ha) as [[-> E]|(p & v & -> & E & D)]; rewrite E; cbn; auto.
  rewrite D. cbn. split; auto. intros ->. reflexivity.
Qed.
End S.

(** ** Equality of contents. *)
Lemma opt_same_equiv {S} (eqb : S -> S -> bool) : equivalence eqb -> equivalence (opt_same eqb).
Proof.
  intros (R & Sy & Tr). split; [|split].
  - intros [x|]; cbn; auto.
  - intros [x|] [y|]; cbn; auto.
  - intros [x|] [y|] [z|]; cbn; try discriminate; eauto.
Qed.

Lemma vec_eq_iff {S} (eqb : S -> S -> bool) a b : vec_eq eqb a b = true <-> list_same eqb a b.
Proof.
  unfold list_same. revert b; induction a as [|x a IH]; intros [|y b]; cbn.
  - split; auto. intros _; split; auto. intros [|n]; discriminate.
  - split; [discriminate|]. intros [? _]; discriminate.
  - split; [discriminate|]. intros [? _]; discriminate.
  - rewrite andb_true_iff, IH. split.
    + intros [E [L H]]. split; [lia|]. intros [|n] u v; cbn; intros U V.
      * inversion U; inversion V; subst; auto.
      * eauto.
    + intros [L H]. split; [apply (H 0); reflexivity|]. split; [lia|].
      intros n u v U V. apply (H (Datatypes.S n)); auto.
Qed.
Lemma vec_eq_equiv {S} (eqb : S -> S -> bool) : equivalence eqb -> equivalence (vec_eq eqb).
Proof.
  intros (R & Sy & Tr). split; [|split].
  - intros a; induction a; cbn; auto. rewrite R, IHa; auto.
  - intros a; induction a; intros [|y b]; cbn; auto. rewrite Sy, IHa; auto.
  - intros a; induction a; intros [|y b] [|z c]; cbn; auto; try discriminate.
    rewrite !andb_true_iff. intros [A B] [C D]. eauto.
Qed.

