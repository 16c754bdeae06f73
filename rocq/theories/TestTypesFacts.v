(** * TestTypesFacts: proofs about the tests of the types. *)
From Coq Require Import Lia Sorting.Sorted.
From Verif Require Import Base Bytes BytesFacts Values Types Keys KeySpec KeyFacts Refs RefSpec RefFacts Containers StdSet StdSetFacts ThreadMap ThreadMapFacts TestTypes.
Local Open Scope nat_scope.

(** ** References *)
Lemma lex_refl a : lex_lt a a = false.
Proof. apply lex_lt_order. Qed.
Lemma lex_least a : a <> repeat x00 (length a) -> lex_lt (repeat x00 (length a)) a = true.
Proof.
  intros H. destruct (lex_lt (repeat x00 (length a)) a) eqn:E; [reflexivity|]. exfalso. apply H.
  pose proof (lex_rep0 (length a) a eq_refl) as L. unfold lex_lt in *.
  destruct (lex (repeat x00 (length a)) a) eqn:X; try discriminate.
  - symmetry. apply lex_eq. exact X.
  - rewrite lex_opp, X in L. discriminate.
Qed.
Lemma made_iff k x : len x = rsize k -> ref_test_made k x = negb (zeros x).
Proof.
  intros Hl. pose proof (len_zero k) as Lz.
  assert (E0 : id_eq k (id_zero k) x = zeros x).
  { apply Bool.eq_iff_eq_true. rewrite (id_eq_iff k _ _ Lz Hl), zeros_iff, Hl. unfold id_zero. split; intros; congruence. }
  assert (E1 : id_eq k x (id_zero k) = zeros x) by (apply id_eq_zero; exact Hl).
  assert (E2 : id_eq k x x = true) by (apply (id_eq_iff k); auto).
  unfold ref_test_made, ref_default, ref_copy, ref_left, ref_eq, ref_ne, id_lt. cbv zeta.
  rewrite !id_ne_neg, E0, E1, E2, lex_refl. destruct (zeros x) eqn:Z; cbn; [reflexivity|].
  assert (L : lex_lt (id_zero k) x = true).
  { assert (Q : id_zero k = repeat x00 (length x)).
    { unfold id_zero, rep. f_equal. unfold len in Hl. lia. }
    rewrite Q. apply lex_least. intros F. rewrite F in Z.
    assert (zeros (repeat x00 (length x)) = true); [|congruence].
    apply zeros_iff. unfold rep, len. rewrite repeat_length. f_equal. lia. }
  rewrite L. reflexivity.
Qed.
Lemma t_package h : len h = 32%N -> package_ref_test h = negb (zeros h).
Proof.
  intros Hl. unfold package_ref_test. rewrite made_iff by exact Hl.
  replace (ref_test_null PRef) with true by (vm_compute; reflexivity). reflexivity.
Qed.
Lemma t_entity r : len (rp_id r) = 16%N ->
  entity_ref_test r = if rp_ok r && negb (zeros (rp_id r)) then Done true else Throw.
Proof.
  intros Hl. unfold entity_ref_test. replace (ref_test_null ERef) with true by (vm_compute; reflexivity). cbn [negb].
  unfold make_ref. rewrite (id_eq_zero ERef) by exact Hl. destruct (rp_ok r); cbn; [|reflexivity].
  destruct (zeros (rp_id r)) eqn:Z; cbn; [reflexivity|]. rewrite made_iff by exact Hl. rewrite Z. reflexivity.
Qed.

(** ** Values *)
Lemma t_optional_value a b : optional_value_test a b = Done (negb (N.eqb a 0) && negb (N.eqb a b)).
Proof.
  unfold optional_value_test. cbn. rewrite !N.eqb_refl. cbn.
  destruct (N.eqb a 0) eqn:A; cbn; [reflexivity|]. rewrite ?N.eqb_refl, (N.eqb_sym b a). cbn.
  destruct (N.eqb a b) eqn:B; cbn; reflexivity.
Qed.

Section Vectors.
Context {T : Type} (teq : T -> T -> bool) (TE : forall x y, teq x y = true <-> x = y).
Lemma vr v : vec_eq teq v v = true.
Proof. induction v as [|x v IH]; cbn; [reflexivity|]. rewrite IH, (proj2 (TE x x) eq_refl). reflexivity. Qed.
Lemma ir v : vec_eq N.eqb v v = true.
Proof. induction v as [|x v IH]; cbn; [reflexivity|]. rewrite IH, N.eqb_refl. reflexivity. Qed.
Lemma index_length (d : list T) : length (drawn_index d) = 2 * length d.
Proof.
  unfold drawn_index. generalize (length d) as n. intros n.
  assert (H : forall m s, length (flat_map (fun i => [N.of_nat i * 2; N.of_nat i * 2 + 1]%N) (seq s m)) = 2 * m); [|apply H].
  induction m; intros s; cbn; [reflexivity|]. rewrite IHm. lia.
Qed.
Lemma si {A} (l : list A) : size_is (length l) l = true.
Proof. apply Nat.eqb_refl. Qed.
Lemma sx (d : list T) : size_is (2 * length d) (drawn_index d) = true.
Proof. unfold size_is. rewrite index_length. apply Nat.eqb_refl. Qed.
Definition some (d : list T) : bool := match d with [] => false | _ => true end.
Lemma ne_nil (d : list T) : vec_eq teq [] d = negb (some d).
Proof. destruct d; reflexivity. Qed.
Lemma ne_nil_ix (d : list T) : vec_eq N.eqb [] (drawn_index d) = negb (some d).
Proof. destruct d; reflexivity. Qed.

Ltac go := repeat (progress (cbn [bind access_value expect_fail andb orb negb ov_has ov_vec oi_has oi_vec iv_index iv_values app]; rewrite ?si, ?sx, ?ne_nil, ?ne_nil_ix, ?vr, ?ir)).

Lemma t_idx d : idx_vector_test teq d = Done (some d).
Proof.
  unfold idx_vector_test, ivx_ne, ivx_eq, vec_ne, ix_eq. cbn -[Nat.mul drawn_index size_is vec_eq]. go.
  destruct (some d); reflexivity.
Qed.
Lemma t_optional_idx debug d : optional_idx_vector_test teq debug d = Done (some d).
Proof.
  unfold optional_idx_vector_test, oix_ne, oix_eq, ivx_ne, ivx_eq, vec_ne, ix_eq.
  destruct debug; cbn -[Nat.mul drawn_index size_is vec_eq]; go; destruct (some d); reflexivity.
Qed.
Lemma t_optional debug d : optional_vector_test teq debug d = Done (some d).
Proof.
  unfold optional_vector_test, ovx_ne, ovx_eq, vec_ne.
  destruct debug; cbn -[Nat.mul size_is vec_eq]; go; destruct (some d); reflexivity.
Qed.
End Vectors.

(** ** Maps and sets *)
Section Functors.
Context {K : Type} (lt eqb : K -> K -> bool) (hash : K -> N) (LT : strict_total_order lt).
Notation same := (u_same eqb hash).
Context (SY : forall a b, same a b = same b a).

Section Elements.
Context {E : Type} (key : E -> K).
(** No element of [items] is the same as an earlier one, or as one of [l]. *)
Fixpoint new_in (l items : list E) : Prop :=
  match items with [] => True | e :: r => existsb (fun x => same (key e) (key x)) l = false /\ new_in (l ++ [e]) r end.
Lemma emplace_length items : forall l,
  length (fold_left (fun m p => u_emplace eqb hash key p m) items l) <= length l + length items.
Proof.
  induction items as [|e r IH]; intros l; cbn [fold_left length]; [lia|]. specialize (IH (u_emplace eqb hash key e l)).
  unfold u_emplace in *. destruct (existsb _ l); [lia|]. rewrite app_length in IH. cbn in IH. lia.
Qed.
Lemma emplace_new items : forall l,
  length (fold_left (fun m p => u_emplace eqb hash key p m) items l) = length l + length items -> new_in l items.
Proof.
  induction items as [|e r IH]; intros l H; cbn [fold_left length] in H; [exact Logic.I|].
  unfold u_emplace at 2 in H. cbn [new_in]. destruct (existsb _ l) eqn:X.
  - pose proof (emplace_length r l). lia.
  - split; [reflexivity|]. apply IH. rewrite H, app_length. cbn. lia.
Qed.
Lemma emplace_all items : forall l, new_in l items -> fold_left (fun m p => u_emplace eqb hash key p m) items l = l ++ items.
Proof.
  induction items as [|e r IH]; intros l H; cbn [fold_left]; [now rewrite app_nil_r|]. destruct H as [H1 H2].
  unfold u_emplace at 2. rewrite H1, IH by exact H2. now rewrite <- app_assoc.
Qed.
Lemma new_far items : forall l, new_in l items ->
  (forall x y, In x l -> In y items -> same (key y) (key x) = false) /\
  (forall x y, In x items -> In y items -> key x <> key y -> same (key x) (key y) = false).
Proof.
  induction items as [|e r IH]; intros l H; [split; intros; contradiction|]. destruct H as [H1 H2].
  destruct (IH _ H2) as [I1 I2]. split.
  - intros x y Hx [->|Hy].
    + destruct (same (key y) (key x)) eqn:S; [|reflexivity]. rewrite <- H1. symmetry. apply existsb_exists. eauto.
    + apply I1; [apply in_or_app; auto|exact Hy].
  - intros x y [->|Hx] [->|Hy] N.
    + contradiction.
    + rewrite SY. apply I1; [apply in_or_app; right; left; reflexivity|exact Hy].
    + apply I1; [apply in_or_app; right; left; reflexivity|exact Hx].
    + apply I2; assumption.
Qed.
Lemma far_new items : forall l, NoDup (map key (l ++ items)) ->
  (forall x y, In x (l ++ items) -> In y (l ++ items) -> key x <> key y -> same (key x) (key y) = false) -> new_in l items.
Proof.
  induction items as [|e r IH]; intros l N F; [exact Logic.I|]. cbn [new_in]. split.
  - destruct (existsb _ l) eqn:X; [|reflexivity]. apply existsb_exists in X. destruct X as (x & Hx & S).
    rewrite F in S; [discriminate| | |].
    + apply in_or_app. right. left. reflexivity.
    + apply in_or_app. left. exact Hx.
    + intros Q. rewrite map_app in N. cbn in N. apply NoDup_remove_2 in N. apply N. rewrite Q. apply in_or_app. left.
      apply in_map. exact Hx.
  - apply IH; rewrite <- app_assoc; assumption.
Qed.
End Elements.

Notation keys_sorted l := (StronglySorted (fun a b => lt a b = true) (map fst l)).
End Functors.

Section Maps.
Context {K V : Type} (lt : K -> K -> bool) (LT : strict_total_order lt).
Notation keys_sorted l := (StronglySorted (fun a b => lt a b = true) (map fst l)).
Definition mp_all (items m : list (K * V)) : list (K * V) := fold_left (fun m p => fst (mp_insert lt (fst p) (snd p) m)) items m.
Lemma mp_all_spec items : forall m, keys_sorted m -> NoDup (map fst items) ->
  (forall k v, In (k, v) items -> mp_deref lt k m = None) ->
  keys_sorted (mp_all items m) /\
  (forall k v, In (k, v) items -> mp_deref lt k (mp_all items m) = Some v) /\
  (forall k, ~ In k (map fst items) -> mp_deref lt k (mp_all items m) = mp_deref lt k m).
Proof.
  induction items as [|(k, v) r IH]; intros m S N F; [split; [exact S|split; [intros ? ? []|reflexivity]]|].
  cbn [map fst] in N. inversion N as [|? ? N1 N2]; subst. unfold mp_all. cbn [fold_left fst snd]. fold (mp_all r (fst (mp_insert lt k v m))).
  destruct (mp_insert lt k v m) as (d, b) eqn:X. cbn [fst]. destruct (insert_spec lt LT k v m d b S X) as (S' & B).
  destruct b; [|destruct B as (_ & w & B); rewrite (F k v) in B by (left; reflexivity); discriminate].
  destruct B as (_ & B2 & B3).
  assert (NK : forall k' v', In (k', v') r -> k' <> k).
  { intros k' v' H ->. apply N1. apply in_map_iff. exists (k, v'). auto. }
  destruct (IH d S' N2) as (I1 & I2 & I3).
  { intros k' v' H. rewrite B3 by (eapply NK; eauto). apply (F k' v'). right. exact H. }
  split; [exact I1|]. split.
  - intros k' v' [E|H]; [|apply I2; exact H]. injection E as -> ->. rewrite I3 by exact N1. exact B2.
  - intros k' H. cbn in H. rewrite I3 by tauto. apply B3. intro; subst; tauto.
Qed.
Lemma deref_in k v (m : list (K * V)) : mp_deref lt k m = Some v -> In (k, v) m.
Proof.
  induction m as [|(k', v') r IH]; cbn; [discriminate|]. destruct (equiv lt k k') eqn:E.
  - intros H. injection H as ->. apply (equiv_iff lt LT) in E. subst. auto.
  - auto.
Qed.
Lemma in_deref k v (m : list (K * V)) : keys_sorted m -> In (k, v) m -> mp_deref lt k m = Some v.
Proof.
  induction m as [|(k', v') r IH]; cbn; intros S H; [contradiction|]. inversion S as [|? ? S1 S2]; subst. destruct H as [H|H].
  - injection H as -> ->. rewrite (equiv_refl lt LT). reflexivity.
  - rewrite (equiv_ne lt LT); [apply IH; assumption|]. intros ->. rewrite Forall_forall in S2.
    specialize (S2 k' (in_map fst _ _ H)). rewrite (lt_irr lt LT) in S2. discriminate.
Qed.
Lemma insert_from k v (m : list (K * V)) x : In x (fst (mp_insert lt k v m)) -> x = (k, v) \/ In x m.
Proof.
  induction m as [|(k', v') r IH]; cbn; [intuition|].
  destruct (lt k k'); [cbn; intuition|]. destruct (lt k' k); [|cbn; intuition].
  destruct (mp_insert lt k v r) as (r', b). cbn in *. intuition.
Qed.
Lemma mp_all_from items : forall m x, In x (mp_all items m) -> In x items \/ In x m.
Proof.
  induction items as [|(k, v) r IH]; intros m x H; [auto|]. unfold mp_all in H. cbn [fold_left fst snd] in H.
  apply IH in H. destruct H as [H|H]; [left; right; exact H|]. apply insert_from in H. destruct H as [->|H]; [left; left; reflexivity|auto].
Qed.
Lemma mp_all_in items k v : NoDup (map fst items) -> (In (k, v) (mp_all items []) <-> In (k, v) items).
Proof.
  intros N. destruct (mp_all_spec items [] (SSorted_nil _) N) as (S & A & B); [reflexivity|]. split; intros H.
  - apply mp_all_from in H. destruct H as [H|[]]. exact H.
  - apply deref_in, A, H.
Qed.
Lemma mp_all_nodup items : NoDup (map fst items) -> NoDup (mp_all items []) /\ length (mp_all items []) = length items.
Proof.
  intros N. destruct (mp_all_spec items [] (SSorted_nil _) N) as (S & _ & _); [reflexivity|].
  assert (M : NoDup (mp_all items [])) by (apply (NoDup_map_inv fst), (sorted_nodup lt LT), S).
  split; [exact M|]. apply PeanoNat.Nat.le_antisymm; apply NoDup_incl_length.
  - exact M.
  - intros [k v] H. apply mp_all_in; assumption.
  - apply (NoDup_map_inv fst), N.
  - intros [k v] H. apply mp_all_in; assumption.
Qed.
End Maps.

Lemma nat_order : strict_total_order Nat.ltb.
Proof.
  split; [|split]; intros a; intros.
  - apply Nat.ltb_irrefl.
  - rewrite Nat.ltb_lt in *. lia.
  - destruct (Nat.lt_trichotomy a b) as [L|[L|L]]; [left|right; left|right; right]; try exact L; apply Nat.ltb_lt; exact L.
Qed.
Lemma items_nth {K} (keys : list K) k i : In (k, i) (combine keys (seq 0 (length keys))) <-> nth_error keys i = Some k.
Proof.
  assert (H : forall s, In (k, i) (combine keys (seq s (length keys))) <-> s <= i /\ nth_error keys (i - s) = Some k).
  { induction keys as [|x r IH]; intros s; cbn.
    - split; [contradiction|]. intros [_ H]. destruct (i - s); discriminate.
    - rewrite IH. split.
      + intros [E|[L E]]; [injection E as -> ->; split; [lia|]; rewrite Nat.sub_diag; reflexivity|].
        split; [lia|]. replace (i - s) with (S (i - S s)) by lia. exact E.
      + intros [L E]. destruct (Nat.eq_dec s i) as [->|N].
        * left. rewrite Nat.sub_diag in E. cbn in E. congruence.
        * right. split; [lia|]. replace (i - s) with (S (i - S s)) in E by lia. exact E. }
  rewrite H, Nat.sub_0_r. split; [tauto|]. intros; split; [lia|assumption].
Qed.
Lemma items_fst {K} (keys : list K) s : map fst (combine keys (seq s (length keys))) = keys.
Proof. revert s. induction keys as [|x r IH]; intros s; cbn; [reflexivity|]. now rewrite IH. Qed.
Lemma items_snd {K} (keys : list K) s : map snd (combine keys (seq s (length keys))) = seq s (length keys).
Proof. revert s. induction keys as [|x r IH]; intros s; cbn; [reflexivity|]. now rewrite IH. Qed.
Lemma items_length {K} (keys : list K) s : length (combine keys (seq s (length keys))) = length keys.
Proof. rewrite combine_length, seq_length. lia. Qed.

Lemma set_size {K} (lt : K -> K -> bool) (LT : strict_total_order lt) (keys : list K) :
  length (fold_left (fun s k => set_insert lt k s) keys []) = length keys <-> NoDup keys.
Proof.
  fold (set_of lt keys). pose proof (sorted_nodup lt LT _ (set_of_sorted lt LT keys)) as N. split; intros H.
  - apply (NoDup_incl_NoDup N); [lia|]. intros x Hx. exact (proj1 (set_of_in lt LT keys x) Hx).
  - apply PeanoNat.Nat.le_antisymm; apply NoDup_incl_length; try assumption; intros x Hx; apply (set_of_in lt LT); exact Hx.
Qed.

Lemma nodup_map_in {A B} (f : A -> B) l : NoDup l -> (forall x y, In x l -> In y l -> f x = f y -> x = y) -> NoDup (map f l).
Proof.
  induction 1 as [|x r N1 N2 IH]; intros F; cbn; constructor.
  - intros H. apply in_map_iff in H. destruct H as (y & E & H). apply F in E; [subst; contradiction|right; exact H|left; reflexivity].
  - apply IH. intros; apply F; try (right; assumption). assumption.
Qed.
Lemma forallb_same {A} (f g : A -> bool) l : (forall x, In x l -> f x = g x) -> forallb f l = forallb g l.
Proof. induction l as [|x r IH]; cbn; intros H; [reflexivity|]. rewrite (H x) by auto. f_equal. apply IH. auto. Qed.

Lemma inverse_all {K} (mm : list (K * nat)) : inverse_map mm = mp_all Nat.ltb (map (fun p => (snd p, fst p)) mm) [].
Proof.
  unfold inverse_map, mp_all. generalize (@nil (nat * K)). induction mm as [|p r IH]; intros l0; cbn; [reflexivity|]. apply IH.
Qed.

Section Test.
Context {K : Type} (lt eqb : K -> K -> bool) (hash : K -> N) (LT : strict_total_order lt).
Notation same := (u_same eqb hash).
Context (SY : forall a b, same a b = same b a).

Lemma t_functors keys : functors_test lt eqb hash keys = true <->
  NoDup keys /\ forall a b, In a keys -> In b keys -> (same a b = true <-> a = b).
Proof.
  set (n := length keys). set (items := combine keys (seq 0 n)).
  assert (EM : fold_left (fun m p => fst (mp_insert lt (fst p) (snd p) m)) items [] = mp_all lt items []) by reflexivity.
  assert (SZ : fold_left (fun s k => set_insert lt k s) keys [] = set_of lt keys) by reflexivity.
  assert (L1 : NoDup keys -> NoDup (map fst items)) by (unfold items, n; rewrite items_fst; auto).
  assert (CORE : NoDup keys -> new_in eqb hash fst [] items -> new_in eqb hash (fun x => x) [] keys ->
    functors_test lt eqb hash keys = forallb (fun i => match nth_error keys i with Some key => same key key | None => false end) (seq 0 n)).
  { intros N U1 U2. unfold functors_test. fold n. fold items. rewrite EM.
    rewrite (emplace_all eqb hash fst items [] U1), (emplace_all eqb hash (fun x => x) keys [] U2). cbn [app].
    destruct (mp_all_nodup lt LT items (L1 N)) as [M1 M2].
    assert (Q : length items = n) by apply items_length.
    unfold size_is. rewrite M2, (proj2 (set_size lt LT keys) N), Q. fold n. rewrite !Nat.eqb_refl. cbn [andb negb].
    set (mm := mp_all lt items []) in *.
    assert (IV : inverse_map mm = mp_all Nat.ltb (map (fun p => (snd p, fst p)) mm) []).
    { apply inverse_all. }
    assert (NI : NoDup (map fst (map (fun p : K * nat => (snd p, fst p)) mm))).
    { rewrite map_map. cbn. apply nodup_map_in; [exact M1|]. intros [k1 i1] [k2 i2] H1 H2 E. cbn in E. subst i2.
      apply (proj1 (mp_all_in lt LT items _ _ (L1 N))) in H1. apply (proj1 (mp_all_in lt LT items _ _ (L1 N))) in H2.
      apply (proj1 (items_nth keys _ _)) in H1. apply (proj1 (items_nth keys _ _)) in H2. congruence. }
    rewrite IV. destruct (mp_all_spec Nat.ltb nat_order _ [] (SSorted_nil _) NI) as (_ & D & _); [reflexivity|].
    destruct (mp_all_spec lt LT items [] (SSorted_nil _) (L1 N)) as (_ & D2 & _); [reflexivity|]. fold mm in D2.
    apply forallb_same. intros i Hi. apply in_seq in Hi. destruct (nth_error keys i) as [key|] eqn:X;
      [|apply nth_error_None in X; fold n in X; lia].
    assert (HI : In (key, i) items) by (apply items_nth; exact X).
    rewrite (D i key).
    2:{ apply in_map_iff. exists (key, i). split; [reflexivity|]. apply (proj2 (mp_all_in lt LT items _ _ (L1 N))). exact HI. }
    rewrite (D2 key i HI), Nat.eqb_refl. cbn [andb].
    assert (ME : set_mem lt key (fold_left (fun s k => set_insert lt k s) keys []) = true).
    { apply (mem_iff lt LT). rewrite SZ. apply (set_of_in lt LT). eapply nth_error_In; eauto. }
    rewrite ME, andb_true_r.
    destruct (new_far eqb hash SY fst items [] U1) as [_ FAR].
    destruct (new_far eqb hash SY (fun x => x) keys [] U2) as [_ FAR2].
    apply Bool.eq_iff_eq_true. rewrite andb_true_iff. unfold u_find. split.
    - intros [_ H]. destruct (List.find (fun x => same key x) keys) as [k'|] eqn:F; [|discriminate].
      apply List.find_some in F. destruct F as [F1 F2]. destruct (same key key) eqn:S; [reflexivity|].
      exfalso. assert (key <> k') by (intros ->; congruence).
      rewrite (FAR2 key k') in F2; [discriminate| |exact F1|assumption]. eapply nth_error_In; eauto.
    - intros S. split.
      + destruct (List.find (fun x => same key (fst x)) items) as [[k' j]|] eqn:F.
        * apply List.find_some in F. destruct F as [F1 F2]. cbn in F2. apply Nat.eqb_eq.
          destruct (in_dec Nat.eq_dec j [i]) as [[<-|[]]|NE]; [reflexivity|]. exfalso.
          assert (KN : key <> k').
          { intros <-. apply (proj1 (items_nth keys _ _)) in F1.
            apply NE. left. apply (proj1 (NoDup_nth_error keys) N).
            - apply nth_error_Some. congruence.
            - congruence. }
          pose proof (FAR (key, i) (k', j) HI F1 KN) as Q9. cbn in Q9. congruence.
        * exfalso. apply (List.find_none _ _ F) in HI. cbn in HI. congruence.
      + destruct (List.find (fun x => same key x) keys) as [k'|] eqn:F; [reflexivity|].
        exfalso. apply nth_error_In in X. apply (List.find_none _ _ F) in X. cbn in X. congruence. }
  split.
  - intros H. assert (C := H). unfold functors_test in C. fold n in C. fold items in C.
    destruct (negb _) eqn:SI in C; [discriminate|]. clear C. apply negb_false_iff in SI. rewrite !andb_true_iff in SI.
    unfold size_is in SI. rewrite !Nat.eqb_eq in SI. destruct SI as [[[_ S2] S3] S4].
    assert (N : NoDup keys) by (apply (set_size lt LT); exact S3). split; [exact N|].
    assert (U1 : new_in eqb hash fst [] items).
    { apply emplace_new. cbn [length plus]. rewrite S2. unfold items, n. rewrite items_length. reflexivity. }
    assert (U2 : new_in eqb hash (fun x => x) [] keys) by (apply emplace_new; exact S4).
    rewrite (CORE N U1 U2) in H. rewrite forallb_forall in H. intros a b Ha Hb. split.
    + intros E. destruct (new_far eqb hash SY (fun x => x) keys [] U2) as [_ FAR].
      apply In_nth_error in Ha. destruct Ha as [i Ha]. apply In_nth_error in Hb. destruct Hb as [j Hb].
      destruct (Nat.eq_dec i j) as [->|NE]; [congruence|].
      exfalso. assert (a <> b).
      { intros ->. apply NE. apply (proj1 (NoDup_nth_error keys) N); [apply nth_error_Some; congruence|congruence]. }
      rewrite (FAR a b) in E; [discriminate| | |assumption]; eapply nth_error_In; eauto.
    + intros <-. apply In_nth_error in Ha. destruct Ha as [i Ha]. specialize (H i). rewrite Ha in H. apply H.
      apply in_seq. split; [lia|]. apply nth_error_Some. congruence.
  - intros [N H].
    assert (U1 : new_in eqb hash fst [] items).
    { apply far_new; [exact (L1 N)|]. intros [a i] [b j] Ha Hb NE. cbn in *.
      destruct (same a b) eqn:E; [|reflexivity]. exfalso. apply NE. apply H; [| |exact E]; eapply in_combine_l; eauto. }
    assert (U2 : new_in eqb hash (fun x => x) [] keys).
    { apply far_new; cbn; [rewrite map_id; exact N|]. intros a b Ha Hb NE.
      destruct (same a b) eqn:E; [|reflexivity]. exfalso. apply NE. apply H; assumption. }
    rewrite (CORE N U1 U2). apply forallb_forall. intros i Hi. apply in_seq in Hi.
    destruct (nth_error keys i) as [k|] eqn:X; [|apply nth_error_None in X; fold n in X; lia].
    apply nth_error_In in X. apply H; auto.
Qed.
End Test.

(** The keys of the library. *)
Lemma t_functors_key t (Hk : is_key t = true) (hash : key t -> N) keys :
  functors_test (fun a b : key t => key_lt t (proj1_sig a) (proj1_sig b)) (fun a b => key_eq t (proj1_sig a) (proj1_sig b)) hash keys = true
  <-> NoDup keys.
Proof.
  assert (Q : forall a b : key t, u_same (fun a b => key_eq t (proj1_sig a) (proj1_sig b)) hash a b = true <-> a = b).
  { intros a b. unfold u_same. rewrite andb_true_iff, N.eqb_eq, (key_eq_iff t a b Hk). split; [tauto|]. intros ->; auto. }
  rewrite t_functors.
  - split; [tauto|]. intros N. split; [exact N|]. intros. apply Q.
  - apply key_lt_order, Hk.
  - intros a b. apply Bool.eq_iff_eq_true. rewrite !Q. split; auto.
Qed.
