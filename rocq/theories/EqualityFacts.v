(** * EqualityFacts: == and != of the vector containers. Proofs. *)
From Verif Require Import Base Containers ContainerSpec OptionalValueFacts.

Definition pair_same {T} (teq : T -> T -> bool) (a b : list T * list N) : bool :=
  vec_eq teq (fst a) (fst b) && vec_eq N.eqb (snd a) (snd b).
Lemma pair_same_equiv {T} (teq : T -> T -> bool) : equivalence teq -> equivalence (pair_same teq).
Proof.
  intros H. pose proof (vec_eq_equiv _ H) as (R & S & Tr).
  assert (HN : equivalence N.eqb).
  { split; [apply N.eqb_refl|split; [apply N.eqb_sym|]]. intros x y z; rewrite !N.eqb_eq; congruence. }
  pose proof (vec_eq_equiv _ HN) as (R' & S' & Tr'). unfold pair_same.
  split; [|split]; intros.
  - rewrite R, R'; auto.
  - rewrite S, S'; auto.
  - rewrite andb_true_iff in *. destruct H0, H1. eauto.
Qed.
Lemma neqb_eq (a b : list N) : vec_eq N.eqb a b = true <-> a = b.
Proof.
  revert b; induction a; intros [|y b]; cbn; split; auto; try discriminate.
  - rewrite andb_true_iff, N.eqb_eq, IHa. intros [-> ->]; auto.
  - intros H; inversion H; subst. rewrite andb_true_iff, N.eqb_eq, IHa. auto.
Qed.

Section E.
Context {T : Type} (teq : T -> T -> bool).
Lemma ovx_eq_spec a b : ovx_eq teq a b = opt_same (vec_eq teq) (ovx_look a) (ovx_look b).
Proof. unfold ovx_eq, ovx_look. destruct (ov_has a), (ov_has b); reflexivity. Qed.
Lemma ovx_ne_spec a b : ovx_ne teq a b = negb (ovx_eq teq a b).
Proof. unfold ovx_ne, ovx_eq. destruct (ov_has a), (ov_has b); reflexivity. Qed.
Lemma ivx_eq_spec a b : ivx_eq teq a b = pair_same teq (ivx_look a) (ivx_look b).
Proof. reflexivity. Qed.
Lemma ivx_ne_spec (a b : ivec T) : ivx_ne teq a b = negb (ivx_eq teq a b).
Proof. unfold ivx_ne, ivx_eq, vec_ne. rewrite negb_andb. reflexivity. Qed.
Lemma oix_eq_spec a b : oix_eq teq a b = opt_same (pair_same teq) (oix_look a) (oix_look b).
Proof. unfold oix_eq, oix_look. destruct (oi_has a), (oi_has b); reflexivity. Qed.
Lemma oix_ne_spec (a b : oivec T) : oix_ne teq a b = negb (oix_eq teq a b).
Proof. unfold oix_ne, oix_eq. rewrite ivx_ne_spec. destruct (oi_has a), (oi_has b); reflexivity. Qed.

Lemma pullback {A B} (f : A -> B) (e : B -> B -> bool) (g : A -> A -> bool) :
  (forall a b, g a b = e (f a) (f b)) -> equivalence e -> equivalence g.
Proof.
  intros H (R & S & Tr). split; [|split]; intros; rewrite ?H in *; auto.
  eauto.
Qed.

Lemma t_ovx_eq : 
  (forall a b : ovec T, ovx_eq teq a b = true <->
     match ovx_look a, ovx_look b with
     | Some x, Some y => list_same teq x y | None, None => True | _, _ => False end) /\
  (forall a b : ovec T, ovx_ne teq a b = negb (ovx_eq teq a b)) /\
  (equivalence teq -> equivalence (@ovx_eq T teq)).
Proof.
  split; [|split].
  - intros a b. rewrite ovx_eq_spec. destruct (ovx_look a), (ovx_look b); cbn; try tauto; try (split; [discriminate|tauto]).
    apply vec_eq_iff.
  - apply ovx_ne_spec.
  - intros H. apply (pullback _ _ _ ovx_eq_spec). apply opt_same_equiv, vec_eq_equiv, H.
Qed.
Lemma t_ivx_eq : 
  (forall a b : ivec T, ivx_eq teq a b = true <->
     list_same teq (iv_values a) (iv_values b) /\ iv_index a = iv_index b) /\
  (forall a b : ivec T, ivx_ne teq a b = negb (ivx_eq teq a b)) /\
  (equivalence teq -> equivalence (@ivx_eq T teq)).
Proof.
  split; [|split].
  - intros a b. unfold ivx_eq. rewrite andb_true_iff, vec_eq_iff, neqb_eq. tauto.
  - apply ivx_ne_spec.
  - intros H. apply (pullback _ _ _ ivx_eq_spec). apply pair_same_equiv, H.
Qed.
Lemma t_oix_eq : 
  (forall a b : oivec T, oix_eq teq a b = true <->
     match oix_look a, oix_look b with
     | Some (x, n), Some (y, m) => list_same teq x y /\ n = m | None, None => True | _, _ => False end) /\
  (forall a b : oivec T, oix_ne teq a b = negb (oix_eq teq a b)) /\
  (equivalence teq -> equivalence (@oix_eq T teq)).
Proof.
  split; [|split].
  - intros a b. rewrite oix_eq_spec. destruct (oix_look a) as [[x n]|], (oix_look b) as [[y m]|]; cbn; try tauto; try (split; [discriminate|tauto]).
    unfold pair_same; cbn. rewrite andb_true_iff, vec_eq_iff, neqb_eq. tauto.
  - apply oix_ne_spec.
  - intros H. apply (pullback _ _ _ oix_eq_spec). apply opt_same_equiv, pair_same_equiv, H.
Qed.
End E.
