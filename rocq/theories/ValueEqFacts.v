(** * Equality of values. Proofs. *)
From Verif Require Import Base Bytes BytesFacts Values Types Keys KeySpec KeyFacts Containers ContainerSpec OptionalValueFacts EqualityFacts ValueEq ValueEqSpec.
Open Scope N_scope.

(** ** One float *)
Lemma f_abs_split w x : (w = 4 \/ w = 8) -> f_abs w x = exponent w x * 2 ^ frac_bits w + fraction w x.
Proof.
  intros [-> | ->]; unfold f_abs, exponent, fraction, exp_bits, frac_bits; cbn [N.eqb Pos.eqb];
  [change (2 ^ (8 * 4 - 1)) with (2^8 * 2^23)|change (2 ^ (8 * 8 - 1)) with (2^11 * 2^52)];
  rewrite (N.mul_comm _ (2 ^ _)), N.mod_mul_r by discriminate; lia.
Qed.
Lemma fraction_lt w x : fraction w x < 2 ^ frac_bits w.
Proof. apply N.mod_lt. apply N.pow_nonzero. discriminate. Qed.
Lemma exponent_lt w x : exponent w x < 2 ^ exp_bits w.
Proof. apply N.mod_lt. apply N.pow_nonzero. discriminate. Qed.
Lemma is_nan_iff w x : (w = 4 \/ w = 8) -> (is_nan w x = true <-> nan w x).
Proof.
  intros Hw. unfold is_nan, nan. rewrite N.ltb_lt, f_abs_split by auto. pose proof (fraction_lt w x). pose proof (exponent_lt w x).
  destruct Hw as [-> | ->]; unfold f_infinity, exp_bits, frac_bits in *; cbn [N.eqb Pos.eqb] in *;
  [change (2^8) with 256 in *; change (2^23) with 8388608 in *|change (2^11) with 2048 in *; change (2^52) with 4503599627370496 in *]; lia.
Qed.
Lemma zero_iff w x : (w = 4 \/ w = 8) -> (f_abs w x = 0 <-> zero w x).
Proof.
  intros Hw. unfold zero. rewrite f_abs_split by auto. 
  destruct Hw as [-> | ->]; unfold exp_bits, frac_bits in *; cbn [N.eqb Pos.eqb] in *;
  [change (2^23) with 8388608 in *|change (2^52) with 4503599627370496 in *]; lia.
Qed.
Lemma float_eq_iff w x y : (w = 4 \/ w = 8) -> (float_eq w x y = true <-> float_same w x y).
Proof.
  intros Hw. unfold float_eq, float_same. pose proof (is_nan_iff w x Hw) as Nx. pose proof (is_nan_iff w y Hw) as Ny.
  pose proof (zero_iff w x Hw) as Zx. pose proof (zero_iff w y Hw) as Zy.
  rewrite !andb_true_iff, orb_true_iff, andb_true_iff, !negb_true_iff, !N.eqb_eq, <- Nx, <- Ny, <- Zx, <- Zy.
  destruct (is_nan w x), (is_nan w y); intuition congruence.
Qed.
Lemma zero_not_nan w x : (w = 4 \/ w = 8) -> zero w x -> ~ nan w x.
Proof. intros Hw (H1 & H2) (H3 & H4). tauto. Qed.
Lemma float_same_sym w x y : float_same w x y -> float_same w y x.
Proof. unfold float_same. intuition congruence. Qed.
Lemma float_same_trans w x y z : float_same w x y -> float_same w y z -> float_same w x z.
Proof. intros (A & B & C) (D & F & G). split; auto. split; auto. destruct C as [->|[C1 C2]], G as [<-|[G1 G2]]; auto. Qed.
Lemma float_same_refl w x : ~ nan w x -> float_same w x x.
Proof. unfold float_same. auto. Qed.

(** ** Components *)
Lemma part_S w i a : part w (i + 1) a = part w i (drop w a).
Proof. unfold part. rewrite drop_drop. f_equal. f_equal. f_equal. lia. Qed.
Lemma floats_eq_iff w n : (w = 4 \/ w = 8) -> forall a b,
  (floats_eq w n a b = true <-> forall i, i < N.of_nat n -> float_same w (part w i a) (part w i b)).
Proof.
  intros Hw. induction n as [|n IH]; intros a b.
  - split; auto. intros _ i Hi. lia.
  - cbn [floats_eq]. rewrite andb_true_iff, float_eq_iff, IH by auto. split.
    + intros [H1 H2] i Hi. destruct (N.eq_dec i 0) as [->|Hne].
      * unfold part. rewrite N.mul_0_r. exact H1.
      * replace i with (i - 1 + 1) by lia. rewrite !part_S. apply H2. lia.
    + intros H. split.
      * specialize (H 0). unfold part in H. rewrite N.mul_0_r in H. apply H. lia.
      * intros i Hi. rewrite <- !part_S. apply H. lia.
Qed.

(** ** Values *)
Lemma floats_val t w n (x y : list byte) : float_parts t = (N.of_nat n, w) -> (w = 4 \/ w = 8) -> (0 < n)%nat ->
  (floats_eq w n x y = true <-> val_same t (VP x) (VP y)).
Proof.
  intros F Hw Hn. unfold val_same, has_floats. rewrite F. cbn [fst snd].
  destruct (N.eqb_spec (N.of_nat n) 0); [lia|]. cbn [negb]. apply floats_eq_iff; auto.
Qed.
Lemma fword_w f : wbytes (fword f) = 4 \/ wbytes (fword f) = 8.
Proof. destruct f; auto. Qed.
Lemma val_same_id t a b : has_floats t = false -> (val_same t a b <-> a = b).
Proof. intros H. unfold val_same. rewrite H. destruct a, b; try tauto. split; congruence. Qed.

Lemma key_eq_same t a b : is_key t = true -> val_ok t a -> val_ok t b -> (key_eq t a b = true <-> a = b).
Proof.
  intros K Ha Hb. pose proof (key_ok_okb t a K Ha) as Ka. pose proof (key_ok_okb t b K Hb) as Kb.
  rewrite (key_eq_iff t (exist _ a Ka) (exist _ b Kb) K). split; [intros H; inversion H; auto|]. intros ->. apply key_ext. reflexivity.
Qed.
Lemma val_eq_iff t a b : val_ok t a -> val_ok t b -> (val_eq t a b = true <-> val_same t a b).
Proof.
  intros Ha Hb. destruct t; try (rewrite val_same_id by reflexivity; apply key_eq_same; auto; fail).
  - rewrite val_same_id by reflexivity. destruct a, b; try contradiction. cbn. rewrite eqb_true_iff. split; congruence.
  - destruct a as [| |x], b as [| |y]; try contradiction. apply (floats_val _ _ 1); [reflexivity|apply fword_w|lia].
  - destruct a as [| |x], b as [| |y]; try contradiction. cbn [val_eq img].
    apply (floats_val _ _ (N.to_nat (dimn d))); [cbn; rewrite N2Nat.id; reflexivity|apply fword_w|destruct d; cbn; lia].
  - rewrite val_same_id by reflexivity. destruct a as [| |x], b as [| |y]; try contradiction. cbn [val_eq img].
    rewrite words_eq_iff by (rewrite N2Nat.id; assumption). split; congruence.
  - rewrite val_same_id by reflexivity. destruct a as [| |x], b as [| |y]; try contradiction. cbn [val_eq img].
    rewrite words_eq_iff by (rewrite N2Nat.id; assumption). split; congruence.
  - destruct a as [| |x], b as [| |y]; try contradiction. cbn [val_eq img].
    apply (floats_val _ _ (N.to_nat (dimn d * dimn d))); [cbn; rewrite N2Nat.id; reflexivity|apply fword_w|destruct d; cbn; lia].
  - destruct a as [| |x], b as [| |y]; try contradiction. apply (floats_val _ _ 4); [reflexivity|apply fword_w|lia].
Qed.

Lemma val_same_sym t a b : val_same t a b -> val_same t b a.
Proof. unfold val_same. destruct a, b; try congruence. destruct (has_floats t); [|congruence]. intros H i Hi. apply float_same_sym; auto. Qed.
Lemma val_same_trans t a b c : val_same t a b -> val_same t b c -> val_same t a c.
Proof.
  unfold val_same. destruct a, b, c; try congruence. destruct (has_floats t); [|congruence]. intros H1 H2 i Hi. eapply float_same_trans; eauto.
Qed.
Lemma val_same_refl t a : val_same t a a <-> clean t a.
Proof.
  unfold val_same, clean. destruct a; try tauto. unfold has_floats. destruct (N.eqb_spec (fst (float_parts t)) 0) as [E|E]; cbn [negb].
  - rewrite E. split; auto. intros _ i Hi. lia.
  - split; intros H i Hi; specialize (H i Hi); [apply H|apply float_same_refl, H].
Qed.

(** ** Containers *)
Lemma vec_same t x y : Forall (val_ok t) x -> Forall (val_ok t) y -> (vec_eq (val_eq t) x y = true <-> Forall2 (val_same t) x y).
Proof.
  intros Hx; revert y. induction Hx as [|a x Ha Hx IH]; intros [|b y] Hy; cbn [vec_eq].
  - split; auto.
  - split; [discriminate|]. intros H; inversion H.
  - split; [discriminate|]. intros H; inversion H.
  - inversion Hy; subst. rewrite andb_true_iff, val_eq_iff, IH by auto. split; [intros []; constructor; auto|intros H; inversion H; auto].
Qed.
Lemma cval_eq_iff t a b : cval_ok t a -> cval_ok t b -> (cval_eq t a b = true <-> cval_same t a b).
Proof.
  intros Ha Hb. destruct a as [x|[x|]|x|[x|]|x i|[[x i]|]], b as [y|[y|]|y|[y|]|y j|[[y j]|]]; cbn [cval_eq cval_same cval_ok] in *;
    try (split; [discriminate|tauto]); try tauto; try (apply val_eq_iff; assumption); try (apply vec_same; [apply Ha|apply Hb]).
  - unfold ivx_eq. cbn [iv_values iv_index]. rewrite andb_true_iff, neqb_eq, vec_same; [tauto|apply Ha|apply Hb].
  - cbn [oivec_of]. unfold oix_eq, ivx_eq. cbn [oi_has oi_vec iv_values iv_index]. rewrite andb_true_iff, neqb_eq, vec_same; [tauto|apply Ha|apply Hb].
Qed.
Lemma Forall2_sym {A} (R : A -> A -> Prop) : (forall a b, R a b -> R b a) -> forall x y, Forall2 R x y -> Forall2 R y x.
Proof. induction 2; constructor; auto. Qed.
Lemma Forall2_trans {A} (R : A -> A -> Prop) : (forall a b c, R a b -> R b c -> R a c) -> forall x y z, Forall2 R x y -> Forall2 R y z -> Forall2 R x z.
Proof. intros T x y z H; revert z. induction H; intros z H1; inversion H1; subst; constructor; eauto. Qed.
Lemma Forall2_refl {A} (R : A -> A -> Prop) x : Forall2 R x x <-> Forall (fun a => R a a) x.
Proof. induction x; split; intros H; constructor; inversion H; subst; auto; apply IHx; auto. Qed.
Lemma cval_same_sym t a b : cval_same t a b -> cval_same t b a.
Proof.
  pose proof (val_same_sym t) as S. pose proof (Forall2_sym _ S) as S2.
  destruct a as [x|[x|]|x|[x|]|x i|[[x i]|]], b as [y|[y|]|y|[y|]|y j|[[y j]|]]; cbn [cval_same]; intuition.
Qed.
Lemma cval_same_trans t a b c : cval_same t a b -> cval_same t b c -> cval_same t a c.
Proof.
  pose proof (val_same_trans t) as S. pose proof (Forall2_trans _ S) as S2.
  destruct a as [x|[x|]|x|[x|]|x i|[[x i]|]], b as [y|[y|]|y|[y|]|y j|[[y j]|]]; cbn [cval_same]; try contradiction;
    destruct c as [z|[z|]|z|[z|]|z k|[[z k]|]]; cbn [cval_same]; try contradiction; eauto; intros [] []; split; eauto; congruence.
Qed.
Lemma cval_same_refl t a : cval_same t a a <-> cval_clean t a.
Proof.
  assert (L : forall l, Forall2 (val_same t) l l <-> Forall (clean t) l).
  { intros l. rewrite Forall2_refl. split; intros H; (eapply Forall_impl; [|exact H]); intros; apply val_same_refl; auto. }
  destruct a as [x|[x|]|x|[x|]|x i|[[x i]|]]; cbn [cval_same cval_clean]; try apply val_same_refl; try apply L; try tauto; rewrite L; tauto.
Qed.
