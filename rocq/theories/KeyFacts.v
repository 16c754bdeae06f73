(** * KeyFacts: proofs about key types. *)
From Coq Require Import Eqdep_dec.
From Verif Require Import Base Bytes BytesFacts Values Types Keys KeySpec.
Open Scope N_scope.

Lemma lex_eq a b : lex a b = Eq <-> a = b.
Proof.
  revert b; induction a as [|x a IH]; intros [|y b]; cbn; split; try discriminate; auto.
  - destruct (N.compare_spec (b2n x) (b2n y)); try discriminate. intros H1.
    apply IH in H1. apply b2n_inj in H. congruence.
  - intros H; inversion H; subst. rewrite N.compare_refl. apply IH; auto.
Qed.
Lemma lex_opp a b : lex b a = CompOpp (lex a b).
Proof.
  revert b; induction a as [|x a IH]; intros [|y b]; cbn; auto.
  rewrite (N.compare_antisym (b2n x) (b2n y)). destruct (b2n x ?= b2n y); cbn; auto.
Qed.
Lemma lex_trans a b c : lex a b = Lt -> lex b c = Lt -> lex a c = Lt.
Proof.
  revert b c; induction a as [|x a IH]; intros [|y b] [|z c]; cbn; try discriminate; auto.
  destruct (N.compare_spec (b2n x) (b2n y)), (N.compare_spec (b2n y) (b2n z)); try discriminate;
    destruct (N.compare_spec (b2n x) (b2n z)); try lia; auto; eauto.
Qed.
Lemma lex_lt_order : strict_total_order lex_lt.
Proof.
  unfold lex_lt. split; [|split].
  - intros a. rewrite (proj2 (lex_eq a a)); auto.
  - intros a b c. destruct (lex a b) eqn:E1; try discriminate. destruct (lex b c) eqn:E2; try discriminate.
    rewrite (lex_trans _ _ _ E1 E2). auto.
  - intros a b. rewrite (lex_opp a b). destruct (lex a b) eqn:E; cbn; auto. right; left. apply lex_eq; auto.
Qed.

Lemma signed_inj a b : len a = len b -> signed a = signed b -> a = b.
Proof.
  intros L H. assert (La : length a = length b) by (unfold len in L; lia).
  apply of_le_inj; auto. unfold signed in H. rewrite <- L in H.
  pose proof (of_le_bound a). pose proof (of_le_bound b). rewrite <- L in *.
  set (m := 256 ^ len a) in *. destruct (N.ltb_spec (of_le a) (m / 2)), (N.ltb_spec (of_le b) (m / 2)); lia.
Qed.

Lemma words_eq_iff w n a b : len a = N.of_nat n * w -> len b = N.of_nat n * w ->
  (words_eq w n a b = true <-> a = b).
Proof.
  revert a b; induction n as [|n IH]; intros a b La Lb; cbn -[N.mul].
  - split; auto. intros _. rewrite (len_0 a), (len_0 b); auto; lia.
  - rewrite andb_true_iff, N.eqb_eq, IH.
    2:{ rewrite len_drop. lia. }
    2:{ rewrite len_drop. lia. }
    split.
    + intros [E1 E2]. rewrite <- (take_drop w a), <- (take_drop w b). f_equal; auto.
      apply of_le_inj; auto.
      assert (len (take w a) = len (take w b)) by (rewrite !len_take; lia). unfold len in *; lia.
    + intros ->; auto.
Qed.
Lemma words_ne_spec w n a b : words_ne w n a b = negb (words_eq w n a b).
Proof. revert a b; induction n; intros; cbn; auto. rewrite IHn, negb_andb. reflexivity. Qed.

Lemma key_okb_ok t v : key_okb t v = true -> val_ok t v.
Proof.
  unfold key_okb, val_ok, shape_ok. destruct (dshape t), v; try discriminate.
  - apply N.ltb_lt.
  - apply N.eqb_eq.
Qed.
Lemma key_ok_okb t v : is_key t = true -> val_ok t v -> key_okb t v = true.
Proof.
  unfold key_okb, val_ok, shape_ok. intros K. destruct (dshape t) eqn:E, v; try tauto.
  - destruct t; discriminate.
  - apply N.ltb_lt.
  - apply N.eqb_eq.
Qed.

Lemma key_ext t (a b : key t) : proj1_sig a = proj1_sig b -> a = b.
Proof.
  destruct a as [a Ha], b as [b Hb]; cbn; intros ->. f_equal.
  apply UIP_dec. apply Bool.bool_dec.
Qed.

Lemma key_img_inj t a b : is_key t = true -> key_okb t a = true -> key_okb t b = true -> img a = img b -> a = b.
Proof.
  unfold key_okb. intros K Ha Hb. destruct (dshape t), a, b; try discriminate; cbn; congruence.
Qed.
Lemma key_len t a b : is_key t = true -> t <> TString -> key_okb t a = true -> key_okb t b = true -> len (img a) = len (img b).
Proof.
  unfold key_okb. intros K NS Ha Hb. destruct (dshape t) eqn:E.
  - destruct t; discriminate.
  - destruct t; try discriminate; tauto.
  - destruct a, b; try discriminate. apply N.eqb_eq in Ha, Hb. cbn. congruence.
Qed.

Lemma key_lt_order t : is_key t = true -> strict_total_order (fun a b : key t => key_lt t (proj1_sig a) (proj1_sig b)).
Proof.
  intros K. assert (X : forall P : dtype -> Prop, (forall i, P (TInt i)) -> (forall i, P (TUInt i)) ->
    (forall t, is_key t = true -> (forall i, t <> TInt i) -> (forall i, t <> TUInt i) -> P t) -> forall t, is_key t = true -> P t).
  { intros P H1 H2 H3 t0 K0. destruct t0; auto; apply H3; auto; discriminate. }
  revert t K. apply X; clear X.
  - intros i. split; [|split].
    + intros [a Ha]; cbn. lia.
    + intros [a Ha] [b Hb] [c Hc]; cbn. lia.
    + intros [a Ha] [b Hb]; cbn.
      destruct (Z.ltb_spec (signed (img a)) (signed (img b))); auto.
      destruct (Z.ltb_spec (signed (img b)) (signed (img a))); auto. right; left.
      apply key_ext; cbn. apply (key_img_inj (TInt i)); auto. apply signed_inj; [|lia].
      apply (key_len (TInt i)); auto; discriminate.
  - intros i. split; [|split].
    + intros [a Ha]; cbn. lia.
    + intros [a Ha] [b Hb] [c Hc]; cbn. lia.
    + intros [a Ha] [b Hb]; cbn.
      destruct (N.ltb_spec (of_le (img a)) (of_le (img b))); auto.
      destruct (N.ltb_spec (of_le (img b)) (of_le (img a))); auto. right; left.
      apply key_ext; cbn. apply (key_img_inj (TUInt i)); auto. apply of_le_inj; [|lia].
      assert (len (img a) = len (img b)) by (apply (key_len (TUInt i)); auto; discriminate). unfold len in *; lia.
  - intros t K N1 N2. destruct lex_lt_order as (R & Tr & To).
    assert (E : forall a b, key_lt t a b = lex_lt (img a) (img b)).
    { intros. destruct t; try reflexivity; [destruct (N1 i)|destruct (N2 i)]; auto. }
    split; [|split].
    + intros a; rewrite E; auto.
    + intros a b c; rewrite !E; apply Tr.
    + intros a b; rewrite !E. destruct (To (img (proj1_sig a)) (img (proj1_sig b))) as [H|[H|H]]; auto.
      right; left. apply key_ext. apply (key_img_inj t); auto; [exact (proj2_sig a)|exact (proj2_sig b)].
Qed.

Lemma key_eq_iff t (a b : key t) : is_key t = true -> key_eq t (proj1_sig a) (proj1_sig b) = true <-> a = b.
Proof.
  intros K. destruct a as [a Ha], b as [b Hb]; cbn [proj1_sig].
  assert (L : t <> TString -> len (img a) = len (img b)) by (intros; apply (key_len t); auto).
  assert (E : img a = img b <-> exist (fun v => key_okb t v = true) a Ha = exist _ b Hb).
  { split; [intros H; apply key_ext; cbn; apply (key_img_inj t); auto|intros H; inversion H; auto]. }
  rewrite <- E. clear E.
  assert (P : forall k n, dshape t = ShPod k n -> len (img a) = n * ksize k /\ len (img b) = n * ksize k).
  { intros k n E. unfold key_okb in Ha, Hb. rewrite E in *. destruct a, b; try discriminate.
    apply N.eqb_eq in Ha, Hb. auto. }
  destruct t; try discriminate; unfold key_eq; cbv iota.
  - rewrite Z.eqb_eq. split; [|congruence]. apply signed_inj, L. discriminate.
  - rewrite N.eqb_eq. split; [|congruence]. intros H. apply of_le_inj; auto.
    assert (len (img a) = len (img b)) by (apply L; discriminate). unfold len in *; lia.
  - destruct (P _ _ eq_refl). apply words_eq_iff; auto.
  - destruct (P _ _ eq_refl). apply words_eq_iff; auto.
  - destruct (P _ _ eq_refl). apply words_eq_iff; auto.
  - destruct (P _ _ eq_refl). apply words_eq_iff; auto.
  - rewrite <- lex_eq. destruct (lex (img a) (img b)); split; congruence.
Qed.

Lemma key_inf_ok t : is_key t = true -> key_okb t (key_inf t) = true.
Proof. destruct t; try discriminate; try reflexivity; destruct i; reflexivity. Qed.
Lemma key_sup_ok t : is_key t = true -> key_okb t (key_sup t) = true.
Proof. destruct t; try discriminate; try reflexivity; destruct i; reflexivity. Qed.

Lemma t_key_laws t Hi Hs : is_key t = true -> key_laws (key_ops t Hi Hs).
Proof.
  intros K. split; [|split; [|split]]; cbn.
  - apply key_lt_order; auto.
  - intros a b. apply key_eq_iff; auto.
  - intros k. apply key_okb_ok. exact (proj2_sig k).
  - intros [v Hv]. apply key_ext. cbn. unfold to_key. destruct (Bool.bool_dec (key_okb t v) true); cbn; auto. congruence.
Qed.

Lemma lex_rep0 n b : length b = n -> lex_lt b (repeat x00 n) = false.
Proof.
  revert n; induction b as [|y b IH]; intros n H; cbn in H; subst; cbn; auto.
  unfold lex_lt in *. cbn. change (b2n x00) with 0. destruct (N.compare_spec (b2n y) 0) as [Q|Q|Q]; auto; try (apply IH; reflexivity); lia.
Qed.
Lemma lex_repff n b : length b = n -> lex_lt (repeat xff n) b = false.
Proof.
  revert n; induction b as [|y b IH]; intros n H; cbn in H; subst; cbn [repeat length]; auto.
  unfold lex_lt in *. cbn [lex]. change (b2n xff) with 255. destruct (N.compare_spec 255 (b2n y)) as [Q|Q|Q]; auto; pose proof (b2n_lt y); lia.
Qed.

Lemma signed_range a : 0 < len a -> 
  (- Z.of_N (256 ^ len a / 2) <= signed a < Z.of_N (256 ^ len a / 2))%Z.
Proof.
  intros L. unfold signed. pose proof (of_le_bound a).
  assert (E : 256 ^ len a = 2 * (256 ^ len a / 2)).
  { assert (F : 256 ^ len a = (128 * 256 ^ (len a - 1)) * 2).
    { replace (len a) with (N.succ (len a - 1)) at 1 by lia. rewrite N.pow_succ_r'. lia. }
    rewrite F, N.div_mul by lia. lia. }
  set (m := 256 ^ len a) in *. set (h := m / 2) in *.
  destruct (N.ltb_spec (of_le a) h); lia.
Qed.

Lemma t_key_bounds t Hi Hs : is_node t = true -> key_bounds (key_ops t Hi Hs).
Proof.
  intros K [v Hv]; cbn. unfold key_okb in Hv.
  assert (U : forall v, of_le (img v) < 0 -> False) by (intros; lia).
  destruct t; try discriminate; cbn in Hv; destruct v as [|?|im]; try discriminate; apply N.eqb_eq in Hv; cbn [ksize] in Hv.
  - assert (L : len im = wbytes (iword i)) by lia.
    assert (P : 0 < len im) by (rewrite L; destruct i; reflexivity).
    pose proof (signed_range im P). cbn -[signed le N.to_nat N.pow N.div].
    rewrite L in *.
    assert (Ei : signed (le (N.to_nat (wbytes (iword i))) (256 ^ wbytes (iword i) / 2)) = (- Z.of_N (256 ^ wbytes (iword i) / 2))%Z)
      by (destruct i; vm_compute; reflexivity).
    assert (Es : signed (le (N.to_nat (wbytes (iword i))) (256 ^ wbytes (iword i) / 2 - 1)) = (Z.of_N (256 ^ wbytes (iword i) / 2) - 1)%Z)
      by (destruct i; vm_compute; reflexivity).
    rewrite Ei, Es. split; apply Z.ltb_ge; lia.
  - assert (L : len im = wbytes (iword i)) by lia. cbn -[of_le rep].
    pose proof (of_le_bound im). rewrite L in *.
    assert (Ei : of_le (rep x00 (wbytes (iword i))) = 0) by (destruct i; reflexivity).
    assert (Es : of_le (rep xff (wbytes (iword i))) = 256 ^ wbytes (iword i) - 1) by (destruct i; reflexivity).
    rewrite Ei, Es. split; apply N.ltb_ge; lia.
  - assert (L : length im = 16%nat) by (unfold len in Hv; lia). split; [apply (lex_rep0 16)|apply (lex_repff 16)]; auto.
  - assert (L : length im = 16%nat) by (unfold len in Hv; lia). split; [apply (lex_rep0 16)|apply (lex_repff 16)]; auto.
  - assert (L : length im = 32%nat) by (unfold len in Hv; lia). split; [apply (lex_rep0 32)|apply (lex_repff 32)]; auto.
  - assert (L : length im = 32%nat) by (unfold len in Hv; lia). split; [apply (lex_rep0 32)|apply (lex_repff 32)]; auto.
Qed.
