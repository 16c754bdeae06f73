(** * Bit packing of bool arrays: the loops of writer and reader against [pack_bits]. *)
From Verif Require Import Base Bytes BytesFacts Values Streams Types Format EntityWriter EntityReader.
Open Scope N_scope.

Lemma bits_value_lt l : bits_value l < 2 ^ len l.
Proof.
  induction l as [|b l IH]; [reflexivity|].
  cbn [bits_value]. rewrite len_cons, N.pow_add_r. change (2^1) with 2. destruct b; lia.
Qed.
Lemma bits_value_app l b : bits_value (l ++ [b]) = bits_value l + (if b then 2 ^ len l else 0).
Proof.
  induction l as [|a l IH]; [destruct b; reflexivity|].
  cbn [app bits_value]. rewrite IH, len_cons, N.pow_add_r. change (2^1) with 2. destruct a, b; lia.
Qed.
Lemma bits_value_testbit l : forall j, N.testbit (bits_value l) (N.of_nat j) = nth j l false.
Proof.
  induction l as [|b l IH]; intros j.
  - cbn [bits_value]. rewrite N.bits_0. destruct j; reflexivity.
  - cbn [bits_value]. destruct j as [|j].
    + change (N.of_nat 0) with 0. cbn [nth]. rewrite N.bit0_odd.
      rewrite N.odd_add, N.odd_mul. destruct b; reflexivity.
    + replace (N.of_nat (S j)) with (N.succ (N.of_nat j)) by lia. cbn [nth].
      rewrite <- IH. destruct b.
      * rewrite N.add_comm. apply N.testbit_odd_succ. lia.
      * rewrite N.add_0_l. apply N.testbit_even_succ. lia.
Qed.
Lemma b2n_n2b_small v : v < 256 -> b2n (n2b v) = v.
Proof. intros H. rewrite b2n_n2b. apply N.mod_small. exact H. Qed.

Lemma len_firstn_le {A} n (l : list A) : len (firstn n l) <= N.of_nat n.
Proof. unfold len. pose proof (firstn_le_length n l). lia. Qed.

Lemma byte_bits_small l : bits_value (firstn 8 l) < 256.
Proof.
  eapply N.lt_le_trans; [apply bits_value_lt|]. change 256 with (2^8).
  apply N.pow_le_mono_r; [lia|]. pose proof (len_firstn_le 8 l). lia.
Qed.

Lemma len_pack_bits n : forall l, len (pack_bits n l) = N.of_nat n.
Proof. induction n as [|n IH]; intros l; [reflexivity|]. cbn [pack_bits]. rewrite len_cons, IH. lia. Qed.

Lemma pack_bits_nil n : pack_bits n [] = rep x00 (N.of_nat n).
Proof.
  induction n as [|n IH]; [reflexivity|]. cbn [pack_bits firstn skipn bits_value]. rewrite IH.
  unfold rep. rewrite !Nnat.Nat2N.id. reflexivity.
Qed.

Lemma lor_pow a j : a < 2 ^ j -> N.lor a (N.shiftl 1 j) = a + 2 ^ j.
Proof.
  intros H. rewrite N.shiftl_1_l.
  assert (Hz : N.land a (2^j) = 0).
  { apply N.bits_inj. intros i. rewrite N.land_spec, N.bits_0, N.pow2_bits_eqb.
    destruct (N.eqb_spec j i) as [<-|]; [|apply andb_false_r].
    rewrite andb_true_r. destruct (N.eq_dec a 0) as [->|Ha]; [apply N.bits_0|].
    apply N.bits_above_log2. apply N.log2_lt_pow2; lia. }
  rewrite <- N.lxor_lor by exact Hz. symmetry. apply N.add_nocarry_lxor. exact Hz.
Qed.

Lemma pack_step n : forall p b,
  (length p < 8 * n)%nat ->
  pack_bits n (p ++ [b]) =
    (if b then set_nth (length p / 8) (n2b (N.lor (b2n (nth (length p / 8) (pack_bits n p) x00))
                 (N.shiftl 1 (N.of_nat (length p mod 8))))) (pack_bits n p)
     else pack_bits n p).
Proof.
  induction n as [|n IH]; intros p b Hl; [lia|].
  cbn [pack_bits].
  destruct (le_lt_dec 8 (length p)) as [Hge|Hlt].
  - rewrite firstn_app, skipn_app.
    replace (8 - length p)%nat with 0%nat by lia. rewrite firstn_O, skipn_O, app_nil_r.
    rewrite IH by (rewrite skipn_length; lia).
    rewrite skipn_length.
    assert (Hdiv : (length p / 8 = S ((length p - 8) / 8))%nat).
    { replace (length p) with ((length p - 8) + 1 * 8)%nat at 1 by lia. rewrite Nat.div_add by lia. lia. }
    assert (Hmod : (length p mod 8 = (length p - 8) mod 8)%nat).
    { replace (length p) with ((length p - 8) + 1 * 8)%nat at 1 by lia. apply Nat.mod_add. lia. }
    rewrite Hdiv, Hmod. destruct b; reflexivity.
  - rewrite (firstn_all2 (n := 8) (p ++ [b])) by (rewrite app_length; cbn; lia).
    rewrite (skipn_all2 (n := 8) (p ++ [b])) by (rewrite app_length; cbn; lia).
    rewrite (firstn_all2 (n := 8) p) by lia. rewrite (skipn_all2 (n := 8) p) by lia.
    rewrite Nat.div_small by lia. rewrite Nat.mod_small by lia.
    rewrite bits_value_app. destruct b; [|rewrite N.add_0_r; reflexivity].
    cbn [set_nth nth]. f_equal. f_equal.
    pose proof (bits_value_lt p) as Hb.
    assert (H256 : 2 ^ len p <= 256).
    { change 256 with (2^8). apply N.pow_le_mono_r; unfold len; lia. }
    rewrite b2n_n2b_small by lia. unfold len in *. rewrite lor_pow by exact Hb. reflexivity.
Qed.

Lemma shiftr3 n : N.to_nat (N.shiftr (N.of_nat n) 3) = (n / 8)%nat.
Proof.
  rewrite N.shiftr_div_pow2. change (2^3) with 8.
  rewrite Nnat.N2Nat.inj_div, Nnat.Nat2N.id. reflexivity.
Qed.
Lemma land7 n : N.land (N.of_nat n) 7 = N.of_nat (n mod 8).
Proof.
  change 7 with (N.ones 3). rewrite N.land_ones. change (2^3) with 8.
  rewrite Nnat.Nat2N.inj_mod. reflexivity.
Qed.

Lemma pack_loop_ok n l : forall p,
  (length p + length l <= 8 * n)%nat ->
  pack_loop (len p) l (pack_bits n p) = Done (pack_bits n (p ++ l)).
Proof.
  induction l as [|b l IH]; intros p H; cbn [length] in H.
  - cbn [pack_loop]. rewrite app_nil_r. reflexivity.
  - cbn [pack_loop].
    replace (p ++ b :: l) with ((p ++ [b]) ++ l) by (rewrite <- app_assoc; reflexivity).
    replace (len p + 1) with (len (p ++ [b])) by (rewrite len_app; reflexivity).
    pose proof (pack_step n p b ltac:(lia)) as Hs.
    destruct b.
    + rewrite len_pack_bits. replace (N.shiftr (len p) 3) with (N.shiftr (N.of_nat (length p)) 3) by reflexivity.
      replace (N.land (len p) 7) with (N.land (N.of_nat (length p)) 7) by reflexivity. cbv zeta.
      destruct (N.ltb_spec (N.shiftr (N.of_nat (length p)) 3) (N.of_nat n)) as [_|X].
      2:{ rewrite N.shiftr_div_pow2 in X. change (2^3) with 8 in X.
          assert (N.of_nat (length p) / 8 < N.of_nat n) by (apply N.div_lt_upper_bound; lia). lia. }
      rewrite land7, shiftr3, <- Hs. apply IH. rewrite app_length. cbn. lia.
    + rewrite <- Hs. apply IH. rewrite app_length. cbn. lia.
Qed.

Lemma packed_count (l : list bool) : (length l <= 8 * N.to_nat ((len l + 7) / 8))%nat.
Proof.
  pose proof (N.div_mod (len l + 7) 8 ltac:(lia)) as H.
  pose proof (N.mod_lt (len l + 7) 8 ltac:(lia)) as H2. unfold len in *. lia.
Qed.

Lemma pack_loop_packed l :
  pack_loop 0 l (rep x00 ((len l + 7) / 8)) = Done (packed l).
Proof.
  unfold packed. set (n := N.to_nat ((len l + 7) / 8)).
  replace (rep x00 ((len l + 7) / 8)) with (pack_bits n []).
  - apply (pack_loop_ok n l []). cbn [length]. apply packed_count.
  - rewrite pack_bits_nil. unfold n. rewrite Nnat.N2Nat.id. reflexivity.
Qed.
Lemma len_packed l : len (packed l) = (len l + 7) / 8.
Proof. unfold packed. rewrite len_pack_bits. lia. Qed.

Lemma pack_bits_bit n : forall l i, (i < 8 * n)%nat ->
  N.testbit (b2n (nth (i / 8) (pack_bits n l) x00)) (N.of_nat (i mod 8)) = nth i l false.
Proof.
  induction n as [|n IH]; intros l i Hi; [lia|].
  cbn [pack_bits].
  destruct (le_lt_dec 8 i) as [Hge|Hlt].
  - assert (Hdiv : (i / 8 = S ((i - 8) / 8))%nat).
    { replace i with ((i - 8) + 1 * 8)%nat at 1 by lia. rewrite Nat.div_add by lia. lia. }
    assert (Hmod : (i mod 8 = (i - 8) mod 8)%nat).
    { replace i with ((i - 8) + 1 * 8)%nat at 1 by lia. apply Nat.mod_add. lia. }
    rewrite Hdiv, Hmod. cbn [nth]. rewrite IH by lia.
    rewrite <- (firstn_skipn 8 l) at 2.
    destruct (le_lt_dec 8 (length l)) as [Hl|Hl].
    + rewrite app_nth2; rewrite firstn_length; [|lia]. f_equal. lia.
    + rewrite (skipn_all2 (n := 8) l) by lia. rewrite app_nil_r.
      rewrite (nth_overflow (firstn 8 l)) by (rewrite firstn_length; lia). destruct (i - 8)%nat; reflexivity.
  - rewrite Nat.div_small, Nat.mod_small by lia. cbn [nth].
    rewrite b2n_n2b_small by apply byte_bits_small.
    rewrite bits_value_testbit.
    rewrite <- (firstn_skipn 8 l) at 2.
    destruct (le_lt_dec (length l) i) as [Hl|Hl].
    + rewrite (skipn_all2 (n := 8) l) by lia. rewrite app_nil_r. reflexivity.
    + rewrite app_nth1 by (rewrite firstn_length; lia). reflexivity.
Qed.

Lemma land_bit_test a j : negb (N.land a (N.shiftl 1 j) =? 0) = N.testbit a j.
Proof.
  rewrite N.shiftl_1_l. destruct (N.testbit a j) eqn:E.
  - apply negb_true_iff. apply N.eqb_neq. intros H.
    assert (X : N.testbit (N.land a (2^j)) j = true) by (rewrite N.land_spec, E, N.pow2_bits_true; reflexivity).
    rewrite H, N.bits_0 in X. discriminate.
  - apply negb_false_iff. apply N.eqb_eq. apply N.bits_inj. intros i.
    rewrite N.land_spec, N.bits_0, N.pow2_bits_eqb.
    destruct (N.eqb_spec j i) as [<-|]; [rewrite E; reflexivity|apply andb_false_r].
Qed.

Lemma skipn_nth {A} (d : A) (l : list A) : forall i, (i < length l)%nat ->
  skipn i l = nth i l d :: skipn (S i) l.
Proof.
  induction l as [|x l IH]; intros i Hi; [cbn in Hi; lia|].
  destruct i as [|i]; [reflexivity|]. cbn [length] in Hi.
  change (skipn (S i) (x :: l)) with (skipn i l). cbn [nth].
  change (skipn (S (S i)) (x :: l)) with (skipn (S i) l). apply IH. lia.
Qed.

Lemma unpack_loop_ok n l : forall m i,
  (i + m = length l)%nat -> (length l <= 8 * n)%nat ->
  unpack_loop m (N.of_nat i) (pack_bits n l) = Done (skipn i l).
Proof.
  induction m as [|m IH]; intros i H Hl.
  - cbn [unpack_loop]. rewrite skipn_all2 by lia. reflexivity.
  - cbn [unpack_loop]. rewrite len_pack_bits.
    destruct (N.ltb_spec (N.shiftr (N.of_nat i) 3) (N.of_nat n)) as [_|X].
    2:{ rewrite N.shiftr_div_pow2 in X. change (2^3) with 8 in X.
        assert (N.of_nat i / 8 < N.of_nat n) by (apply N.div_lt_upper_bound; lia). lia. }
    replace (N.of_nat i + 1) with (N.of_nat (S i)) by lia.
    rewrite IH by lia. cbn [bind].
    rewrite shiftr3, land7, land_bit_test, pack_bits_bit by lia.
    f_equal. symmetry. apply skipn_nth. lia.
Qed.
Lemma unpack_packed l : unpack_loop (length l) 0 (packed l) = Done l.
Proof.
  pose proof (unpack_loop_ok (N.to_nat ((len l + 7) / 8)) l (length l) 0) as Q.
  change (N.of_nat 0) with 0 in Q. cbn [skipn] in Q. apply Q; [lia|]. apply packed_count.
Qed.
