(** * HexFacts: proofs about hex strings. *)
From Verif Require Import Base Bytes BytesFacts Values Hex HexSpec.
Open Scope N_scope.

Definition pair_of (b : byte) : list byte :=
  [nth (N.to_nat (b2n b / 16)) hexchars x00; nth (N.to_nat (b2n b mod 16)) hexchars x00].

Lemma hexchar_hi b : hexchar (N.land (N.shiftr (b2n b) 4) 15) = Done (nth (N.to_nat (b2n b / 16)) hexchars x00).
Proof. destruct b; vm_compute; reflexivity. Qed.
Lemma hexchar_lo b : hexchar (N.land (b2n b) 15) = Done (nth (N.to_nat (b2n b mod 16)) hexchars x00).
Proof. destruct b; vm_compute; reflexivity. Qed.
Lemma digit_hi b : hex_digit (nth (N.to_nat (b2n b / 16)) hexchars x00) = Some (b2n b / 16).
Proof. destruct b; vm_compute; reflexivity. Qed.
Lemma digit_lo b : hex_digit (nth (N.to_nat (b2n b mod 16)) hexchars x00) = Some (b2n b mod 16).
Proof. destruct b; vm_compute; reflexivity. Qed.

Lemma hex_loop_ok n : forall ret mem, (n <= length mem)%nat ->
  hex_loop n ret mem = Done (ret ++ flat_map pair_of (firstn n mem)).
Proof.
  induction n as [|n IH]; intros ret mem H; [cbn; rewrite app_nil_r; auto|].
  destruct mem as [|p mem]; [cbn in H; lia|]. cbn [hex_loop firstn flat_map].
  rewrite hexchar_hi, hexchar_lo. unfold bind. rewrite IH by (cbn in H; lia). f_equal. unfold pair_of.
  rewrite <- !app_assoc. reflexivity.
Qed.
Lemma hex_bytes l n : n = length l -> bytes_to_hex_string l n = Done (flat_map pair_of l).
Proof. intros ->. unfold bytes_to_hex_string. rewrite hex_loop_ok by lia. rewrite firstn_all. auto. Qed.

Lemma of_be_snoc l b : of_be (l ++ [b]) = 256 * of_be l + b2n b.
Proof.
  induction l as [|a l IH]; cbn [app of_be].
  - cbn [length]. change (N.of_nat 0) with 0. rewrite N.pow_0_r. lia.
  - rewrite IH, app_length. cbn [length]. replace (N.of_nat (length l + 1)) with (N.succ (N.of_nat (length l))) by lia.
    rewrite N.pow_succ_r'. lia.
Qed.
Lemma of_be_rev l : of_be (rev l) = of_le l.
Proof. induction l as [|a l IH]; cbn [rev of_le]; auto. rewrite of_be_snoc, IH. lia. Qed.

Lemma pairs_numeral l : hex_numeral (flat_map pair_of l) (of_be l).
Proof.
  induction l as [|b l IH] using rev_ind; [constructor|].
  rewrite flat_map_app, of_be_snoc. cbn [flat_map]. rewrite app_nil_r. unfold pair_of at 2.
  replace (256 * of_be l + b2n b) with (16 * (16 * of_be l + b2n b / 16) + b2n b mod 16)
    by (pose proof (N.div_mod (b2n b) 16); lia).
  match goal with |- hex_numeral (?s ++ [?a; ?c]) _ => replace (s ++ [a; c]) with ((s ++ [a]) ++ [c]) by (rewrite <- app_assoc; auto) end.
  constructor; [constructor; [exact IH|apply digit_hi]|apply digit_lo].
Qed.
Lemma pairs_length l : length (flat_map pair_of l) = (2 * length l)%nat.
Proof. induction l as [|b l IH]; cbn [flat_map]; auto. rewrite app_length, IH. cbn [pair_of length]. lia. Qed.

Lemma over_same a b : length a = length b -> stored_over a b = a.
Proof. intros H. unfold stored_over. rewrite H, skipn_all, app_nil_r. auto. Qed.

Lemma be_numeral n v : v < 256 ^ N.of_nat n -> hex_numeral (flat_map pair_of (rev (le n v))) v.
Proof. intros H. pose proof (pairs_numeral (rev (le n v))) as P. rewrite of_be_rev, of_le_le_small in P; auto. Qed.

Lemma hex_word n v (b : N -> list byte) : b v = rev (le n v) -> 
  bytes_to_hex_string (stored_over (b v) (le n v)) n = Done (flat_map pair_of (rev (le n v))).
Proof.
  intros E. rewrite E, over_same by (rewrite rev_length; auto). apply hex_bytes. rewrite rev_length, le_length. auto.
Qed.
Lemma hex_u16_eq v : hex_u16 v = Done (flat_map pair_of (rev (le 2 v))).
Proof. apply hex_word. apply be16_rev. Qed.
Lemma hex_u32_eq v : hex_u32 v = Done (flat_map pair_of (rev (le 4 v))).
Proof. apply hex_word. apply be32_rev. Qed.
Lemma hex_u64_eq v : hex_u64 v = Done (flat_map pair_of (rev (le 8 v))).
Proof. apply hex_word. apply be64_rev. Qed.

Lemma word_length n v : length (flat_map pair_of (rev (le n v))) = (2 * n)%nat.
Proof. rewrite pairs_length, rev_length, le_length. auto. Qed.

Lemma hex_text_ok x : scalar_ok x -> exists s, hex_of x = Done s /\ hex_text x s.
Proof.
  destruct x as [w v|d1 d2 d3 d4|h]; cbn [scalar_ok hex_of hex_text].
  - intros H. exists (flat_map pair_of (rev (le (N.to_nat (wbytes w)) v))). split.
    + destruct w; [|apply hex_u16_eq|apply hex_u32_eq|apply hex_u64_eq]. unfold hex_u8. rewrite hex_bytes; auto.
    + split; [unfold len; rewrite word_length; destruct w; reflexivity|].
      apply be_numeral. rewrite N2Nat.id. exact H.
  - intros (H1 & H2 & H3 & H4). assert (L : length d4 = 8%nat) by (unfold len in H4; lia).
    exists (flat_map pair_of (rev (le 4 d1)) ++ dash ++ flat_map pair_of (rev (le 2 d2)) ++ dash ++
            flat_map pair_of (rev (le 2 d3)) ++ dash ++ flat_map pair_of (firstn 2 d4) ++ dash ++
            flat_map pair_of (skipn 2 d4)).
    split.
    + unfold hex_uuid. rewrite hex_u32_eq, !hex_u16_eq. unfold bind, bytes_to_hex_string.
      rewrite hex_loop_ok by lia. fold (bytes_to_hex_string (skipn 2 d4) 6).
      rewrite hex_bytes by (rewrite skipn_length; lia).
      f_equal. unfold dash. rewrite <- !app_assoc. reflexivity.
    + exists (flat_map pair_of (rev (le 4 d1))), (flat_map pair_of (rev (le 2 d2))), (flat_map pair_of (rev (le 2 d3))),
        (flat_map pair_of (firstn 2 d4)), (flat_map pair_of (skipn 2 d4)).
      split; [auto|]. split; [apply word_length|]. split; [apply word_length|]. split; [apply word_length|].
      split; [rewrite pairs_length, firstn_length; lia|]. split; [rewrite pairs_length, skipn_length; lia|].
      split; [apply be_numeral; exact H1|]. split; [apply be_numeral; exact H2|]. split; [apply be_numeral; exact H3|].
      rewrite <- flat_map_app, firstn_skipn. apply pairs_numeral.
  - intros H. assert (L : length h = 32%nat) by (unfold len in H; lia). exists (flat_map pair_of h). split.
    + apply hex_bytes. auto.
    + split; [rewrite pairs_length; lia|apply pairs_numeral].
Qed.

Lemma numeral_fun s v v' : hex_numeral s v -> hex_numeral s v' -> v = v'.
Proof.
  intros H. revert v'. induction H as [|s v c d H IH D]; intros v' H'.
  - inversion H' as [E|s' w c d' H1 H2 E]; auto. destruct s'; discriminate.
  - inversion H' as [E|s' w c' d' H1 H2 E]; [destruct s; discriminate|].
    apply app_inj_tail in E. destruct E as (-> & ->). rewrite D in H2. injection H2 as <-.
    rewrite (IH _ H1). reflexivity.
Qed.
Lemma of_be_inj l l' : length l = length l' -> of_be l = of_be l' -> l = l'.
Proof.
  intros L E. rewrite <- (rev_involutive l), <- (rev_involutive l') in E. rewrite !of_be_rev in E.
  apply of_le_inj in E; [|rewrite !rev_length; auto]. rewrite <- (rev_involutive l), E. apply rev_involutive.
Qed.
Lemma app_inj_length {A} (a b x y : list A) : length a = length b -> a ++ x = b ++ y -> a = b /\ x = y.
Proof.
  revert b. induction a as [|h a IH]; destruct b as [|k b]; cbn; intros L E; try discriminate; auto.
  injection E as -> E. apply IH in E; [|lia]. destruct E as (-> & ->). auto.
Qed.

Lemma text_inj x y s : scalar_ok x -> scalar_ok y -> scalar_kind x = scalar_kind y ->
  hex_text x s -> hex_text y s -> x = y.
Proof.
  destruct x as [w v|d1 d2 d3 d4|h], y as [w' v'|e1 e2 e3 e4|h']; cbn [scalar_ok scalar_kind hex_text]; try discriminate.
  - intros _ _ K (_ & A) (_ & B). injection K as ->. f_equal. eapply numeral_fun; eauto.
  - intros (_ & _ & _ & L) (_ & _ & _ & L') _ (a & b & c & d & e & -> & La & Lb & Lc & Ld & Le & Na & Nb & Nc & Nd)
      (a' & b' & c' & d' & e' & E & La' & Lb' & Lc' & Ld' & Le' & Na' & Nb' & Nc' & Nd').
    unfold dash in E.
    apply app_inj_length in E; [|lia]. destruct E as (-> & E). cbn [app] in E. injection E as E.
    apply app_inj_length in E; [|lia]. destruct E as (-> & E). cbn [app] in E. injection E as E.
    apply app_inj_length in E; [|lia]. destruct E as (-> & E). cbn [app] in E. injection E as E.
    apply app_inj_length in E; [|lia]. destruct E as (-> & E). cbn [app] in E. injection E as E. subst e'.
    f_equal; try (eapply numeral_fun; eassumption).
    apply of_be_inj; [unfold len in *; lia|]. eapply numeral_fun; eauto.
  - intros L L' _ (_ & A) (_ & B). f_equal. apply of_be_inj; [unfold len in *; lia|]. eapply numeral_fun; eauto.
Qed.

Lemma hex_inj x y s : scalar_ok x -> scalar_ok y -> scalar_kind x = scalar_kind y ->
  hex_of x = Done s -> hex_of y = Done s -> x = y.
Proof.
  intros X Y K E E'. destruct (hex_text_ok x X) as (a & A & A'). destruct (hex_text_ok y Y) as (b & B & B').
  rewrite E in A. injection A as <-. rewrite E' in B. injection B as <-. eapply text_inj; eauto.
Qed.
