(** * PacketFacts: lemmas about Packet.v. *)
From Verif Require Import Base Bytes BytesFacts Values FileSpec Streams StreamFacts ReadSpec StreamProps Loader Packet PacketSpec.
Open Scope N_scope.

Lemma same_bytes_iff a : forall b, same_bytes a b = true <-> a = b.
Proof.
  induction a as [|x a IH]; intros [|y b]; cbn [same_bytes]; try (split; [discriminate|discriminate]); [tauto|].
  rewrite andb_true_iff, N.eqb_eq, IH. split.
  - intros (E & ->). apply b2n_inj in E. subst. reflexivity.
  - intros E. injection E as -> ->. auto.
Qed.

Lemma land_1_odd n : N.land n 1 = if N.odd n then 1 else 0.
Proof. destruct n as [|[p|p|]]; reflexivity. Qed.

Lemma enc8 fl b : enc W8 fl (b2n b) = [b].
Proof. unfold enc. change (N.to_nat (wbytes W8)) with 1%nat. cbn [le]. rewrite ?n2b_mod, n2b_b2n. destruct fl; reflexivity. Qed.

Lemma rs_u8_byte b pre post fl : len pre + 1 + len post < two64 ->
  rs_u8 (rs_at pre (b :: post) fl) = Done (b2n b, rs_at (pre ++ [b]) post fl).
Proof. intros H. pose proof (rs_u8_ok (b2n b) pre post fl (b2n_lt b) H) as E. rewrite enc8 in E. exact E. Qed.

Lemma enc_number big l : length l = 8%nat -> enc W64 big (number big l) = l.
Proof.
  intros H. unfold enc, number. change (N.to_nat (wbytes W64)) with 8%nat. destruct big.
  - rewrite le_of_le_n by (rewrite rev_length; exact H). apply rev_involutive.
  - apply le_of_le_n. exact H.
Qed.
Lemma number_lt big l : length l = 8%nat -> number big l < two64.
Proof.
  intros H. assert (X : forall l, length l = 8%nat -> of_le l < two64).
  { intros m M. pose proof (of_le_bound m) as B. replace (len m) with 8 in B by (unfold len; rewrite M; reflexivity). exact B. }
  unfold number. destruct big; apply X; rewrite ?rev_length; exact H.
Qed.

(** Reading one uuid: never fails; moves by 16 bytes or to the end. *)
Lemma read_uuid s : rs_inv s -> rs_pos s + 16 < two64 ->
  exists d, rs_read1 KUuid s = Done (d, RS (rs_data s) (N.min (rs_size s) (rs_pos s + 16)) (rs_flip s)).
Proof.
  intros I P. unfold rs_read1. destruct (rs_read_total KUuid 1 (rep x00 (ksize KUuid)) s I) as (n & d & s' & E & _ & _ & _ & A & B & C).
  - cbn [ksize]. lia.
  - rewrite len_rep. lia.
  - rewrite E. cbn [bind]. exists d. do 2 f_equal. destruct s' as [x y z]. cbn [rs_data rs_flip rs_pos] in *. subst.
    cbn [ksize]. rewrite N.mul_1_l. reflexivity.
Qed.

(** Any stream: every step is defined. *)
Lemma read_bytes_any n dest s : rs_inv s -> rs_pos s + n < two64 -> n <= len dest ->
  exists k d, rs_read (KW W8) n dest s = Done (k, d, RS (rs_data s) (N.min (rs_size s) (rs_pos s + n)) (rs_flip s)) /\ len d = len dest.
Proof.
  intros I P L. destruct (rs_read_total (KW W8) n dest s I) as (k & d & s' & E & _ & X & _ & A & B & C);
    cbn [ksize wbytes] in *; rewrite ?N.mul_1_r in *; try lia.
  exists k, d. split; [|exact X]. rewrite E. do 2 f_equal. destruct s' as [x1 x2 x3]. cbn [rs_data rs_flip rs_pos] in *. subst. reflexivity.
Qed.
Lemma read_word_any w s : rs_inv s -> rs_pos s + wbytes w < two64 ->
  exists v, rs_word w s = Done (v, RS (rs_data s) (N.min (rs_size s) (rs_pos s + wbytes w)) (rs_flip s)).
Proof.
  intros I P. unfold rs_word, rs_read1.
  destruct (rs_read_total (KW w) 1 (rep x00 (ksize (KW w))) s I) as (k & d & s' & E & _ & X & _ & A & B & C);
    cbn [ksize] in *; rewrite ?N.mul_1_l in *; try lia; [rewrite len_rep; lia|].
  rewrite E. cbn [bind]. exists (of_le d). do 2 f_equal. destruct s' as [x1 x2 x3]. cbn [rs_data rs_flip rs_pos] in *. subst. reflexivity.
Qed.

Lemma rs_size_at d p f : rs_size (RS d p f) = len d. Proof. reflexivity. Qed.

Lemma never_undefined junk s : len junk = 3 -> rs_pos s <= rs_size s -> rs_size s + 64 < two64 ->
  exists st p f, from_memory_stream junk s = Done (None, st, RS (rs_data s) p f) /\ (st = SOk \/ st = EInvalid) /\
    rs_pos s <= p <= rs_size s.
Proof.
  intros J P S. unfold from_memory_stream. destruct s as [data pos fl]. rewrite rs_size_at in *. cbn [rs_pos rs_data] in *.
  destruct (read_bytes_any 3 junk (RS data pos fl)) as (k1 & m & -> & Lm); [split; rewrite rs_size_at; cbn [rs_pos]; lia|cbn [rs_pos]; lia|lia|].
  cbn [bind rs_data rs_flip rs_pos]. rewrite rs_size_at.
  unfold rs_u8, rs_u64.
  destruct (read_word_any W8 (RS data (N.min (len data) (pos + 3)) fl)) as (v1 & ->); [split; rewrite rs_size_at; cbn [rs_pos]; lia|cbn [rs_pos wbytes]; lia|].
  cbn [bind rs_data rs_flip rs_pos wbytes]. rewrite rs_size_at.
  match goal with |- context[rs_word W8 ?s] => destruct (read_word_any W8 s) as (v2 & ->) end; [split; rewrite rs_size_at; cbn [rs_pos]; lia|cbn [rs_pos wbytes]; lia|].
  cbn [bind rs_data rs_flip rs_pos wbytes]. rewrite rs_size_at.
  match goal with |- context[rs_read (KW W8) 3 (rep x00 3) ?s] => destruct (read_bytes_any 3 (rep x00 3) s) as (k2 & m2 & -> & _) end;
    [split; rewrite rs_size_at; cbn [rs_pos]; lia|cbn [rs_pos]; lia|rewrite len_rep; lia|].
  cbn [bind rs_data rs_flip rs_pos wbytes]. rewrite rs_size_at.
  destruct (same_bytes m isd_magic); cbn [negb].
  2:{ do 3 eexists. split; [reflexivity|]. split; [auto|lia]. }
  set (s5 := if Bool.eqb _ _ then _ else _).
  assert (H5 : exists p f, s5 = RS data p f /\ pos <= p <= len data).
  { unfold s5. destruct (Bool.eqb _ _); [|unfold rs_setflip; cbn [rs_data rs_pos]]; do 2 eexists; (split; [reflexivity|lia]). }
  destruct H5 as (p5 & f5 & -> & P5).
  destruct (read_word_any W64 (RS data p5 f5)) as (ds & ->); [split; rewrite rs_size_at; cbn [rs_pos]; lia|cbn [rs_pos wbytes]; lia|].
  cbn [bind rs_data rs_flip rs_pos wbytes]. rewrite !rs_size_at.
  destruct (_ <? _).
  { do 3 eexists. split; [reflexivity|]. split; [auto|lia]. }
  match goal with |- context[rs_read1 KUuid ?s] => destruct (read_uuid s) as (u1 & ->) end; [split; rewrite rs_size_at; cbn [rs_pos]; lia|cbn [rs_pos]; lia|].
  cbn [bind rs_data rs_flip rs_pos]. rewrite !rs_size_at.
  match goal with |- context[rs_read1 KUuid ?s] => destruct (read_uuid s) as (u2 & ->) end; [split; rewrite rs_size_at; cbn [rs_pos]; lia|cbn [rs_pos]; lia|].
  cbn [bind rs_data rs_flip rs_pos]. rewrite !rs_size_at.
  do 3 eexists. split; [reflexivity|]. split; [auto|lia].
Qed.

(** Streams that still hold a whole header. *)
Lemma header_read junk pre h rest fl : header_ok h -> len junk = 3 -> len pre + 64 + len rest < two64 ->
  let big := fl || big_endian h in
  let d := number big (h_size h) in
  exists st p f,
    from_memory_stream junk (RS (pre ++ header_bytes h ++ rest) (len pre) fl) = Done (None, st, RS (pre ++ header_bytes h ++ rest) p f) /\
    (magic_right h /\ (d <= len rest \/ two64 <= len pre + 16 + d) /\ st = SOk /\ f = big /\ p = N.min (len pre + 16 + len rest) (len pre + 48) \/
     magic_right h /\ len rest < d /\ len pre + 16 + d < two64 /\ st = EInvalid /\ f = big /\ p = len pre + 16 \/
     ~ magic_right h /\ st = EInvalid /\ f = fl /\ p = len pre + 8).
Proof.
  destruct h as [[[a b] c] ver flags [[x y] z] sz]. unfold header_ok, magic_right, big_endian, header_bytes. cbn [h_size h_magic h_version h_flags h_padding].
  intros Z J S. cbn zeta.
  assert (Lz : len sz = 8) by (unfold len; rewrite Z; reflexivity).
  unfold from_memory_stream.
  assert (X : forall l, RS (pre ++ [a;b;c;ver;flags;x;y;z] ++ l) (len pre) fl = rs_at pre ([a;b;c] ++ ver :: flags :: [x;y;z] ++ l) fl) by reflexivity.
  rewrite <- app_assoc, X. 
  pose proof (rs_bytes_ok [a;b;c] junk pre (ver :: flags :: [x;y;z] ++ sz ++ rest) fl) as R1.
  change (len [a;b;c]) with 3 in R1. rewrite R1; [|exact J|rewrite !len_cons, !len_app, !len_cons, len_nil; lia]. cbn [bind].
  rewrite rs_u8_byte; [|rewrite ?len_app, ?len_cons, ?len_app, ?len_cons, ?len_app, ?len_nil; lia]. cbn [bind].
  rewrite rs_u8_byte; [|rewrite ?len_app, ?len_cons, ?len_app, ?len_cons, ?len_app, ?len_nil; lia]. cbn [bind].
  pose proof (rs_bytes_ok [x;y;z] (rep x00 3) (((pre ++ [a;b;c]) ++ [ver]) ++ [flags]) (sz ++ rest) fl) as R2.
  change (len [x;y;z]) with 3 in R2. rewrite R2; [|rewrite len_rep; reflexivity|rewrite ?len_app, ?len_cons, ?len_nil; lia]. cbn [bind]. clear R1 R2 X.
  set (pre8 := ((((pre ++ [a;b;c]) ++ [ver]) ++ [flags]) ++ [x;y;z])).
  assert (P8 : len pre8 = len pre + 8) by (unfold pre8; rewrite ?len_app, ?len_cons, ?len_nil; lia).
  assert (D8 : pre ++ [a;b;c;ver;flags;x;y;z] ++ sz ++ rest = pre8 ++ sz ++ rest) by (unfold pre8; rewrite <- !app_assoc; reflexivity).
  rewrite D8.
  destruct (same_bytes [a;b;c] isd_magic) eqn:M; cbn [negb].
  2:{ unfold rs_at. do 3 eexists. split; [reflexivity|]. right. right. split; [|auto].
      intros E. injection E as -> -> ->. discriminate M. }
  apply same_bytes_iff in M. injection M as -> -> ->.
  set (s5 := if Bool.eqb _ _ then _ else _).
  assert (H5 : s5 = rs_at pre8 (sz ++ rest) (fl || N.odd (b2n flags))).
  { unfold s5. rewrite land_1_odd. destruct (N.odd (b2n flags)); [|rewrite orb_false_r; reflexivity].
    rewrite orb_true_r. reflexivity. }
  rewrite H5. clear s5 H5. set (big := fl || N.odd (b2n flags)). set (d := number big sz).
  pose proof (rs_u64_ok (number big sz) pre8 rest big (number_lt big sz Z)) as R. rewrite (enc_number big sz Z) in R. fold d in R.
  rewrite R; [|lia]. clear R. cbn [bind].
  rewrite rs_at_size, rs_at_pos, len_app, P8, Lz.
  assert (Bd : d < two64) by (apply number_lt; exact Z).
  destruct (N.lt_ge_cases (len pre + 16 + d) two64) as [W|W].
  - rewrite add64_small by lia. destruct (N.ltb_spec (len pre + 8 + 8 + len rest) (len pre + 8 + 8 + d)).
    + unfold rs_at. rewrite <- app_assoc. do 3 eexists. split; [reflexivity|]. right. left. rewrite len_app, P8, Lz. repeat split; lia.
    + assert (I : rs_inv (rs_at (pre8 ++ sz) rest big)) by (split; rewrite rs_at_size, ?rs_at_pos, len_app; lia).
      destruct (read_uuid _ I) as (u1 & ->); [rewrite rs_at_pos, len_app; lia|]. cbn [bind].
      match goal with |- context[rs_read1 KUuid ?s] => destruct (read_uuid s) as (u2 & ->) end.
      { split; cbn [rs_pos]; unfold rs_size; cbn [rs_data rs_at]; rewrite ?rs_at_size, ?rs_at_pos, ?len_app; lia. }
      { cbn [rs_pos]. rewrite rs_at_pos, len_app. lia. }
      cbn [bind rs_data rs_flip rs_at rs_pos]. unfold rs_size. cbn [rs_data]. rewrite <- app_assoc.
      do 3 eexists. split; [reflexivity|]. left. split; [reflexivity|]. split; [left; lia|]. split; [reflexivity|]. split; [reflexivity|].
      cbn [rs_at rs_data]. rewrite ?len_app, P8, Lz. lia.
  - assert (Wr : add64 (len pre + 8 + 8) d = len pre + 16 + d - two64).
    { unfold add64, w64. replace (len pre + 8 + 8 + d) with ((len pre + 16 + d - two64) + 1 * two64) by lia.
      rewrite N.mod_add by (unfold two64; lia). apply N.mod_small. lia. }
    rewrite Wr. destruct (N.ltb_spec (len pre + 8 + 8 + len rest) (len pre + 16 + d - two64)); [lia|].
    assert (I : rs_inv (rs_at (pre8 ++ sz) rest big)) by (split; rewrite rs_at_size, ?rs_at_pos, len_app; lia).
    destruct (read_uuid _ I) as (u1 & ->); [rewrite rs_at_pos, len_app; lia|]. cbn [bind].
    match goal with |- context[rs_read1 KUuid ?s] => destruct (read_uuid s) as (u2 & ->) end.
    { split; cbn [rs_pos]; unfold rs_size; cbn [rs_data rs_at]; rewrite ?rs_at_size, ?rs_at_pos, ?len_app; lia. }
    { cbn [rs_pos]. rewrite rs_at_pos, len_app. lia. }
    cbn [bind rs_data rs_flip rs_at rs_pos]. unfold rs_size. cbn [rs_data]. rewrite <- app_assoc.
    do 3 eexists. split; [reflexivity|]. left. split; [reflexivity|]. split; [right; lia|]. split; [reflexivity|]. split; [reflexivity|].
    cbn [rs_at rs_data]. rewrite ?len_app, P8, Lz. lia.
Qed.
