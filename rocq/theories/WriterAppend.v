(** * WriterAppend: whatever is written, a call that returns has only appended (proofs only).
    Partial correctness of the write stream and of the EntityWriter templates: no hypothesis on sizes or on
    the memory there is. *)
From Verif Require Import Base Bytes BytesFacts Values Streams FileSpec StreamFacts Types EntityWriter EntityWriterFacts.
Open Scope N_scope.

(** ** Write stream *)
Lemma ws_resize_any n s : ws_ok s -> ws_size s <= n ->
  match ws_resize n s with
  | (true, s') => ws_ok s' /\ ws_data s' = ws_data s ++ rep x00 (n - ws_size s) /\
      ws_size s' = n /\ ws_pos s' = ws_pos s /\ ws_flip s' = ws_flip s /\ ws_lim s' = ws_lim s /\ n <= len (ws_mem s')
  | (false, _) => True
  end.
Proof.
  intros Hok Hn. pose proof Hok as (H1 & H2 & H3 & H4 & H5 & H6). unfold ws_resize.
  destruct (N.ltb_spec (ws_res s) n) as [Hlt|Hge].
  - unfold ws_reserve. set (m := mul64 (ws_res s) 2). set (d := if m <? n then n else m).
    assert (Hdb : n <= d) by (unfold d; destruct (N.ltb_spec m n); lia).
    destruct (N.ltb_spec 0 d); cbn [andb]; [|exact Logic.I].
    destruct (N.leb_spec d (ws_lim s)); [|exact Logic.I].
    cbn [ws_mem ws_size ws_pos ws_res ws_flip ws_lim].
    assert (Ht : len (take (ws_size s) (ws_mem s)) = ws_size s) by (rewrite len_take; lia).
    rewrite Ht. unfold ws_ok, ws_data. cbn [ws_mem ws_size ws_pos ws_res ws_flip ws_lim].
    rewrite len_app, Ht, len_rep. repeat split; try lia.
    + rewrite drop_app_ge by lia. rewrite Ht, drop_rep. f_equal. lia.
    + rewrite take_app_ge by lia. rewrite Ht, take_rep. f_equal. f_equal. lia.
  - unfold ws_ok, ws_data. cbn [ws_mem ws_size ws_pos ws_res ws_flip ws_lim].
    rewrite (ws_mem_split s Hok).
    assert (Hl : len (ws_data s) = ws_size s) by (apply ws_ok_data_len; exact Hok).
    unfold ws_data in *. repeat split; try lia.
    + rewrite len_app, len_rep. lia.
    + rewrite drop_app_ge by lia. rewrite Hl, drop_rep. f_equal. lia.
    + rewrite take_app_ge by lia. rewrite Hl, take_rep. rewrite take_app_exact by lia. f_equal. f_equal. lia.
    + rewrite len_app, len_rep. lia.
Qed.

Lemma ws_raw_any src s f : ws_abs s f ->
  match ws_raw src s with
  | Done (true, s') => ws_abs s' (f_put src f) /\ ws_flip s' = ws_flip s /\ ws_lim s' = ws_lim s /\
      ws_size s' = N.max (ws_size s) (ws_pos s + len src) /\ ws_pos s + len src < two64
  | Done (false, _) => ws_size s < ws_pos s + len src
  | Undef => two64 <= ws_pos s + len src
  | Throw => False
  end.
Proof.
  intros (Hok & Hd & Hp). pose proof Hok as (H1 & H2 & H3 & H4 & H5 & H6).
  pose proof (ws_ok_data_len s Hok) as Hl.
  destruct (N.lt_ge_cases (ws_pos s + len src) two64) as [Hw|Hw].
  2:{ unfold ws_raw. set (e := add64 (ws_pos s) (len src)).
      assert (HX : match (if ws_size s <? e then ws_resize e s else (true, s)) with (true, s1) => ws_pos s1 = ws_pos s /\ len (ws_mem s1) < two64 | (false, _) => True end).
      { destruct (N.ltb_spec (ws_size s) e).
        - pose proof (ws_resize_any e s Hok ltac:(lia)) as X. destruct (ws_resize e s) as [[] s1]; [|exact Logic.I].
          destruct X as ((X1 & _ & _ & _ & X5 & X6) & _ & _ & X7 & _ & X8 & _). lia.
        - split; [reflexivity|]. lia. }
      destruct (if ws_size s <? e then ws_resize e s else (true, s)) as [[] s1].
      - destruct HX as (X1 & X2). rewrite X1. destruct (N.leb_spec (ws_pos s + len src) (len (ws_mem s1))); [lia|exact Hw].
      - lia. }
  unfold ws_raw. rewrite add64_small by lia.
  assert (HX : match (if ws_size s <? ws_pos s + len src then ws_resize (ws_pos s + len src) s else (true, s)) with
             | (true, s1) => ws_ok s1 /\
             ws_data s1 = ws_data s ++ rep x00 (ws_pos s + len src - ws_size s) /\
             ws_size s1 = N.max (ws_size s) (ws_pos s + len src) /\
             ws_pos s1 = ws_pos s /\ ws_flip s1 = ws_flip s /\ ws_lim s1 = ws_lim s
             | (false, _) => ws_size s < ws_pos s + len src end).
  { destruct (N.ltb_spec (ws_size s) (ws_pos s + len src)).
    - pose proof (ws_resize_any (ws_pos s + len src) s Hok ltac:(lia)) as X. destruct (ws_resize _ s) as [[] s1]; [|assumption].
      destruct X as (A1 & A2 & A3 & A4 & A5 & A6 & A7). rewrite A3. repeat split; try assumption; try lia; apply A1.
    - replace (ws_pos s + len src - ws_size s) with 0 by lia.
      rewrite rep_0, app_nil_r. repeat split; try assumption; lia. }
  destruct (if ws_size s <? ws_pos s + len src then _ else _) as [[] s1]; [|exact HX].
  destruct HX as (Hok1 & Hd1 & Hs1 & Hp1 & Hf1 & Hlim1).
  pose proof Hok1 as (G1 & G2 & G3 & G4 & G5 & G6).
  destruct (N.leb_spec (ws_pos s1 + len src) (len (ws_mem s1))) as [Hle|Hgt]; [|lia].
  assert (Hmem : ws_mem s1 = ws_data s ++ rep x00 (ws_res s1 - ws_size s)).
  { rewrite (ws_mem_split s1 Hok1), Hd1, <- app_assoc, rep_app. f_equal. f_equal. lia. }
  unfold ws_abs, ws_ok. cbn [ws_mem ws_size ws_pos ws_res ws_flip ws_lim].
  split; [|split; [exact Hf1|split; [exact Hlim1|split; [exact Hs1|lia]]]].
  split; [|split].
  - split; [rewrite !len_app, len_take, len_drop; lia|].
    split; [lia|]. split; [lia|]. split; [|split; [lia|lia]].
    rewrite app_assoc. rewrite drop_app_ge by (rewrite len_app, len_take; lia).
    rewrite drop_drop. rewrite <- G4. f_equal.
    rewrite len_app, len_take. lia.
  - unfold ws_data, f_put. cbn [ws_mem ws_size f_bytes]. rewrite <- Hd, <- Hp.
    rewrite Hmem, Hp1, Hs1.
    rewrite (take_app_le _ _ (ws_pos s)) by lia.
    rewrite app_assoc, take_app_ge by (rewrite len_app, len_take; lia).
    rewrite <- app_assoc. f_equal. f_equal.
    rewrite len_app, len_take, Hl.
    replace (N.min (ws_pos s) (ws_size s)) with (ws_pos s) by lia.
    destruct (N.le_gt_cases (ws_pos s + len src) (ws_size s)) as [C|C].
    + rewrite drop_app_le by lia. rewrite take_app_exact; [reflexivity|]. rewrite len_drop. lia.
    + rewrite drop_app_ge by lia. rewrite (drop_all (ws_data s)) by lia.
      replace (N.max (ws_size s) (ws_pos s + len src) - (ws_pos s + len src)) with 0 by lia.
      reflexivity.
  - unfold f_put. cbn [f_pos]. lia.
Qed.

(** Swapping the words just written. *)
Lemma swapped_abs W count src s s1 f :
  ws_abs s f -> len src = count * wbytes W -> ws_abs s1 (f_put src f) -> ws_size s1 = N.max (ws_size s) (ws_pos s + len src) ->
  ws_abs (WS (take (ws_pos s) (ws_mem s1) ++ swap_words W (N.to_nat count) (drop (ws_pos s) (ws_mem s1)))
             (ws_size s1) (ws_pos s1) (ws_res s1) (ws_flip s1) (ws_lim s1)) (f_put (swap_words W (N.to_nat count) src) f).
Proof.
  intros Habs Hlen Habs1 Hsz. pose proof Habs as (Hok & Hd & Hp). pose proof Hok as (H1 & H2 & H3 & H4 & H5 & H6).
  pose proof Habs1 as (Hok1 & Hd1 & Hp1); pose proof Hok1 as (G1 & G2 & G3 & G4 & G5 & G6).
  assert (Hlw : len (swap_words W (N.to_nat count) src) = len src) by (apply len_swap_words; lia).
  assert (Hdata1 : ws_data s1 = take (ws_pos s) (ws_data s) ++ src ++ drop (ws_pos s + len src) (ws_data s))
    by (rewrite Hd1; unfold f_put; cbn [f_bytes]; rewrite Hd, Hp; reflexivity).
  pose proof (ws_ok_data_len s Hok) as Hl.
  assert (Htl : len (take (ws_pos s) (ws_data s)) = ws_pos s) by (rewrite len_take; lia).
  assert (Hnew : take (ws_pos s) (ws_mem s1) ++ swap_words W (N.to_nat count) (drop (ws_pos s) (ws_mem s1))
         = (take (ws_pos s) (ws_data s) ++ swap_words W (N.to_nat count) src ++ drop (ws_pos s + len src) (ws_data s))
           ++ rep x00 (ws_res s1 - ws_size s1)).
  { rewrite (ws_mem_split s1 Hok1), Hdata1, <- !app_assoc.
    rewrite take_app_exact by lia; rewrite drop_app_exact by lia. rewrite swap_words_app by lia; reflexivity. }
  assert (Hlnew : len (take (ws_pos s) (ws_data s) ++ swap_words W (N.to_nat count) src ++ drop (ws_pos s + len src) (ws_data s)) = ws_size s1)
    by (rewrite !len_app, Htl, Hlw, len_drop; lia).
  unfold ws_abs, ws_ok, ws_data; cbn [ws_mem ws_size ws_pos ws_res ws_flip ws_lim]. rewrite Hnew.
  repeat split; try assumption; try lia.
  - rewrite len_app, len_rep; lia.
  - rewrite drop_app_exact by lia; reflexivity.
  - rewrite take_app_exact by lia; unfold f_put; cbn [f_bytes]; rewrite <- Hd, <- Hp, Hlw; reflexivity.
  - rewrite Hp1; unfold f_put; cbn [f_pos]; lia.
Qed.

(** A call that returns has put some bytes at the position. *)
Definition puts (r : res wstream) (s : wstream) (f : file) : Prop :=
  match r with
  | Done s' => exists bs, ws_abs s' (f_put bs f) /\ ws_flip s' = ws_flip s /\ ws_lim s' = ws_lim s
  | _ => True
  end.
Lemma ws_words_any w count src s f : ws_abs s f -> puts (thrown_res (ws_words w count src s)) s f.
Proof.
  intros Habs. pose proof Habs as (Hok & Hd & Hp). pose proof Hok as (H1 & H2 & H3 & H4 & H5 & H6).
  unfold ws_words. set (n := match w with W8 => count | _ => mul64 count (wbytes w) end).
  destruct (N.ltb_spec (len src) n) as [|Hn]; [exact Logic.I|].
  assert (Hln : len (take n src) = n) by (rewrite len_take; lia).
  pose proof (ws_raw_any (take n src) s f Habs) as X. destruct (ws_raw (take n src) s) as [[ok s1]| |]; cbn [bind thrown_res]; [|exact Logic.I|exact Logic.I].
  destruct ok; [|destruct w; exact Logic.I].
  destruct X as (Habs1 & Hf & Hlm & Hsz & Hw).
  assert (Hsame : puts (Done s1) s f) by (exists (take n src); auto).
  destruct (ws_flip s) eqn:Efl; [|destruct w; exact Hsame].
  destruct w; [exact Hsame| | |]; cbn [andb].
  all: match goal with |- context[swap_words ?w _ (drop _ _)] => set (W := w) in * end.
  all: destruct (N.leb_spec (ws_pos s + count * wbytes W) (len (ws_mem s1))) as [Hle|]; [|exact Logic.I].
  all: cbn [thrown_res bind thrown].
  all: pose proof Habs1 as ((G1 & G2 & G3 & G4 & G5 & G6) & _).
  all: assert (Hn2 : n = count * wbytes W) by (apply mul64_small; lia).
  all: exists (swap_words W (N.to_nat count) (take n src)).
  all: split; [apply swapped_abs; [exact Habs|lia|exact Habs1|exact Hsz]|split; cbn [ws_flip ws_lim]; congruence].
Qed.
Lemma ws_uuids_any c : forall src s f, ws_abs s f -> puts (ws_uuids c src s) s f.
Proof.
  induction c as [|c IH]; intros src s f Habs; cbn [ws_uuids].
  - exists []. rewrite f_put_nil by (eapply ws_abs_pos; exact Habs). auto.
  - destruct (len src <? 16); [exact Logic.I|].
    pose proof (ws_words_any W8 16 (uuid_to_wire (take 16 src)) s f Habs) as X.
    destruct (thrown_res (ws_words W8 16 (uuid_to_wire (take 16 src)) s)) as [s1| |]; cbn [bind]; [|exact Logic.I|exact Logic.I].
    destruct X as (b1 & X1 & X2 & X3). pose proof (IH (drop 16 src) s1 _ X1) as Y.
    destruct (ws_uuids c (drop 16 src) s1) as [s2| |]; [|exact Logic.I|exact Logic.I].
    destruct Y as (b2 & Y1 & Y2 & Y3). exists (b1 ++ b2). rewrite f_put_app in Y1 by (eapply ws_abs_pos; exact Habs).
    split; [exact Y1|]. split; congruence.
Qed.
Lemma ws_write_any k count src s f : ws_abs s f -> puts (ws_write k count src s) s f.
Proof.
  intros H. destruct k; cbn [ws_write]; [apply ws_words_any|apply ws_uuids_any|apply ws_words_any]; exact H.
Qed.
(** One u64 inside of what was written: never fails. *)
Lemma ws_u64_inside v s f : ws_abs s f -> ws_pos s + 8 <= ws_size s ->
  exists s', ws_u64 v s = Done s' /\ ws_abs s' (f_put (enc W64 (ws_flip s) v) f) /\ ws_flip s' = ws_flip s /\ ws_lim s' = ws_lim s /\ ws_size s' = ws_size s.
Proof.
  intros Habs Hin. pose proof Habs as (Hok & Hd & Hp). pose proof Hok as (H1 & H2 & H3 & H4 & H5 & H6).
  unfold ws_u64. cbn [ws_write]. unfold ws_words. change (mul64 1 (wbytes W64)) with 8.
  assert (Hl : len (le 8 v) = 8) by (rewrite len_le; reflexivity). rewrite Hl. cbn [N.ltb]. change (8 <? 8) with false. cbv iota.
  rewrite take_all by lia. pose proof (ws_raw_any (le 8 v) s f Habs) as X. rewrite Hl in X.
  destruct (ws_raw (le 8 v) s) as [[[] s1]| |]; cbn [bind thrown_res]; try lia; try contradiction.
  destruct X as (Habs1 & Hf & Hlm & Hsz & Hw). pose proof Habs1 as ((G1 & G2 & G3 & G4 & G5 & G6) & _).
  destruct (ws_flip s) eqn:Efl; cbn [andb].
  - change (1 * wbytes W64) with 8. destruct (N.leb_spec (ws_pos s + 8) (len (ws_mem s1))); [|lia].
    eexists. cbn [bind thrown]. split; [reflexivity|]. cbn [ws_flip ws_lim ws_size]. split.
    + pose proof (swapped_abs W64 1 (le 8 v) s s1 f Habs Hl Habs1) as Y. rewrite Hl in Y. specialize (Y Hsz).
      replace (swap_words W64 (N.to_nat 1) (le 8 v)) with (enc W64 true v) in Y; [exact Y|]. symmetry. exact (wire_single W64 true v).
    + split; [congruence|]. split; [exact Hlm|]. lia.
  - exists s1. cbn [bind thrown]. split; [reflexivity|]. split; [exact Habs1|]. split; [congruence|]. split; [exact Hlm|]. lia.
Qed.
Lemma ws_setpos_inside p s f : ws_abs s f -> p <= ws_size s ->
  exists s', ws_setpos p s = (true, s') /\ ws_abs s' (File (f_bytes f) p) /\ ws_flip s' = ws_flip s /\ ws_lim s' = ws_lim s /\ ws_size s' = ws_size s.
Proof.
  intros (Hok & Hd & Hp) Hin. pose proof Hok as (H1 & H2 & H3 & H4 & H5 & H6). unfold ws_setpos.
  destruct (N.ltb_spec (ws_size s) p); [lia|]. eexists. split; [reflexivity|].
  unfold ws_abs, ws_ok, ws_data in *. cbn [ws_mem ws_size ws_pos ws_res ws_flip ws_lim f_bytes f_pos].
  repeat split; try assumption; try lia.
Qed.

(** ** At the end of the data *)
Lemma ws_write_grow k count src s c fl lim : ws_at s c fl lim ->
  match ws_write k count src s with Done s' => exists new, ws_at s' (c ++ new) fl lim | _ => True end.
Proof.
  intros (Habs & <- & <-). pose proof (ws_write_any k count src s _ Habs) as X. destruct (ws_write k count src s) as [s'| |]; [|exact Logic.I|exact Logic.I].
  destruct X as (bs & X1 & X2 & X3). exists bs. rewrite f_put_end in X1. split; [exact X1|auto].
Qed.
(** Exactly one word. *)
Lemma ws_word_grow w v s c fl lim : ws_at s c fl lim ->
  match ws_write (KW w) 1 (le (N.to_nat (wbytes w)) v) s with Done s' => ws_at s' (c ++ enc w fl v) fl lim | _ => True end.
Proof.
  intros (Habs & <- & <-). pose proof Habs as (Hok & Hd & Hp). pose proof Hok as (H1 & H2 & H3 & H4 & H5 & H6).
  cbn [ws_write]. unfold ws_words.
  assert (Hn : match w with W8 => 1 | _ => mul64 1 (wbytes w) end = wbytes w) by (destruct w; reflexivity). rewrite Hn.
  assert (Hl : len (le (N.to_nat (wbytes w)) v) = wbytes w) by (rewrite len_le; lia). rewrite Hl, N.ltb_irrefl, take_all by lia.
  pose proof (ws_raw_any (le (N.to_nat (wbytes w)) v) s _ Habs) as X. rewrite Hl in X.
  destruct (ws_raw _ s) as [[[] s1]| |]; cbn [bind thrown_res]; try exact Logic.I; [|destruct w; exact Logic.I].
  destruct X as (Habs1 & Hf & Hlm & Hsz & Hw).
  assert (HX : ws_flip s = false \/ w = W8 -> ws_abs s1 (f_put (enc w (ws_flip s) v) (File c (len c)))).
  { intros Hor. replace (enc w (ws_flip s) v) with (le (N.to_nat (wbytes w)) v); [exact Habs1|].
    unfold enc. destruct Hor as [->| ->]; [reflexivity|]. destruct (ws_flip s); reflexivity. }
  assert (HY : forall s2, ws_abs s2 (f_put (enc w (ws_flip s) v) (File c (len c))) -> ws_flip s2 = ws_flip s -> ws_lim s2 = ws_lim s ->
    ws_at s2 (c ++ enc w (ws_flip s) v) (ws_flip s) (ws_lim s)).
  { intros s2 Z Z1 Z2. rewrite f_put_end in Z. split; [exact Z|auto]. }

  destruct (ws_flip s) eqn:Efl.
  2:{ assert (G : ws_at s1 (c ++ enc w false v) false (ws_lim s)) by (apply HY; [apply HX; auto|congruence|exact Hlm]). destruct w; exact G. }
  destruct w; [apply HY; [apply HX; auto|congruence|exact Hlm]| | |]; cbn [andb].
  all: match goal with |- context[swap_words ?w _ (drop _ _)] => set (W := w) in * end.
  all: destruct (N.leb_spec (ws_pos s + 1 * wbytes W) (len (ws_mem s1))) as [Hle|]; [|exact Logic.I]; cbn [thrown_res bind thrown].
  all: apply HY; cbn [ws_flip ws_lim]; [|congruence|exact Hlm].
  all: pose proof (swapped_abs W 1 (le (N.to_nat (wbytes W)) v) s s1 _ Habs) as Y; rewrite Hl in Y; specialize (Y ltac:(lia) Habs1 Hsz).
  all: replace (enc W true v) with (swap_words W (N.to_nat 1) (le (N.to_nat (wbytes W)) v)); [exact Y|exact (wire_single W true v)].
Qed.
(** Rewriting eight bytes and returning to the end. *)
Lemma ws_patch_any p v s a old b fl lim : ws_at s (a ++ old ++ b) fl lim -> len a = p -> len old = 8 ->
  exists s1 s2 s3, ws_setpos p s = (true, s1) /\ ws_u64 v s1 = Done s2 /\
    ws_setpos (ws_pos s) s2 = (true, s3) /\ ws_at s3 (a ++ enc W64 fl v ++ b) fl lim.
Proof.
  intros H Ha Hold. pose proof (ws_at_size _ _ _ _ H) as Hs. pose proof (ws_at_pos _ _ _ _ H) as Hps.
  destruct H as (Habs & Hfl & Hlm). set (c := a ++ old ++ b) in *.
  assert (Hlc : len c = len a + 8 + len b) by (unfold c; rewrite !len_app; lia).
  destruct (ws_setpos_inside p s _ Habs ltac:(lia)) as (s1 & E1 & A1 & A2 & A3 & A4). cbn [f_bytes] in A1.
  pose proof A1 as (_ & _ & Hp1). cbn [f_pos] in Hp1.
  destruct (ws_u64_inside v s1 _ A1 ltac:(lia)) as (s2 & E2 & B1 & B2 & B3 & B4).
  unfold f_put in B1. cbn [f_bytes f_pos] in B1. rewrite len_enc in B1. change (wbytes W64) with 8 in B1.
  assert (Hnew : take p c ++ enc W64 (ws_flip s1) v ++ drop (p + 8) c = a ++ enc W64 fl v ++ b).
  { unfold c. rewrite take_app_exact by lia.
    replace (a ++ old ++ b) with ((a ++ old) ++ b) by (symmetry; apply app_assoc).
    rewrite drop_app_exact by (rewrite len_app; lia). rewrite A2, Hfl. reflexivity. }
  rewrite Hnew in B1.
  destruct (ws_setpos_inside (ws_pos s) s2 _ B1 ltac:(lia)) as (s3 & E3 & C1 & C2 & C3 & C4). cbn [f_bytes] in C1.
  exists s1, s2, s3. split; [exact E1|]. split; [exact E2|]. split; [exact E3|].
  assert (Hll : len (a ++ enc W64 fl v ++ b) = len c) by (rewrite !len_app, len_enc; cbn [wbytes]; lia).
  split; [|split; congruence]. rewrite Hll, <- Hps. exact C1.
Qed.

(** ** The templates *)
Definition grown {A} (r : res (A * wstream)) (c : list byte) (fl : bool) (lim : N) : Prop :=
  match r with Done (_, s') => exists new, ws_at s' (c ++ new) fl lim | _ => True end.
Definition grown1 (r : res wstream) (c : list byte) (fl : bool) (lim : N) : Prop :=
  match r with Done s' => exists new, ws_at s' (c ++ new) fl lim | _ => True end.
Lemma grown_bind {A B} (r : res (A * wstream)) (k : A * wstream -> res (B * wstream)) c fl lim : grown r c fl lim ->
  (forall a s new, ws_at s (c ++ new) fl lim -> grown (k (a, s)) (c ++ new) fl lim) -> grown (bind r k) c fl lim.
Proof.
  intros H K. destruct r as [[a s]| |]; cbn [bind]; try exact Logic.I. destruct H as (new & H). pose proof (K a s new H) as X.
  unfold grown in *. destruct (k (a, s)) as [[b s']| |]; try exact Logic.I. destruct X as (n2 & X). exists (new ++ n2). rewrite app_assoc. exact X.
Qed.
Lemma grown1_bind {B} (r : res wstream) (k : wstream -> res (B * wstream)) c fl lim : grown1 r c fl lim ->
  (forall s new, ws_at s (c ++ new) fl lim -> grown (k s) (c ++ new) fl lim) -> grown (bind r k) c fl lim.
Proof.
  intros H K. destruct r as [s| |]; cbn [bind]; try exact Logic.I. destruct H as (new & H). pose proof (K s new H) as X.
  unfold grown in *. destruct (k s) as [[b s']| |]; try exact Logic.I. destruct X as (n2 & X). exists (new ++ n2). rewrite app_assoc. exact X.
Qed.
Lemma grown_done {A} (a : A) s c fl lim : ws_at s c fl lim -> grown (Done (a, s)) c fl lim.
Proof. intros H. exists []. rewrite app_nil_r. exact H. Qed.
Lemma grown1_done s c fl lim : ws_at s c fl lim -> grown1 (Done s) c fl lim.
Proof. intros H. exists []. rewrite app_nil_r. exact H. Qed.
Lemma grown_write k count src s c fl lim : ws_at s c fl lim -> grown1 (ws_write k count src s) c fl lim.
Proof. apply ws_write_grow. Qed.

Lemma begin_write_grow vt key s c fl lim : ws_at s c fl lim ->
  match begin_write vt key s with
  | Done (_, s') => exists name, ws_at s' (c ++ enc W8 fl vt ++ enc W64 fl maxint64 ++ enc W8 fl (klen key) ++ name) fl lim
  | _ => True
  end.
Proof.
  intros H. unfold begin_write.
  pose proof (ws_word_grow W8 vt s c fl lim H) as X1. change (ws_write (KW W8) 1 (le (N.to_nat (wbytes W8)) vt) s) with (ws_u8 vt s) in X1.
  destruct (ws_u8 vt s) as [s1| |]; cbn [bind]; try exact Logic.I.
  pose proof (ws_word_grow W64 maxint64 s1 _ fl lim X1) as X2. change (ws_write (KW W64) 1 (le (N.to_nat (wbytes W64)) maxint64) s1) with (ws_u64 maxint64 s1) in X2.
  destruct (ws_u64 maxint64 s1) as [s2| |]; cbn [bind]; try exact Logic.I.
  pose proof (ws_word_grow W8 (klen key) s2 _ fl lim X2) as X3. change (ws_write (KW W8) 1 (le (N.to_nat (wbytes W8)) (klen key)) s2) with (ws_u8 (klen key) s2) in X3.
  destruct (ws_u8 (klen key) s2) as [s3| |]; cbn [bind]; try exact Logic.I.
  pose proof (ws_write_grow (KW W8) (klen key) (kbytes key) s3 _ fl lim X3) as X4.
  destruct (ws_write (KW W8) (klen key) (kbytes key) s3) as [s4| |]; cbn [bind]; try exact Logic.I.
  destruct X4 as (name & X4). exists name. rewrite <- !app_assoc in X4. exact X4.
Qed.

(** end_write of a block that starts at [len c]. *)
Lemma end_write_any s c t rest fl lim : len t = 9 -> ws_at s (c ++ t ++ rest) fl lim ->
  exists s', end_write (len c) s = Done (true, s') /\ ws_at s' (c ++ take 1 t ++ enc W64 fl (len rest) ++ rest) fl lim.
Proof.
  intros Ht H. pose proof (ws_at_pos _ _ _ _ H) as Hp. pose proof (ws_at_size _ _ _ _ H) as Hs.
  assert (Hb : len (c ++ t ++ rest) < two64).
  { destruct H as (((H1 & H2 & H3 & H4 & H5 & H6) & _) & _). lia. }
  rewrite !len_app in *. unfold end_write. rewrite Hp.
  assert (E1 : sub64 (sub64 (len c + (len t + len rest)) (len c)) 9 = len rest).
  { unfold sub64, w64. rewrite Ht.
    replace (len c + (9 + len rest) + two64 - len c) with (9 + len rest + 1 * two64) by lia. rewrite N.mod_add by discriminate.
    rewrite (N.mod_small (9 + len rest)) by lia. replace (9 + len rest + two64 - 9) with (len rest + 1 * two64) by lia.
    rewrite N.mod_add by discriminate. apply N.mod_small. lia. }
  rewrite E1. rewrite add64_small by lia.
  destruct t as [|x t]; [discriminate Ht|]. change (take 1 (x :: t)) with [x].
  assert (Ht8 : len t = 8) by (rewrite len_cons in Ht; lia).
  assert (H' : ws_at s ((c ++ [x]) ++ t ++ rest) fl lim) by (rewrite <- app_assoc; exact H).
  destruct (ws_patch_any (len c + 1) (len rest) s (c ++ [x]) t rest fl lim H') as (s1 & s2 & s3 & P1 & P2 & P3 & P4).
  { rewrite len_app. reflexivity. } { exact Ht8. }
  rewrite P1. cbn [thrown bind]. rewrite P2. cbn [bind]. rewrite Hp in P3. rewrite P3. cbn [bind thrown].
  exists s3. split; [|rewrite <- app_assoc in P4; exact P4]. destruct (N.ltb_spec (len c) (len c + (len (x :: t) + len rest))); [reflexivity|lia].
Qed.

(** A block: begin, something that only appends, end. *)
Lemma block_grow {A} vt key (body : wstream -> res (A * wstream)) s c fl lim (ok : A -> bool) :
  ws_at s c fl lim -> (forall s1 c1, ws_at s1 c1 fl lim -> grown (body s1) c1 fl lim) ->
  grown (do r <- begin_write vt key s; let '(b, s1) := r in if negb b then Done (false, s1) else
         do r2 <- body s1; let '(b2, s2) := r2 in if ok b2 then end_write (ws_pos s) s2 else Done (false, s2)) c fl lim.
Proof.
  intros H K. pose proof (begin_write_grow vt key s c fl lim H) as X. rewrite (ws_at_pos _ _ _ _ H).
  destruct (begin_write vt key s) as [[b s1]| |]; cbn [bind]; try exact Logic.I. destruct X as (name & X).
  destruct b; cbn [negb]; [|eexists; exact X].
  pose proof (K s1 _ X) as Y. destruct (body s1) as [[b2 s2]| |]; cbn [bind]; try exact Logic.I. destruct Y as (new & Y).
  rewrite <- !app_assoc in Y. destruct (ok b2); [|eexists; exact Y].
  destruct (end_write_any s2 c (enc W8 fl vt ++ enc W64 fl maxint64) (enc W8 fl (klen key) ++ name ++ new) fl lim) as (s3 & E & Z).
  - rewrite len_app, !len_enc. reflexivity.
  - rewrite <- !app_assoc. exact Y.
  - rewrite E. eexists. exact Z.
Qed.

Lemma write_meta_grow p n ix s c fl lim : ws_at s c fl lim -> grown (write_meta p n ix s) c fl lim.
Proof.
  intros H. unfold write_meta. apply grown1_bind; [apply grown_write; exact H|]. intros s1 n1 H1.
  apply grown1_bind; [apply grown_write; exact H1|]. intros s2 n2 H2. destruct ix as [l|]; [|apply grown_done; exact H2].
  apply grown1_bind; [apply grown_write; exact H2|]. intros s3 n3 H3.
  apply grown1_bind; [apply grown_write; exact H3|]. intros s4 n4 H4. apply grown_done. exact H4.
Qed.
Lemma write_strings_grow l : forall v s c fl lim, ws_at s c fl lim -> grown (write_strings l v s) c fl lim.
Proof.
  induction l as [|x l IH]; intros v s c fl lim H; cbn [write_strings]; [apply grown_done; exact H|].
  apply grown1_bind; [apply grown_write; exact H|]. intros s1 n1 H1.
  apply grown1_bind; [destruct (0 <? len x); [apply grown_write|apply grown1_done]; exact H1|]. intros s2 n2 H2. apply IH. exact H2.
Qed.
Lemma write_items_grow h items ix s c fl lim : ws_at s c fl lim -> grown (write_items h items ix s) c fl lim.
Proof.
  intros H. destruct h as [| |k n]; cbn [write_items].
  all: apply grown_bind; [apply write_meta_grow; exact H|]; intros ok s1 n1 H1.
  all: destruct ok; cbn [negb]; [|apply grown_done; exact H1].
  all: match goal with |- context[if ?b then _ else _] => destruct b end; [|apply grown_done; exact H1].
  - destruct (pack_loop _ _ _) as [vec| |]; cbn [bind]; try exact Logic.I.
    apply grown1_bind; [apply grown_write; exact H1|]. intros s2 n2 H2. apply grown_done. exact H2.
  - apply grown_bind; [apply write_strings_grow; exact H1|]. intros v s2 n2 H2. apply grown_done. exact H2.
  - apply grown1_bind; [apply grown_write; exact H1|]. intros s2 n2 H2. apply grown_done. exact H2.
Qed.
Lemma write_array_grow vt h key items ix s c fl lim : ws_at s c fl lim -> grown (write_array vt h key items ix s) c fl lim.
Proof.
  intros H. pose proof (block_grow vt key (fun s1 => match items with Some l => write_items h l ix s1 | None => Done (true, s1) end) s c fl lim (fun b => b) H) as X.
  cbv beta in X. specialize (X ltac:(intros s1 c1 H1; destruct items; [apply write_items_grow|apply grown_done]; exact H1)).
  unfold write_array. cbv zeta.
  destruct (begin_write vt key s) as [[b s1]| |]; cbn [bind] in *; try exact Logic.I. destruct b; cbn [negb] in *; [|exact X].
  destruct (match items with Some l => write_items h l ix s1 | None => Done (true, s1) end) as [[b2 s2]| |]; cbn [bind] in *; try exact Logic.I.
  destruct b2; exact X.
Qed.
Lemma write_string_grow vt key data s c fl lim : ws_at s c fl lim -> grown (write_string vt key data s) c fl lim.
Proof.
  intros H. unfold write_string. cbv zeta. destruct data as [str|].
  - pose proof (block_grow vt key (fun s1 => do s2 <- ws_u64 (len str) s1; do s3 <- (if 0 <? len str then ws_write (KW W8) (len str) str s2 else Done s2); Done (true, s3)) s c fl lim (fun b => b) H) as X.
    cbv beta in X. specialize (X ltac:(intros s1 c1 H1; apply grown1_bind; [apply grown_write; exact H1|]; intros s2 n2 H2;
      apply grown1_bind; [destruct (0 <? len str); [apply grown_write|apply grown1_done]; exact H2|]; intros s3 n3 H3; apply grown_done; exact H3)).
    destruct (begin_write vt key s) as [[b s1]| |]; cbn [bind] in *; try exact Logic.I. destruct b; cbn [negb] in *; [|exact X].
    destruct (ws_u64 (len str) s1) as [s2| |]; cbn [bind] in *; try exact Logic.I.
    destruct (if 0 <? len str then ws_write (KW W8) (len str) str s2 else Done s2) as [s3| |]; cbn [bind] in *; try exact Logic.I.
    destruct (end_write (ws_pos s) s3) as [[b4 s4]| |]; cbn [bind] in *; try exact Logic.I. destruct b4; exact X.
  - pose proof (block_grow vt key (fun s1 => Done (true, s1)) s c fl lim (fun b => b) H) as X. cbn [bind] in X.
    specialize (X ltac:(intros s1 c1 H1; apply grown_done; exact H1)).
    destruct (begin_write vt key s) as [[b s1]| |]; cbn [bind] in *; try exact Logic.I. destruct b; exact X.
Qed.
Lemma write_pod_grow vt k n key data s c fl lim : ws_at s c fl lim -> grown (write_pod vt k n key data s) c fl lim.
Proof.
  intros H. unfold write_pod. cbv zeta. apply grown1_bind; [apply grown_write; exact H|]. intros s1 n1 H1.
  apply grown1_bind; [apply grown_write; exact H1|]. intros s2 n2 H2.
  apply grown1_bind; [destruct data; [destruct (0 <? _); [apply grown_write|apply grown1_done]|apply grown1_done]; exact H2|]. intros s3 n3 H3.
  apply grown1_bind; [apply grown_write; exact H3|]. intros s4 n4 H4. apply grown_done. exact H4.
Qed.
Lemma ew_write_grow t key v s c fl lim : ws_at s c fl lim -> grown (ew_write t key v s) c fl lim.
Proof.
  intros H. destruct v; cbn [ew_write]; try (apply write_array_grow; exact H).
  all: unfold write_single, write_bool; destruct (dshape t); [apply write_pod_grow|apply write_string_grow|apply write_pod_grow]; exact H.
Qed.
