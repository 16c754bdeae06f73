(** * Facts about Streams.v (proofs only). *)
From Verif Require Import Base Bytes BytesFacts Values Streams FileSpec.
Open Scope N_scope.

(** ** Write stream *)

(** Representation invariant. *)
Definition ws_ok (s : wstream) : Prop :=
  len (ws_mem s) = ws_res s /\ ws_size s <= ws_res s /\ ws_pos s <= ws_size s /\
  drop (ws_size s) (ws_mem s) = rep x00 (ws_res s - ws_size s) /\
  ws_res s <= ws_lim s /\ ws_lim s < two64.

(** [s] represents file [f]. *)
Definition ws_abs (s : wstream) (f : file) : Prop :=
  ws_ok s /\ ws_data s = f_bytes f /\ ws_pos s = f_pos f.

Lemma ws_ok_data_len s : ws_ok s -> len (ws_data s) = ws_size s.
Proof. intros (H1 & H2 & _). unfold ws_data. rewrite len_take. lia. Qed.

Lemma ws_abs_size s f : ws_abs s f -> ws_size s = len (f_bytes f).
Proof. intros (H & E & _). rewrite <- E. symmetry. apply ws_ok_data_len. exact H. Qed.

Lemma ws_mem_split s : ws_ok s -> ws_mem s = ws_data s ++ rep x00 (ws_res s - ws_size s).
Proof.
  intros (H1 & H2 & H3 & H4 & H5 & H6). unfold ws_data. rewrite <- H4.
  symmetry. apply take_drop.
Qed.

(** Growing to [n]: succeeds when twice the size fits the limit. *)
Lemma ws_resize_ok n s :
  ws_ok s -> ws_size s <= n -> 2 * n <= ws_lim s ->
  exists s', ws_resize n s = (true, s') /\
    ws_ok s' /\ ws_data s' = ws_data s ++ rep x00 (n - ws_size s) /\
    ws_size s' = n /\ ws_pos s' = ws_pos s /\ ws_flip s' = ws_flip s /\ ws_lim s' = ws_lim s /\
    n <= len (ws_mem s').
Proof.
  intros Hok Hn Hlim. pose proof Hok as (H1 & H2 & H3 & H4 & H5 & H6).
  unfold ws_resize.
  destruct (N.ltb_spec (ws_res s) n) as [Hlt|Hge].
  - unfold ws_reserve.
    assert (Hd : mul64 (ws_res s) 2 = ws_res s * 2) by (apply mul64_small; lia).
    rewrite Hd. set (d := if ws_res s * 2 <? n then n else ws_res s * 2).
    assert (Hdb : n <= d <= 2 * n) by (unfold d; destruct (N.ltb_spec (ws_res s * 2) n); lia).
    replace ((0 <? d) && (d <=? ws_lim s)) with true by (symmetry; apply andb_true_iff; split; lia).
    cbn [ws_mem ws_size ws_pos ws_res ws_flip ws_lim].
    assert (Ht : len (take (ws_size s) (ws_mem s)) = ws_size s) by (rewrite len_take; lia).
    rewrite Ht.
    eexists; split; [reflexivity|].
    unfold ws_ok, ws_data. cbn [ws_mem ws_size ws_pos ws_res ws_flip ws_lim].
    rewrite len_app, Ht, len_rep.
    repeat split; try lia.
    + rewrite drop_app_ge by lia. rewrite Ht, drop_rep. f_equal. lia.
    + rewrite take_app_ge by lia. rewrite Ht, take_rep. f_equal. f_equal. lia.
  - eexists; split; [reflexivity|].
    unfold ws_ok, ws_data. cbn [ws_mem ws_size ws_pos ws_res ws_flip ws_lim].
    rewrite (ws_mem_split s Hok).
    assert (Hl : len (ws_data s) = ws_size s) by (apply ws_ok_data_len; exact Hok).
    unfold ws_data in *.
    repeat split; try lia.
    + rewrite len_app, len_rep. lia.
    + rewrite drop_app_ge by lia. rewrite Hl, drop_rep. f_equal. lia.
    + rewrite take_app_ge by lia. rewrite Hl, take_rep.
      rewrite take_app_exact by lia. f_equal. f_equal. lia.
    + rewrite len_app, len_rep. lia.
Qed.

Lemma ws_raw_ok src s f :
  ws_abs s f -> 2 * N.max (ws_size s) (ws_pos s + len src) <= ws_lim s ->
  exists s', ws_raw src s = Done (true, s') /\ ws_abs s' (f_put src f) /\
             ws_flip s' = ws_flip s /\ ws_lim s' = ws_lim s /\
             ws_size s' = N.max (ws_size s) (ws_pos s + len src).
Proof.
  intros (Hok & Hd & Hp) Hlim. pose proof Hok as (H1 & H2 & H3 & H4 & H5 & H6).
  pose proof (ws_ok_data_len s Hok) as Hl.
  unfold ws_raw. rewrite add64_small by lia.
  assert (HX : exists s1, (if ws_size s <? ws_pos s + len src then ws_resize (ws_pos s + len src) s else (true, s))
             = (true, s1) /\ ws_ok s1 /\
             ws_data s1 = ws_data s ++ rep x00 (ws_pos s + len src - ws_size s) /\
             ws_size s1 = N.max (ws_size s) (ws_pos s + len src) /\
             ws_pos s1 = ws_pos s /\ ws_flip s1 = ws_flip s /\ ws_lim s1 = ws_lim s).
  { destruct (N.ltb_spec (ws_size s) (ws_pos s + len src)).
    - destruct (ws_resize_ok (ws_pos s + len src) s) as (s1 & E & A1 & A2 & A3 & A4 & A5 & A6 & A7);
        try assumption; try lia.
      exists s1. rewrite A3. repeat split; try assumption; try lia; apply A1.
    - exists s. replace (ws_pos s + len src - ws_size s) with 0 by lia.
      rewrite rep_0, app_nil_r. repeat split; try assumption; lia. }
  destruct HX as (s1 & -> & Hok1 & Hd1 & Hs1 & Hp1 & Hf1 & Hlim1).
  pose proof Hok1 as (G1 & G2 & G3 & G4 & G5 & G6).
  destruct (N.leb_spec (ws_pos s1 + len src) (len (ws_mem s1))) as [Hle|Hgt]; [|lia].
  eexists; split; [reflexivity|].
  assert (Hmem : ws_mem s1 = ws_data s ++ rep x00 (ws_res s1 - ws_size s)).
  { rewrite (ws_mem_split s1 Hok1), Hd1, <- app_assoc, rep_app. f_equal. f_equal. lia. }
  unfold ws_abs, ws_ok. cbn [ws_mem ws_size ws_pos ws_res ws_flip ws_lim].
  split; [|split; [exact Hf1|split; [exact Hlim1|exact Hs1]]].
  split; [|split].
  - split; [rewrite !len_app, len_take, len_drop; lia|].
    split; [lia|]. split; [lia|]. split; [|split; [lia|lia]].
    rewrite app_assoc. rewrite drop_app_ge by (rewrite len_app, len_take; lia).
    rewrite drop_drop. rewrite <- G4. f_equal.
    rewrite len_app, len_take. lia.
  - unfold ws_data, f_put. cbn [ws_mem ws_size f_bytes]. rewrite <- Hd, <- Hp.
    rewrite Hmem, Hp1, Hs1.
    rewrite (take_app_le _ _ (ws_pos s)) by lia.
    rewrite app_assoc, take_app_ge by (rewrite len_app, len_take; lia).
    rewrite <- app_assoc. f_equal. f_equal.
    rewrite len_app, len_take, Hl.
    replace (N.min (ws_pos s) (ws_size s)) with (ws_pos s) by lia.
    destruct (N.le_gt_cases (ws_pos s + len src) (ws_size s)) as [C|C].
    + rewrite drop_app_le by lia. rewrite take_app_exact; [reflexivity|]. rewrite len_drop. lia.
    + rewrite drop_app_ge by lia. rewrite (drop_all (ws_data s)) by lia.
      replace (N.max (ws_size s) (ws_pos s + len src) - (ws_pos s + len src)) with 0 by lia.
      reflexivity.
  - unfold f_put. cbn [f_pos]. lia.
Qed.

(** What one Write call stores. *)
Definition wire (k : kind) (flip : bool) (count : N) (img : list byte) : list byte :=
  match k with
  | KW w => if flip then swap_words w (N.to_nat count) img else img
  | KUuid =>
    (fix go (c : nat) (l : list byte) : list byte :=
       match c with O => l | S c' => uuid_to_wire (take 16 l) ++ go c' (drop 16 l) end)
      (N.to_nat count) img
  | KHash => img
  end.

Definition uuid_wire : nat -> list byte -> list byte :=
  fix go (c : nat) (l : list byte) : list byte :=
    match c with O => l | S c' => uuid_to_wire (take 16 l) ++ go c' (drop 16 l) end.

Lemma len_uuid_wire c l : N.of_nat c * 16 <= len l -> len (uuid_wire c l) = len l.
Proof.
  revert l; induction c as [|c IH]; intros l H; [reflexivity|].
  cbn [uuid_wire]. rewrite len_app, IH by (rewrite len_drop; lia).
  assert (Hl : len (take 16 l) = 16) by (rewrite len_take; lia).
  replace (len (uuid_to_wire (take 16 l))) with 16.
  2:{ symmetry. apply len_length. rewrite len_uuid_to_wire; [reflexivity|].
      apply len_length in Hl. exact Hl. }
  rewrite len_drop. lia.
Qed.

Lemma ksize_pos k : 0 < ksize k. Proof. destruct k as [[]| |]; cbn; lia. Qed.

Lemma len_wire k fl count img : len img = count * ksize k -> len (wire k fl count img) = len img.
Proof.
  intros H. destruct k as [w| |]; cbn [wire ksize] in *.
  - destruct fl; [|reflexivity]. apply len_swap_words. lia.
  - change ((fix go (c : nat) (l : list byte) : list byte := _) (N.to_nat count) img)
      with (uuid_wire (N.to_nat count) img).
    apply len_uuid_wire. lia.
  - reflexivity.
Qed.

Lemma ws_words_ok w count src s f :
  ws_abs s f -> len src = count * wbytes w ->
  2 * N.max (ws_size s) (ws_pos s + len src) <= ws_lim s ->
  exists s', thrown_res (ws_words w count src s) = Done s' /\
             ws_abs s' (f_put (wire (KW w) (ws_flip s) count src) f) /\
             ws_flip s' = ws_flip s /\ ws_lim s' = ws_lim s /\
             ws_size s' = N.max (ws_size s) (ws_pos s + len src).
Proof.
  intros Habs Hlen Hlim. pose proof Habs as (Hok & Hd & Hp).
  pose proof Hok as (H1 & H2 & H3 & H4 & H5 & H6).
  assert (Hn : (match w with W8 => count | _ => mul64 count (wbytes w) end) = len src).
  { destruct w; cbn [wbytes] in *; rewrite ?mul64_small by lia; lia. }
  destruct (ws_raw_ok src s f Habs Hlim) as (s1 & E & Habs1 & Hf & Hlm & Hsz).
  unfold ws_words. rewrite Hn. rewrite N.ltb_irrefl. rewrite take_all by lia.
  rewrite E. cbn [bind]. cbn [wire].
  destruct (ws_flip s) eqn:Efl.
  2:{ exists s1. destruct w; cbn [andb thrown_res bind thrown]; repeat split; try assumption;
      apply Habs1. }
  destruct w.
  { exists s1. cbn [thrown_res bind thrown]. rewrite swap_words_W8.
    repeat split; try assumption; apply Habs1. }
  all: cbn [andb]; rewrite <- Hlen.
  all: pose proof Habs1 as (Hok1 & Hd1 & Hp1); pose proof Hok1 as (G1 & G2 & G3 & G4 & G5 & G6).
  all: destruct (N.leb_spec (ws_pos s + len src) (len (ws_mem s1))) as [Hle|Hgt]; [|lia].
  all: eexists; split; [reflexivity|]; cbn [ws_flip ws_lim ws_size].
  all: match goal with |- context[swap_words ?w _ (drop _ _)] => set (W := w) in * end.
  all: assert (Hlw : len (swap_words W (N.to_nat count) src) = len src)
         by (apply len_swap_words; lia).
  all: assert (Hdata1 : ws_data s1 = take (ws_pos s) (ws_data s) ++ src ++ drop (ws_pos s + len src) (ws_data s))
         by (rewrite Hd1; unfold f_put; cbn [f_bytes]; rewrite Hd, Hp; reflexivity).
  all: pose proof (ws_ok_data_len s Hok) as Hl.
  all: assert (Htl : len (take (ws_pos s) (ws_data s)) = ws_pos s) by (rewrite len_take; lia).
  all: assert (Hnew : take (ws_pos s) (ws_mem s1) ++ swap_words W (N.to_nat count) (drop (ws_pos s) (ws_mem s1))
         = (take (ws_pos s) (ws_data s) ++ swap_words W (N.to_nat count) src ++ drop (ws_pos s + len src) (ws_data s))
           ++ rep x00 (ws_res s1 - ws_size s1)).
  all: try (rewrite (ws_mem_split s1 Hok1), Hdata1, <- !app_assoc;
    rewrite take_app_exact by lia; rewrite drop_app_exact by lia;
    rewrite swap_words_app by lia; reflexivity).
  all: assert (Hlnew : len (take (ws_pos s) (ws_data s) ++ swap_words W (N.to_nat count) src ++ drop (ws_pos s + len src) (ws_data s)) = ws_size s1)
    by (rewrite !len_app, Htl, Hlw, len_drop; lia).
  all: unfold ws_abs, ws_ok, ws_data; cbn [ws_mem ws_size ws_pos ws_res ws_flip ws_lim].
  all: rewrite Hnew.
  all: repeat split; try assumption; try lia.
  all: try (rewrite len_app, len_rep; lia).
  all: try (rewrite drop_app_exact by lia; reflexivity).
  all: try (rewrite take_app_exact by lia; unfold f_put; cbn [f_bytes]; rewrite <- Hd, <- Hp, Hlw; reflexivity).
  all: rewrite Hp1; unfold f_put; cbn [f_pos]; lia.
Qed.

Lemma f_put_app a b f : f_pos f <= len (f_bytes f) -> f_put b (f_put a f) = f_put (a ++ b) f.
Proof.
  intros H. unfold f_put. cbn [f_bytes f_pos]. f_equal.
  2: rewrite len_app; lia.
  assert (Ht : len (take (f_pos f) (f_bytes f)) = f_pos f) by (rewrite len_take; lia).
  set (P := take (f_pos f) (f_bytes f)) in *.
  set (D := drop (f_pos f + len a) (f_bytes f)).
  replace (P ++ a ++ D) with ((P ++ a) ++ D) by (symmetry; apply app_assoc).
  rewrite take_app_exact by (rewrite len_app, Ht; reflexivity).
  rewrite drop_app_ge by (rewrite len_app; lia).
  rewrite <- !app_assoc. f_equal. f_equal. f_equal.
  unfold D. rewrite drop_drop. f_equal. rewrite !len_app, Ht. lia.
Qed.
Lemma f_put_nil f : f_pos f <= len (f_bytes f) -> f_put [] f = f.
Proof.
  intros H. unfold f_put. cbn [app]. rewrite len_nil, N.add_0_r, take_drop.
  destruct f; reflexivity.
Qed.
Lemma ws_abs_pos s f : ws_abs s f -> f_pos f <= len (f_bytes f).
Proof.
  intros H. rewrite <- (ws_abs_size s f H). destruct H as (Hok & _ & <-). apply Hok.
Qed.

Lemma ws_uuids_ok c src s f :
  ws_abs s f -> len src = N.of_nat c * 16 ->
  2 * N.max (ws_size s) (ws_pos s + len src) <= ws_lim s ->
  exists s', ws_uuids c src s = Done s' /\
             ws_abs s' (f_put (uuid_wire c src) f) /\
             ws_flip s' = ws_flip s /\ ws_lim s' = ws_lim s /\
             ws_size s' = N.max (ws_size s) (ws_pos s + len src).
Proof.
  revert src s f; induction c as [|c IH]; intros src s f Habs Hlen Hlim.
  - apply (len_0 src) in Hlen. subst src. exists s. cbn [ws_uuids uuid_wire].
    rewrite f_put_nil by (eapply ws_abs_pos; exact Habs).
    rewrite len_nil. pose proof Habs as ((_ & _ & H3 & _) & _).
    repeat split; try apply Habs. lia.
  - cbn [ws_uuids uuid_wire].
    destruct (N.ltb_spec (len src) 16) as [Hx|_]; [lia|].
    assert (Hl : len (take 16 src) = 16) by (rewrite len_take; lia).
    assert (Hlu : len (uuid_to_wire (take 16 src)) = 16).
    { apply len_length. rewrite len_uuid_to_wire; [reflexivity|]. apply len_length in Hl. exact Hl. }
    destruct (ws_words_ok W8 16 (uuid_to_wire (take 16 src)) s f Habs) as (s1 & E & A1 & A2 & A3 & A4).
    + rewrite Hlu. reflexivity.
    + rewrite Hlu. lia.
    + rewrite E. cbn [bind]. rewrite Hlu in A4.
      assert (Hw : wire (KW W8) (ws_flip s) 16 (uuid_to_wire (take 16 src)) = uuid_to_wire (take 16 src)).
      { cbn [wire]. rewrite swap_words_W8. destruct (ws_flip s); reflexivity. }
      rewrite Hw in A1.
      assert (Hp1 : ws_pos s1 = ws_pos s + 16).
      { destruct A1 as (_ & _ & ->). unfold f_put; cbn [f_pos]. rewrite Hlu.
        destruct Habs as (_ & _ & ->). reflexivity. }
      destruct (IH (drop 16 src) s1 _ A1) as (s2 & E2 & B1 & B2 & B3 & B4).
      * rewrite len_drop. lia.
      * rewrite len_drop. lia.
      * exists s2. split; [exact E2|]. rewrite f_put_app in B1 by (eapply ws_abs_pos; exact Habs).
        rewrite len_drop in B4.
        repeat split; try apply B1; try congruence. lia.
Qed.

Lemma ws_write_ok k count src s f :
  ws_abs s f -> len src = count * ksize k ->
  2 * N.max (ws_size s) (ws_pos s + len src) <= ws_lim s ->
  exists s', ws_write k count src s = Done s' /\
             ws_abs s' (f_put (wire k (ws_flip s) count src) f) /\
             ws_flip s' = ws_flip s /\ ws_lim s' = ws_lim s /\
             ws_size s' = N.max (ws_size s) (ws_pos s + len src).
Proof.
  intros Habs Hlen Hlim. destruct k as [w| |]; cbn [ws_write ksize] in *.
  - apply ws_words_ok; assumption.
  - change (wire KUuid (ws_flip s) count src) with (uuid_wire (N.to_nat count) src).
    apply ws_uuids_ok; try assumption. lia.
  - pose proof Habs as ((G1 & G2 & G3 & G4 & G5 & G6) & _).
    rewrite mul64_small by lia.
    destruct (ws_words_ok W8 (32 * count) src s f Habs) as (s1 & E & A1 & A2 & A3 & A4).
    + cbn [wbytes]. lia.
    + exact Hlim.
    + exists s1. rewrite E. cbn [wire] in *. rewrite swap_words_W8 in A1.
      replace (if ws_flip s then src else src) with src in A1 by (destruct (ws_flip s); reflexivity).
      repeat split; try assumption; apply A1.
Qed.

Lemma ws_setpos_ok p s f :
  ws_abs s f -> 2 * N.max (ws_size s) p <= ws_lim s ->
  exists s', ws_setpos p s = (true, s') /\ ws_abs s' (f_seek p f) /\
             ws_flip s' = ws_flip s /\ ws_lim s' = ws_lim s /\
             ws_size s' = N.max (ws_size s) p.
Proof.
  intros Habs Hlim. pose proof Habs as (Hok & Hd & Hp). pose proof (ws_abs_size s f Habs) as Hsz.
  pose proof Hok as (H1 & H2 & H3 & H4 & H5 & H6).
  unfold ws_setpos, f_seek. rewrite <- Hsz, <- Hd.
  destruct (N.ltb_spec (ws_size s) p) as [Hlt|Hge].
  - destruct (ws_resize_ok p s Hok) as (s1 & E & A1 & A2 & A3 & A4 & A5 & A6 & A7); try lia.
    rewrite E. eexists; split; [reflexivity|].
    pose proof A1 as (G1 & G2 & G3 & G4 & G5 & G6).
    unfold ws_abs, ws_ok, ws_data in *. cbn [ws_mem ws_size ws_pos ws_res ws_flip ws_lim f_bytes f_pos].
    repeat split; try assumption; try lia.
  - eexists; split; [reflexivity|].
    unfold ws_abs, ws_ok, ws_data in *. cbn [ws_mem ws_size ws_pos ws_res ws_flip ws_lim f_bytes f_pos].
    replace (p - ws_size s) with 0 by lia. rewrite rep_0, app_nil_r.
    repeat split; try assumption; try lia.
Qed.

Lemma ws_setflip_ok b s f : ws_abs s f -> ws_abs (ws_setflip b s) f.
Proof. intros H. exact H. Qed.

Lemma ws_new_ok init lim :
  0 < init -> init <= lim -> lim < two64 ->
  exists s, ws_new init lim = (true, s) /\ ws_abs s (File [] 0) /\ ws_flip s = false /\
            ws_lim s = lim /\ ws_size s = 0.
Proof.
  intros H1 H2 H3. unfold ws_new, ws_reserve. cbn [ws_mem ws_size ws_pos ws_res ws_flip ws_lim].
  change (mul64 0 2) with 0. destruct (N.ltb_spec 0 init); [|lia].
  replace ((0 <? init) && (init <=? lim)) with true by lia.
  eexists; split; [reflexivity|].
  unfold ws_abs, ws_ok, ws_data. cbn [ws_mem ws_size ws_pos ws_res ws_flip ws_lim f_bytes f_pos].
  rewrite take_0, drop_0. cbn [app]. rewrite len_rep, len_nil.
  repeat split; try lia. 
Qed.

(** *** Append position: the common case for writers. *)
Definition ws_at (s : wstream) (c : list byte) (fl : bool) (lim : N) : Prop :=
  ws_abs s (File c (len c)) /\ ws_flip s = fl /\ ws_lim s = lim.

Lemma ws_at_size s c fl lim : ws_at s c fl lim -> ws_size s = len c.
Proof. intros (H & _). apply (ws_abs_size _ _ H). Qed.
Lemma ws_at_pos s c fl lim : ws_at s c fl lim -> ws_pos s = len c.
Proof. intros ((_ & _ & H) & _). exact H. Qed.
Lemma ws_at_data s c fl lim : ws_at s c fl lim -> ws_data s = c.
Proof. intros ((_ & H & _) & _). exact H. Qed.
Lemma ws_at_lim s c fl lim : ws_at s c fl lim -> lim < two64.
Proof. intros (((_ & _ & _ & _ & _ & H) & _) & _ & <-). exact H. Qed.

Lemma f_put_end c bs : f_put bs (File c (len c)) = File (c ++ bs) (len (c ++ bs)).
Proof.
  unfold f_put. cbn [f_bytes f_pos]. rewrite take_all, drop_all by lia.
  rewrite app_nil_r, len_app. reflexivity.
Qed.

Lemma ws_write_at k count src s c fl lim :
  ws_at s c fl lim -> len src = count * ksize k -> 2 * (len c + len src) <= lim ->
  exists s', ws_write k count src s = Done s' /\ ws_at s' (c ++ wire k fl count src) fl lim.
Proof.
  intros H Hl Hlim. pose proof (ws_at_size _ _ _ _ H) as Hs. pose proof (ws_at_pos _ _ _ _ H) as Hp.
  destruct H as (Habs & <- & <-).
  destruct (ws_write_ok k count src s _ Habs Hl) as (s' & E & A & B & C & D).
  - rewrite Hs, Hp. lia.
  - exists s'. split; [exact E|]. rewrite f_put_end in A. repeat split; try assumption; apply A.
Qed.

(** Encoding of a single unsigned integer. *)
Definition enc (w : wsize) (fl : bool) (v : N) : list byte :=
  let l := le (N.to_nat (wbytes w)) v in if fl then rev l else l.

Lemma len_enc w fl v : len (enc w fl v) = wbytes w.
Proof. unfold enc. destruct fl; rewrite ?len_rev, len_le; lia. Qed.

Lemma wire_single w fl v :
  wire (KW w) fl 1 (le (N.to_nat (wbytes w)) v) = enc w fl v.
Proof.
  unfold enc. cbn [wire]. destruct fl; [|reflexivity].
  change (N.to_nat 1) with 1%nat. cbn [swap_words].
  rewrite take_all by (rewrite len_le; lia). rewrite drop_all by (rewrite len_le; lia).
  rewrite app_nil_r. apply swap_word_rev. rewrite len_le. lia.
Qed.

Lemma ws_word_at w v s c fl lim :
  ws_at s c fl lim -> 2 * (len c + wbytes w) <= lim ->
  exists s', ws_write (KW w) 1 (le (N.to_nat (wbytes w)) v) s = Done s' /\
             ws_at s' (c ++ enc w fl v) fl lim.
Proof.
  intros H Hl. rewrite <- wire_single. apply ws_write_at; try assumption; rewrite len_le; cbn [ksize]; lia.
Qed.
Lemma ws_u8_at v s c fl lim :
  ws_at s c fl lim -> 2 * (len c + 1) <= lim ->
  exists s', ws_u8 v s = Done s' /\ ws_at s' (c ++ enc W8 fl v) fl lim.
Proof. apply (ws_word_at W8). Qed.
Lemma ws_u16_at v s c fl lim :
  ws_at s c fl lim -> 2 * (len c + 2) <= lim ->
  exists s', ws_u16 v s = Done s' /\ ws_at s' (c ++ enc W16 fl v) fl lim.
Proof. apply (ws_word_at W16). Qed.
Lemma ws_u64_at v s c fl lim :
  ws_at s c fl lim -> 2 * (len c + 8) <= lim ->
  exists s', ws_u64 v s = Done s' /\ ws_at s' (c ++ enc W64 fl v) fl lim.
Proof. apply (ws_word_at W64). Qed.
Lemma ws_bytes_at bs s c fl lim :
  ws_at s c fl lim -> 2 * (len c + len bs) <= lim ->
  exists s', ws_write (KW W8) (len bs) bs s = Done s' /\ ws_at s' (c ++ bs) fl lim.
Proof.
  intros H Hl.
  destruct (ws_write_at (KW W8) (len bs) bs s c fl lim H) as (s' & E & A); [cbn; lia|exact Hl|].
  exists s'. split; [exact E|]. cbn [wire] in A. rewrite swap_words_W8 in A.
  destruct fl; exact A.
Qed.

(** Patch an 8-byte field at [p] and return to the end. *)
Lemma ws_patch_at p v s a old b fl lim :
  ws_at s (a ++ old ++ b) fl lim -> len a = p -> len old = 8 ->
  2 * len (a ++ old ++ b) <= lim ->
  exists s1 s2 s3,
    ws_setpos p s = (true, s1) /\ ws_u64 v s1 = Done s2 /\
    ws_setpos (len (a ++ old ++ b)) s2 = (true, s3) /\
    ws_at s3 (a ++ enc W64 fl v ++ b) fl lim.
Proof.
  intros H Ha Hold Hlim. pose proof (ws_at_size _ _ _ _ H) as Hs.
  destruct H as (Habs & Hfl & Hlm).
  set (c := a ++ old ++ b) in *.
  assert (Hlc : len c = len a + 8 + len b) by (unfold c; rewrite !len_app; lia).
  destruct (ws_setpos_ok p s _ Habs) as (s1 & E1 & A1 & A2 & A3 & A4); [lia|].
  unfold f_seek in A1. cbn [f_bytes] in A1. replace (p - len c) with 0 in A1 by lia.
  rewrite rep_0, app_nil_r in A1.
  pose proof A1 as (_ & _ & Hp1). cbn [f_pos] in Hp1.
  destruct (ws_write_ok (KW W64) 1 (le 8 v) s1 _ A1) as (s2 & E2 & B1 & B2 & B3 & B4).
  { rewrite len_le. reflexivity. }
  { rewrite len_le. lia. }
  rewrite len_le in B4.
  change (le 8 v) with (le (N.to_nat (wbytes W64)) v) in B1 at 1.
  rewrite wire_single in B1.
  unfold f_put in B1. cbn [f_bytes f_pos] in B1. rewrite len_enc in B1.
  change (wbytes W64) with 8 in B1.
  assert (Hnew : take p c ++ enc W64 (ws_flip s1) v ++ drop (p + 8) c = a ++ enc W64 fl v ++ b).
  { unfold c. rewrite take_app_exact by lia.
    replace (a ++ old ++ b) with ((a ++ old) ++ b) by (symmetry; apply app_assoc).
    rewrite drop_app_exact by (rewrite len_app; lia). rewrite A2, Hfl. reflexivity. }
  rewrite Hnew in B1.
  destruct (ws_setpos_ok (len c) s2 _ B1) as (s3 & E3 & C1 & C2 & C3 & C4); [lia|].
  exists s1, s2, s3. split; [exact E1|]. split; [exact E2|]. split; [exact E3|].
  unfold f_seek in C1. cbn [f_bytes] in C1.
  assert (Hll : len (a ++ enc W64 fl v ++ b) = len c) by (rewrite !len_app, len_enc; cbn [wbytes]; lia).
  rewrite Hll, N.sub_diag, rep_0, app_nil_r in C1.
  split; [rewrite Hll; exact C1|]. split; congruence.
Qed.

(** ** Read stream *)

(** A stream positioned between [pre] and [post]. *)
Definition rs_at (pre post : list byte) (fl : bool) : rstream := RS (pre ++ post) (len pre) fl.

Lemma rs_at_size pre post fl : rs_size (rs_at pre post fl) = len pre + len post.
Proof. unfold rs_size, rs_at. cbn [rs_data]. apply len_app. Qed.
Lemma rs_at_pos pre post fl : rs_pos (rs_at pre post fl) = len pre.
Proof. reflexivity. Qed.
Lemma rs_at_shift pre bs post fl :
  RS (pre ++ bs ++ post) (len pre + len bs) fl = rs_at (pre ++ bs) post fl.
Proof. unfold rs_at. rewrite len_app, <- app_assoc. reflexivity. Qed.

Lemma rs_raw_ok bs pre post fl dest :
  len pre + len bs + len post < two64 -> len bs <= len dest ->
  rs_raw (len bs) dest (rs_at pre (bs ++ post) fl)
  = Done (len bs, bs ++ drop (len bs) dest, rs_at (pre ++ bs) post fl).
Proof.
  intros H Hd. unfold rs_raw. rewrite rs_at_size, rs_at_pos, len_app.
  rewrite add64_small by lia.
  destruct (N.ltb_spec (len pre + (len bs + len post)) (len pre + len bs)) as [X|_]; [lia|].
  replace ((len pre + len bs <=? len pre + (len bs + len post)) && (len bs <=? len dest)) with true by lia.
  cbn [rs_at rs_data rs_flip]. rewrite drop_len_app, take_len_app.
  do 2 f_equal. apply rs_at_shift.
Qed.

Lemma rs_words_ok w count img pre post fl dest :
  len img = count * wbytes w -> len dest = len img ->
  len pre + len img + len post < two64 ->
  rs_words w count dest (rs_at pre (wire (KW w) fl count img ++ post) fl)
  = Done (count, img, rs_at (pre ++ wire (KW w) fl count img) post fl).
Proof.
  intros Hl Hd Hsz.
  assert (Hw : len (wire (KW w) fl count img) = len img) by (apply len_wire; exact Hl).
  pose proof (rs_raw_ok (wire (KW w) fl count img) pre post fl dest) as HR.
  rewrite Hw in HR. specialize (HR Hsz). rewrite Hd in HR. specialize (HR (N.le_refl _)).
  rewrite (drop_all dest) in HR by lia. rewrite app_nil_r in HR.
  destruct w.
  - cbn [rs_words wbytes] in *. rewrite N.mul_1_r in Hl. rewrite Hl in *. rewrite HR.
    cbn [wire]. rewrite swap_words_W8. destruct fl; reflexivity.
  - cbn [rs_words]. rewrite mul64_small by lia. rewrite <- Hl, HR. cbn [bind].
    cbn [rs_at rs_flip]. rewrite Hl. rewrite N.div_mul by (cbn; lia).
    destruct fl; cbn [wire]; [|reflexivity].
    rewrite len_swap_words by lia. rewrite <- Hl, N.leb_refl. rewrite swap_words_invol by lia. reflexivity.
  - cbn [rs_words]. rewrite mul64_small by lia. rewrite <- Hl, HR. cbn [bind].
    cbn [rs_at rs_flip]. rewrite Hl. rewrite N.div_mul by (cbn; lia).
    destruct fl; cbn [wire]; [|reflexivity].
    rewrite len_swap_words by lia. rewrite <- Hl, N.leb_refl. rewrite swap_words_invol by lia. reflexivity.
  - cbn [rs_words]. rewrite mul64_small by lia. rewrite <- Hl, HR. cbn [bind].
    cbn [rs_at rs_flip]. rewrite Hl. rewrite N.div_mul by (cbn; lia).
    destruct fl; cbn [wire]; [|reflexivity].
    rewrite len_swap_words by lia. rewrite <- Hl, N.leb_refl. rewrite swap_words_invol by lia. reflexivity.
Qed.

Lemma rs_uuids_ok c : forall img i dest pre post fl,
  len img = N.of_nat c * 16 -> len dest = (i + N.of_nat c) * 16 ->
  len pre + len img + len post < two64 ->
  rs_uuids c i dest (rs_at pre (uuid_wire c img ++ post) fl)
  = Done (i + N.of_nat c, take (i * 16) dest ++ img, rs_at (pre ++ uuid_wire c img) post fl).
Proof.
  induction c as [|c IH]; intros img i dest pre post fl Hl Hd Hsz.
  - apply (len_0 img) in Hl. subst img. cbn [rs_uuids uuid_wire app].
    rewrite !app_nil_r. rewrite take_all by lia. do 3 f_equal. lia.
  - cbn [rs_uuids uuid_wire].
    assert (Ht : len (take 16 img) = 16) by (rewrite len_take; lia).
    assert (Ht' : length (take 16 img) = 16%nat) by (apply len_length in Ht; exact Ht).
    assert (Hu : len (uuid_to_wire (take 16 img)) = 16).
    { apply len_length. rewrite len_uuid_to_wire by exact Ht'. reflexivity. }
    rewrite <- app_assoc.
    set (U := uuid_to_wire (take 16 img)) in *.
    set (R := uuid_wire c (drop 16 img)) in *.
    assert (HlR : len R = len img - 16) by (unfold R; rewrite len_uuid_wire; rewrite len_drop; lia).
    assert (HR : rs_words W8 16 (rep x00 16) (rs_at pre (U ++ R ++ post) fl)
       = Done (16, U, rs_at (pre ++ U) (R ++ post) fl)).
    { pose proof (rs_raw_ok U pre (R ++ post) fl (rep x00 16)) as Q.
      rewrite Hu, len_app, len_rep in Q. cbn [rs_words].
      rewrite Q; [|lia|lia]. rewrite drop_rep, N.sub_diag, rep_0, app_nil_r. reflexivity. }
    rewrite HR. cbn [bind]. rewrite N.eqb_refl.
    destruct (N.leb_spec ((i + 1) * 16) (len dest)) as [_|X]; [|lia].
    unfold U at 1. rewrite uuid_from_to by exact Ht'.
    unfold R. rewrite IH.
    + f_equal. f_equal.
      * f_equal; [lia|].
        rewrite app_assoc. rewrite take_app_exact.
        -- rewrite <- app_assoc. rewrite take_drop. reflexivity.
        -- rewrite len_app, len_take, Ht. lia.
      * unfold rs_at. f_equal; rewrite <- ?app_assoc; reflexivity.
    + rewrite len_drop. lia.
    + rewrite !len_app, len_take, Ht, len_drop. lia.
    + rewrite len_app, Hu, len_drop. lia.
Qed.

Lemma rs_read_ok k count img pre post fl dest :
  len img = count * ksize k -> len dest = len img ->
  len pre + len img + len post < two64 ->
  rs_read k count dest (rs_at pre (wire k fl count img ++ post) fl)
  = Done (count, img, rs_at (pre ++ wire k fl count img) post fl).
Proof.
  intros Hl Hd Hsz. destruct k as [w| |]; cbn [rs_read ksize] in *.
  - apply rs_words_ok; assumption.
  - change (wire KUuid fl count img) with (uuid_wire (N.to_nat count) img).
    rewrite rs_uuids_ok; try lia. rewrite take_0. cbn [app]. do 3 f_equal. lia.
  - rewrite mul64_small by lia.
    pose proof (rs_words_ok W8 (32 * count) img pre post fl dest) as Q.
    cbn [wbytes] in Q. cbn [wire] in *. rewrite swap_words_W8 in Q.
    replace (if fl then img else img) with img in Q by (destruct fl; reflexivity).
    rewrite Q by lia. cbn [bind]. replace (32 * count) with (count * 32) by lia.
    rewrite N.div_mul by lia. reflexivity.
Qed.

Lemma rs_word_ok w v pre post fl :
  v < 256 ^ wbytes w -> len pre + wbytes w + len post < two64 ->
  rs_word w (rs_at pre (enc w fl v ++ post) fl) = Done (v, rs_at (pre ++ enc w fl v) post fl).
Proof.
  intros Hv Hsz. unfold rs_word, rs_read1. rewrite <- wire_single.
  rewrite rs_read_ok.
  - cbn [bind]. rewrite of_le_le_small; [reflexivity|]. rewrite Nnat.N2Nat.id. exact Hv.
  - rewrite len_le. cbn [ksize]. lia.
  - rewrite len_rep, len_le. cbn [ksize]. lia.
  - rewrite len_le. lia.
Qed.
Lemma rs_u8_ok v pre post fl :
  v < 256 -> len pre + 1 + len post < two64 ->
  rs_u8 (rs_at pre (enc W8 fl v ++ post) fl) = Done (v, rs_at (pre ++ enc W8 fl v) post fl).
Proof. apply (rs_word_ok W8). Qed.
Lemma rs_u16_ok v pre post fl :
  v < 65536 -> len pre + 2 + len post < two64 ->
  rs_u16 (rs_at pre (enc W16 fl v ++ post) fl) = Done (v, rs_at (pre ++ enc W16 fl v) post fl).
Proof. apply (rs_word_ok W16). Qed.
Lemma rs_u64_ok v pre post fl :
  v < two64 -> len pre + 8 + len post < two64 ->
  rs_u64 (rs_at pre (enc W64 fl v ++ post) fl) = Done (v, rs_at (pre ++ enc W64 fl v) post fl).
Proof. apply (rs_word_ok W64). Qed.
Lemma rs_bytes_ok bs dest pre post fl :
  len dest = len bs -> len pre + len bs + len post < two64 ->
  rs_read (KW W8) (len bs) dest (rs_at pre (bs ++ post) fl)
  = Done (len bs, bs, rs_at (pre ++ bs) post fl).
Proof.
  intros Hd Hsz. pose proof (rs_read_ok (KW W8) (len bs) bs pre post fl dest) as Q.
  cbn [wire ksize wbytes] in Q. rewrite swap_words_W8 in Q.
  replace (if fl then bs else bs) with bs in Q by (destruct fl; reflexivity).
  apply Q; lia.
Qed.
