(** * Facts about EntityWriter.v: the written bytes are those of Format.v. *)
From Verif Require Import Base Bytes BytesFacts Values Streams FileSpec StreamFacts StreamProps Types Format EntityWriter.
Open Scope N_scope.

Lemma klen_small key : len key < 256 -> klen key = len key.
Proof. intros H. unfold klen. apply N.mod_small. exact H. Qed.
Lemma kbytes_small key : len key < 256 -> kbytes key = key.
Proof. intros H. unfold kbytes. rewrite klen_small by exact H. apply take_all. lia. Qed.
Lemma num_enc w fl v : num w fl v = enc w fl v.
Proof. reflexivity. Qed.
Lemma len_num w fl v : len (num w fl v) = wbytes w.
Proof. apply len_enc. Qed.
Lemma num_W8 fl v : num W8 fl v = [n2b v].
Proof. rewrite num_enc. unfold enc. cbn [wbytes]. change (N.to_nat 1) with 1%nat. cbn [le]. destruct fl; reflexivity. Qed.

Lemma le1 v : le 1 v = [n2b v].
Proof. reflexivity. Qed.

(** chunks and images *)
Lemma chunks_ok n : forall size l, len l = N.of_nat n * size ->
  Forall (fun c => len c = size) (chunks n size l) /\ concat (chunks n size l) = l /\ length (chunks n size l) = n.
Proof.
  induction n as [|n IH]; intros size l H.
  - apply (len_0 l) in H. subst. cbn. auto.
  - destruct (IH size (drop size l)) as (A & B & C); [rewrite len_drop; lia|].
    cbn [chunks concat length]. split; [|split].
    + constructor; [rewrite len_take; lia|exact A].
    + rewrite B. apply take_drop.
    + rewrite C. reflexivity.
Qed.
Lemma elements_ok k n img : len img = n * ksize k ->
  Forall (fun x => scalar_kind x = k /\ scalar_ok x) (elements k n img) /\
  images (elements k n img) = img /\ len (elements k n img) = n.
Proof.
  intros H. unfold elements.
  destruct (chunks_ok (N.to_nat n) (ksize k) img) as (A & B & C); [lia|].
  split; [|split].
  - apply Forall_map. eapply Forall_impl; [|exact A]. intros c Hc.
    destruct (scalar_of_ok k c Hc) as (H1 & H2 & _). auto.
  - rewrite <- B at 2. unfold images. clear B C H.
    induction A as [|c cs Hc A IH]; [reflexivity|].
    cbn [map flat_map concat]. rewrite IH.
    destruct (scalar_of_ok k c Hc) as (_ & _ & ->). reflexivity.
  - unfold len. rewrite map_length, C. lia.
Qed.
Lemma element_bytes_wire k n fl img : len img = n * ksize k ->
  element_bytes k n fl img = wire k fl n img.
Proof.
  intros H. destruct (elements_ok k n img H) as (A & B & C).
  unfold element_bytes. rewrite <- (wire_stored fl k _ A), B, C. reflexivity.
Qed.
Lemma len_element_bytes k n fl img : len img = n * ksize k -> len (element_bytes k n fl img) = n * ksize k.
Proof. intros H. rewrite element_bytes_wire by exact H. rewrite len_wire; exact H. Qed.

(** ** Block header *)
Definition large_open (fl : bool) (vt : N) (key : list byte) : list byte :=
  [n2b vt] ++ num W64 fl maxint64 ++ [n2b (len key)] ++ key.
Lemma len_large_open fl vt key : len (large_open fl vt key) = 10 + len key.
Proof. unfold large_open. rewrite !len_app, len_num, !len_cons, len_nil. cbn [wbytes]. lia. Qed.

Lemma begin_write_at vt key s c fl lim :
  ws_at s c fl lim -> len key < 256 -> 2 * (len c + 10 + len key) <= lim ->
  exists s', begin_write vt key s = Done (true, s') /\ ws_at s' (c ++ large_open fl vt key) fl lim.
Proof.
  intros H Hk Hlim. pose proof (ws_at_pos _ _ _ _ H) as Hp. pose proof (ws_at_lim _ _ _ _ H) as Hl64.
  unfold begin_write. rewrite klen_small, kbytes_small by exact Hk.
  destruct (ws_u8_at vt s c fl lim H) as (s1 & E1 & H1); [lia|]. rewrite E1. cbn [bind].
  destruct (ws_u64_at maxint64 s1 _ fl lim H1) as (s2 & E2 & H2).
  { rewrite len_app, len_enc. cbn [wbytes]. lia. } rewrite E2. cbn [bind].
  destruct (ws_u8_at (len key) s2 _ fl lim H2) as (s3 & E3 & H3).
  { rewrite !len_app, !len_enc. cbn [wbytes]. lia. } rewrite E3. cbn [bind].
  destruct (ws_bytes_at key s3 _ fl lim H3) as (s4 & E4 & H4).
  { rewrite !len_app, !len_enc. cbn [wbytes]. lia. } rewrite E4. cbn [bind].
  exists s4. split.
  - rewrite (ws_at_pos _ _ _ _ H4), Hp. rewrite !len_app, !len_enc. cbn [wbytes].
    u64_simpl. f_equal. f_equal. apply N.eqb_eq. lia.
  - unfold large_open. rewrite <- !app_assoc in H4. rewrite <- !num_enc, !num_W8 in H4. exact H4.
Qed.

Lemma end_write_at fl vt key payload s c lim :
  ws_at s (c ++ large_open fl vt key ++ payload) fl lim ->
  2 * (len c + 10 + len key + len payload) <= lim -> len key < 256 ->
  exists s', end_write (len c) s = Done (true, s') /\ ws_at s' (c ++ large_block fl vt key payload) fl lim.
Proof.
  intros H Hlim Hk. pose proof (ws_at_pos _ _ _ _ H) as Hp. pose proof (ws_at_lim _ _ _ _ H) as Hl64.
  assert (Hlen : len (c ++ large_open fl vt key ++ payload) = len c + 10 + len key + len payload)
    by (rewrite !len_app, len_large_open; lia).
  unfold end_write. rewrite Hp, Hlen.
  u64_simpl.
  destruct (ws_patch_at (len c + 1) (len c + 10 + len key + len payload - len c - 9) s
     (c ++ [n2b vt]) (num W64 fl maxint64) ([n2b (len key)] ++ key ++ payload) fl lim)
    as (s1 & s2 & s3 & E1 & E2 & E3 & A).
  - unfold large_open in H. rewrite <- !app_assoc in *. exact H.
  - rewrite len_app, len_cons, len_nil. lia.
  - apply len_num.
  - rewrite !len_app, !len_cons, len_num, len_nil. cbn [wbytes]. lia.
  - rewrite E1. cbn [thrown bind]. rewrite E2. cbn [bind].
    assert (Hx : len ((c ++ [n2b vt]) ++ num W64 fl maxint64 ++ [n2b (len key)] ++ key ++ payload)
       = len c + 10 + len key + len payload).
    { rewrite !len_app, !len_cons, len_num, len_nil. cbn [wbytes]. lia. }
    rewrite Hx in E3. rewrite E3. cbn [thrown bind]. exists s3. split.
    + f_equal. f_equal. apply N.ltb_lt. lia.
    + unfold large_block. rewrite <- app_assoc in A. cbn [app] in *.
      rewrite num_enc. replace (1 + len key + len payload) with (len c + 10 + len key + len payload - len c - 9) by lia.
      exact A.
Qed.

Lemma len_large_block fl vt key payload : len (large_block fl vt key payload) = 10 + len key + len payload.
Proof. unfold large_block. rewrite !len_cons, len_app, len_num, len_cons, len_app. cbn [wbytes]. lia. Qed.
Lemma len_small_block vt key payload : len (small_block vt key payload) = 2 + len key + len payload.
Proof. unfold small_block. rewrite !len_cons, len_app. lia. Qed.

(** ** Single values *)
Lemma n2b_mod v : n2b (v mod 256) = n2b v.
Proof. unfold n2b. rewrite N.mod_mod by lia. reflexivity. Qed.
Lemma write_pod_at vt k n key data s c fl lim :
  ws_at s c fl lim -> len key + n * ksize k < 256 -> 0 < n ->
  (match data with Some img => len img = n * ksize k | None => True end) ->
  2 * (len c + 2 + len key + n * ksize k) <= lim ->
  exists s', write_pod vt k n key data s = Done (true, s') /\
    ws_at s' (c ++ small_block vt key (match data with Some img => element_bytes k n fl img | None => [] end)) fl lim.
Proof.
  intros H Hk Hn Hd Hlim. pose proof (ws_at_pos _ _ _ _ H) as Hp. pose proof (ws_at_lim _ _ _ _ H) as Hl64.
  unfold write_pod. rewrite klen_small, kbytes_small by lia.
  destruct (ws_u8_at vt s c fl lim H) as (s1 & E1 & H1); [lia|]. rewrite E1. cbn [bind].
  set (bs := _ + len key).
  assert (Hbs : bs = (match data with Some _ => n * ksize k | None => 0 end) + len key)
    by (unfold bs; destruct data; lia).
  destruct (ws_u8_at (bs mod 256) s1 _ fl lim H1) as (s2 & E2 & H2).
  { rewrite len_app, len_enc. cbn [wbytes]. lia. } rewrite E2. cbn [bind].
  rewrite <- app_assoc in H2. rewrite <- !num_enc, !num_W8 in H2. cbn [app] in H2.
  rewrite n2b_mod in H2.
  set (pay := match data with Some img => element_bytes k n fl img | None => [] end).
  assert (Hpay : len pay + len key = bs).
  { unfold pay. rewrite Hbs. destruct data; [rewrite len_element_bytes by exact Hd|]; reflexivity. }
  assert (HX : exists s3, (match data with
            | Some img => if 0 <? match data with Some _ => ksize k * n | None => 0 end then ws_write k n img s2 else Done s2
            | None => Done s2 end) = Done s3 /\ ws_at s3 (c ++ n2b vt :: n2b bs :: pay) fl lim).
  { destruct data as [img|]; unfold pay.
    - pose proof (ksize_pos k). destruct (N.ltb_spec 0 (ksize k * n)) as [_|X]; [|nia].
      destruct (ws_write_at k n img s2 _ fl lim H2 Hd) as (s3 & E3 & H3).
      { rewrite len_app, !len_cons, len_nil. lia. }
      exists s3. split; [exact E3|]. rewrite element_bytes_wire by exact Hd.
      rewrite <- app_assoc in H3. exact H3.
    - exists s2. split; [reflexivity|]. exact H2. }
  destruct HX as (s3 & E3 & H3). 
  replace (match data with Some img => if 0 <? match data with Some _ => ksize k * n | None => 0 end then ws_write k n img s2 else Done s2 | None => Done s2 end)
    with (@Done wstream s3) by (symmetry; exact E3). cbn [bind].
  destruct (ws_bytes_at key s3 _ fl lim H3) as (s4 & E4 & H4).
  { rewrite len_app, !len_cons. destruct data; lia. }
  rewrite E4. cbn [bind]. exists s4. split.
  - rewrite (ws_at_pos _ _ _ _ H4), Hp. rewrite len_app, len_app, !len_cons.
    replace (match data with Some _ => ksize k * n | None => 0 end) with (match data with Some _ => n * ksize k | None => 0 end) by (destruct data; lia).
    destruct data; u64_simpl; f_equal; f_equal; apply N.eqb_eq; lia.
  - unfold small_block. rewrite Hpay. rewrite <- app_assoc in H4. exact H4.
Qed.

Lemma element_bytes_1 fl b : element_bytes (KW W8) 1 fl [b] = [b].
Proof.
  rewrite element_bytes_wire by reflexivity. cbn [wire]. rewrite swap_words_W8. destruct fl; reflexivity.
Qed.

Lemma write_string_at vt key data s c fl lim :
  ws_at s c fl lim -> len key < 256 ->
  2 * (len c + 10 + len key + match data with Some str => 8 + len str | None => 0 end) <= lim ->
  exists s', write_string vt key data s = Done (true, s') /\
    ws_at s' (c ++ large_block fl vt key (match data with Some str => string_bytes fl str | None => [] end)) fl lim.
Proof.
  intros H Hk Hlim. pose proof (ws_at_pos _ _ _ _ H) as Hp. pose proof (ws_at_lim _ _ _ _ H) as Hl64.
  unfold write_string. rewrite Hp.
  destruct (begin_write_at vt key s c fl lim H Hk) as (s1 & E1 & H1); [lia|].
  rewrite E1. cbn [bind negb].
  destruct data as [str|].
  - destruct (ws_u64_at (len str) s1 _ fl lim H1) as (s2 & E2 & H2).
    { rewrite len_app, len_large_open. lia. } rewrite E2. cbn [bind].
    assert (HX : exists s3, (if 0 <? len str then ws_write (KW W8) (len str) str s2 else Done s2) = Done s3 /\
        ws_at s3 (c ++ large_open fl vt key ++ string_bytes fl str) fl lim).
    { unfold string_bytes. destruct (N.ltb_spec 0 (len str)) as [Hpos|Hz].
      - destruct (ws_bytes_at str s2 _ fl lim H2) as (s3 & E3 & H3).
        { rewrite !len_app, len_large_open, len_enc. cbn [wbytes]. lia. }
        exists s3. split; [exact E3|]. rewrite <- !app_assoc in H3. exact H3.
      - exists s2. split; [reflexivity|]. assert (Hz' : len str = 0) by lia. apply len_0 in Hz'. subst str.
        rewrite app_nil_r. rewrite <- !app_assoc in H2. exact H2. }
    destruct HX as (s3 & E3 & H3). rewrite E3. cbn [bind].
    assert (Hls : len (string_bytes fl str) = 8 + len str)
      by (unfold string_bytes; rewrite len_app, len_num; reflexivity).
    destruct (end_write_at fl vt key (string_bytes fl str) s3 c lim H3) as (s4 & E4 & H4); [lia|exact Hk|].
    rewrite E4. cbn [bind negb]. exists s4. split; [|exact H4].
    rewrite (ws_at_pos _ _ _ _ H4), (ws_at_pos _ _ _ _ H1).
    rewrite !len_app, len_large_open, len_large_block, Hls.
    u64_simpl. f_equal. f_equal. apply N.eqb_eq. lia.
  - rewrite <- (app_nil_r (large_open fl vt key)) in H1.
    destruct (end_write_at fl vt key [] s1 c lim H1) as (s4 & E4 & H4); [rewrite len_nil; lia|exact Hk|].
    exists s4. split; [exact E4|exact H4].
Qed.

(** ** Arrays *)
Lemma images_ints w l : flat_map (le (N.to_nat (wbytes w))) l = images (map (SInt w) l).
Proof. unfold images. induction l as [|x l IH]; [reflexivity|]. cbn [flat_map map image]. rewrite IH. reflexivity. Qed.

Lemma wire_ints fl l : ix_ok l ->
  wire (KW W32) fl (len l) (flat_map (le 4) l) = flat_map (num W32 fl) l.
Proof.
  intros H. change (flat_map (le 4) l) with (flat_map (le (N.to_nat (wbytes W32))) l).
  rewrite images_ints. rewrite <- (len_map (SInt W32) l). rewrite wire_stored.
  - unfold num. clear H. induction l as [|x l IH]; [reflexivity|]. cbn [map flat_map]. rewrite IH. reflexivity.
  - apply Forall_map. eapply Forall_impl; [|exact H]. intros a Ha. cbn. split; [reflexivity|exact Ha].
Qed.
Lemma len_flat_le4 l : len (flat_map (le 4) l) = len l * 4.
Proof.
  induction l as [|x l IH]; [reflexivity|]. cbn [flat_map]. rewrite len_app, IH, len_le, len_cons. lia.
Qed.
Lemma len_flat_num w fl l : len (flat_map (num w fl) l) = len l * wbytes w.
Proof.
  induction l as [|x l IH]; [reflexivity|]. cbn [flat_map]. rewrite len_app, IH, len_num, len_cons. lia.
Qed.

Definition meta_bytes (fl : bool) (per_item count : N) (ix : option (list N)) : list byte :=
  num W16 fl (per_item + match ix with Some _ => 256 | None => 0 end)
  ++ num W64 fl count
  ++ match ix with Some l => num W64 fl (len l) ++ flat_map (num W32 fl) l | None => [] end.
Definition meta_len (ix : option (list N)) : N :=
  10 + match ix with Some l => 8 + len l * 4 | None => 0 end.
Lemma len_meta_bytes fl p n ix : len (meta_bytes fl p n ix) = meta_len ix.
Proof.
  unfold meta_bytes, meta_len. rewrite !len_app, !len_num. destruct ix; cbn [wbytes];
    rewrite ?len_app, ?len_num, ?len_flat_num, ?len_nil; cbn [wbytes]; lia.
Qed.

Lemma lor_flags b p : p < 256 -> N.lor (if b : bool then 0x100 else 0) p = p + (if b then 256 else 0).
Proof.
  intros Hp. destruct b; [|rewrite N.lor_0_l; lia].
  change 0x100 with (N.shiftl 1 8). rewrite N.lor_comm.
  rewrite <- N.lxor_lor.
  - rewrite <- N.add_nocarry_lxor; [reflexivity|].
    apply N.bits_inj. intros i. rewrite N.land_spec, N.bits_0.
    destruct (N.ltb_spec i 8).
    + rewrite N.shiftl_spec_low by lia. apply andb_false_r.
    + rewrite N.bits_above_log2; [reflexivity|].
      destruct (N.eq_dec p 0) as [->|Hz]; [cbn; lia|].
      apply N.log2_lt_pow2; [lia|]. eapply N.lt_le_trans; [exact Hp|]. change 256 with (2^8).
      apply N.pow_le_mono_r; lia.
  - apply N.bits_inj. intros i. rewrite N.land_spec, N.bits_0.
    destruct (N.ltb_spec i 8).
    + rewrite N.shiftl_spec_low by lia. apply andb_false_r.
    + rewrite N.bits_above_log2; [reflexivity|].
      destruct (N.eq_dec p 0) as [->|Hz]; [cbn; lia|].
      apply N.log2_lt_pow2; [lia|]. eapply N.lt_le_trans; [exact Hp|]. change 256 with (2^8).
      apply N.pow_le_mono_r; lia.
Qed.

Lemma write_meta_at p n ix s c fl lim :
  ws_at s c fl lim -> p < 256 -> (match ix with Some l => ix_ok l | None => True end) ->
  2 * (len c + meta_len ix) <= lim ->
  exists s', write_meta p n ix s = Done (true, s') /\ ws_at s' (c ++ meta_bytes fl p n ix) fl lim.
Proof.
  intros H Hp Hix Hlim. pose proof (ws_at_pos _ _ _ _ H) as Hpos. pose proof (ws_at_lim _ _ _ _ H) as Hl64.
  unfold write_meta, meta_bytes, meta_len in *.
  replace (N.lor (match ix with Some _ => 0x100 | None => 0 end) p) with (p + match ix with Some _ => 256 | None => 0 end).
  2:{ pose proof (lor_flags (match ix with Some _ => true | None => false end) p Hp) as Q. destruct ix; symmetry; exact Q. }
  destruct (ws_u16_at (p + match ix with Some _ => 256 | None => 0 end) s c fl lim H) as (s1 & E1 & H1).
  { destruct ix; lia. } rewrite E1. cbn [bind].
  destruct (ws_u64_at n s1 _ fl lim H1) as (s2 & E2 & H2).
  { rewrite len_app, len_enc. cbn [wbytes]. destruct ix; lia. } rewrite E2. cbn [bind].
  destruct ix as [l|].
  - destruct (ws_u64_at (len l) s2 _ fl lim H2) as (s3 & E3 & H3).
    { rewrite !len_app, !len_enc. cbn [wbytes]. lia. } rewrite E3. cbn [bind].
    destruct (ws_write_at (KW W32) (len l) (flat_map (le 4) l) s3 _ fl lim H3) as (s4 & E4 & H4).
    { rewrite len_flat_le4. reflexivity. }
    { rewrite !len_app, !len_enc, len_flat_le4. cbn [wbytes]. lia. }
    rewrite E4. cbn [bind]. exists s4. split.
    + rewrite (ws_at_pos _ _ _ _ H4), Hpos. rewrite wire_ints by exact Hix.
      rewrite !len_app, !len_enc, len_flat_num. cbn [wbytes].
      u64_simpl. f_equal. f_equal. apply N.eqb_eq. lia.
    + rewrite wire_ints in H4 by exact Hix. rewrite <- !app_assoc in H4. exact H4.
  - exists s2. split.
    + rewrite (ws_at_pos _ _ _ _ H2), Hpos. rewrite !len_app, !len_enc. cbn [wbytes].
      u64_simpl. f_equal. f_equal. apply N.eqb_eq. lia.
    + rewrite app_nil_r. rewrite <- !app_assoc in H2. exact H2.
Qed.
