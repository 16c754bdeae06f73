(** * The reader functions on the blocks of Format.v (round trip direction). *)
From Verif Require Import Base Bytes BytesFacts Values Streams FileSpec StreamFacts StreamProps Types Format
  EntityWriter EntityReader EntityWriterFacts PackFacts ArrayWriterFacts.
Open Scope N_scope.

Lemma len_junk e n : len (junk e n) = n.
Proof. unfold junk, len. rewrite map_length, seq_length. lia. Qed.

Lemma bytes_eqb_true a b : bytes_eqb a b = true <-> a = b.
Proof.
  unfold bytes_eqb. rewrite andb_true_iff, N.eqb_eq. split.
  - intros (Hl & Hf). revert b Hl Hf. induction a as [|x a IH]; intros [|y b] Hl Hf.
    + reflexivity.
    + rewrite len_cons, len_nil in Hl. lia.
    + rewrite len_cons, len_nil in Hl. lia.
    + cbn [combine forallb fst snd] in Hf. apply andb_true_iff in Hf. destruct Hf as (H1 & H2).
      rewrite !len_cons in Hl. rewrite (IH b); [|lia|exact H2].
      apply Byte.byte_dec_bl in H1. subst. reflexivity.
  - intros ->. split; [reflexivity|]. induction b as [|y b IH]; [reflexivity|].
    cbn [combine forallb fst snd]. rewrite IH, andb_true_r. apply Byte.byte_dec_lb. reflexivity.
Qed.

Lemma key_matches_self key buf : len key <= 40 -> len (key ++ buf) = 40 -> key_matches key (key ++ buf) = Done true.
Proof.
  intros Hk Hb. unfold key_matches. rewrite klen_small, kbytes_small by lia. rewrite Hb.
  destruct (N.ltb_spec 40 (len key)) as [X|_]; [lia|]. rewrite take_len_app. f_equal.
  apply bytes_eqb_true. reflexivity.
Qed.

Lemma rs_key_ok e key pre post fl : len key <= 40 -> len pre + len key + len post < two64 ->
  exists buf, rs_read (KW W8) (klen key) (junk e max_key) (rs_at pre (key ++ post) fl)
    = Done (len key, buf, rs_at (pre ++ key) post fl) /\ key_matches key buf = Done true.
Proof.
  intros Hk Hs. rewrite klen_small by lia.
  pose proof (rs_raw_ok key pre post fl (junk e max_key) Hs) as Q. rewrite len_junk in Q.
  specialize (Q Hk). eexists. split; [exact Q|]. apply key_matches_self; [exact Hk|].
  rewrite len_app, len_drop, len_junk. unfold max_key. lia.
Qed.

Lemma vt_single_lt t : vt_single t < 256.
Proof. destruct t as [|[]|[]|[]|[] []|[] []|[] []|[] []|[]| | | | |]; cbn; lia. Qed.
Lemma vt_array_lt t : vt_array t < 256.
Proof. destruct t as [|[]|[]|[]|[] []|[] []|[] []|[] []|[]| | | | |]; cbn; lia. Qed.

Lemma rs_u8n v pre post fl : v < 256 -> len pre + 1 + len post < two64 ->
  rs_u8 (rs_at pre (n2b v :: post) fl) = Done (v, rs_at (pre ++ [n2b v]) post fl).
Proof.
  intros Hv Hs. pose proof (rs_u8_ok v pre post fl Hv Hs) as Q.
  rewrite <- num_enc, num_W8 in Q. exact Q.
Qed.

Lemma rs_u16n v pre post fl : v < 65536 -> len pre + 2 + len post < two64 ->
  rs_u16 (rs_at pre (num W16 fl v ++ post) fl) = Done (v, rs_at (pre ++ num W16 fl v) post fl).
Proof. apply rs_u16_ok. Qed.
Lemma rs_u64n v pre post fl : v < two64 -> len pre + 8 + len post < two64 ->
  rs_u64 (rs_at pre (num W64 fl v ++ post) fl) = Done (v, rs_at (pre ++ num W64 fl v) post fl).
Proof. apply rs_u64_ok. Qed.

Definition large_head (fl : bool) (vt : N) (key : list byte) (n : N) : list byte :=
  [n2b vt] ++ num W64 fl (1 + len key + n) ++ [n2b (len key)] ++ key.
Lemma len_large_head fl vt key n : len (large_head fl vt key n) = 10 + len key.
Proof. unfold large_head. rewrite !len_app, len_num, !len_cons, len_nil. cbn [wbytes]. lia. Qed.
Lemma large_block_head fl vt key p : large_block fl vt key p = large_head fl vt key (len p) ++ p.
Proof. unfold large_block, large_head. rewrite <- !app_assoc. reflexivity. Qed.

Lemma begin_read_ok e vt key payload pre post fl :
  len key <= 40 -> vt < 256 -> len pre + len (large_block fl vt key payload) + len post < two64 ->
  begin_read e vt key (rs_at pre (large_block fl vt key payload ++ post) fl)
  = Done (len pre + len (large_block fl vt key payload),
          rs_at (pre ++ large_head fl vt key (len payload)) (payload ++ post) fl).
Proof.
  intros Hk Hvt Hs. unfold begin_read. rewrite len_large_block in *.
  rewrite large_block_head. unfold large_head. rewrite <- !app_assoc. cbn [app].
  rewrite rs_u8n; [|lia|rewrite len_app, len_num, !len_cons, !len_app; cbn [wbytes]; lia].
  cbn [bind]. rewrite N.eqb_refl. cbn [negb].
  rewrite rs_u64n; [|lia|rewrite !len_app, !len_cons, !len_app, len_nil; lia].
  cbn [bind]. rewrite rs_at_pos, rs_at_size. rewrite !len_app, !len_cons, !len_app, len_nil, len_num. cbn [wbytes].
  rewrite add64_small by lia.
  destruct (N.ltb_spec (len pre + (0 + 1) + 8 + (len key + (len payload + len post) + 1)) (len pre + (0 + 1) + 8 + (1 + len key + len payload))) as [X|_]; [lia|].
  rewrite rs_u8n; [|lia|rewrite !len_app, !len_cons, len_nil, len_num; cbn [wbytes]; lia].
  cbn [bind]. rewrite klen_small by lia. rewrite N.eqb_refl. cbn [negb].
  destruct (rs_key_ok e key (((pre ++ [n2b vt]) ++ num W64 fl (1 + len key + len payload)) ++ [n2b (len key)])
     (payload ++ post) fl Hk) as (buf & E & Hm).
  { rewrite !len_app, !len_cons, len_nil, len_num. cbn [wbytes]. lia. }
  rewrite klen_small in E by lia. rewrite E. cbn [bind]. rewrite Hm. cbn [bind].
  f_equal. f_equal; [lia|]. f_equal. rewrite <- !app_assoc. reflexivity.
Qed.

(** ** Single values *)
Lemma read_pod_ok e vt k n key empty_ok img dest pre post fl :
  len key <= 40 -> vt < 256 -> n * ksize k <= 128 -> 0 < n -> len img = n * ksize k -> len dest = n * ksize k ->
  len pre + len (small_block vt key (element_bytes k n fl img)) + len post < two64 ->
  read_pod e vt k n key empty_ok dest (rs_at pre (small_block vt key (element_bytes k n fl img) ++ post) fl)
  = Done (SOk, img, rs_at (pre ++ small_block vt key (element_bytes k n fl img)) post fl).
Proof.
  intros Hk Hvt Hn Hpos Hi Hd Hs. unfold read_pod. rewrite len_small_block in Hs.
  unfold small_block. rewrite len_element_bytes in * by exact Hi. cbn [app]. rewrite <- !app_assoc.
  rewrite rs_u8n; [|lia|rewrite !len_cons, !len_app, len_element_bytes by exact Hi; lia].
  cbn [bind]. rewrite N.eqb_refl. cbn [negb]. rewrite klen_small by lia.
  rewrite rs_u8n; [|lia|rewrite !len_app, len_element_bytes by exact Hi; rewrite len_cons, len_nil; lia].
  cbn [bind]. replace (n * ksize k + len key =? ksize k * n + len key) with true by lia.
  cbn [negb andb].
  rewrite element_bytes_wire by exact Hi.
  rewrite rs_read_ok; [|exact Hi|lia|rewrite !len_app, !len_cons, len_nil; lia].
  cbn [bind]. rewrite N.eqb_refl. cbn [negb].
  destruct (rs_key_ok e key (((pre ++ [n2b vt]) ++ [n2b (n * ksize k + len key)]) ++ wire k fl n img) post fl Hk) as (buf & E & Hm).
  { rewrite !len_app, len_wire, !len_cons, len_nil by exact Hi. lia. }
  rewrite klen_small in E by lia. rewrite E. cbn [bind]. rewrite N.eqb_refl. cbn [negb]. rewrite Hm. cbn [bind negb].
  rewrite !rs_at_pos. rewrite !len_app, len_wire, !len_cons, len_nil by exact Hi.
  u64_simpl.
  destruct (N.eqb_spec (len pre + (0 + 1) + (0 + 1) + len img + len key) (len pre + 2 + (ksize k * n + len key))) as [_|X]; [|lia].
  cbn [negb]. do 3 f_equal. rewrite <- !app_assoc. reflexivity.
Qed.

Lemma read_pod_none e vt k n key dest pre post fl :
  len key <= 40 -> vt < 256 -> n * ksize k <= 128 -> 0 < n ->
  len pre + len (small_block vt key []) + len post < two64 ->
  read_pod e vt k n key true dest (rs_at pre (small_block vt key [] ++ post) fl)
  = Done (SEmpty, dest, rs_at (pre ++ small_block vt key []) post fl).
Proof.
  intros Hk Hvt Hn Hpos Hs. unfold read_pod. rewrite len_small_block, len_nil in Hs.
  unfold small_block. rewrite len_nil. cbn [app].
  rewrite rs_u8n; [|lia|rewrite !len_cons, !len_app; lia].
  cbn [bind]. rewrite N.eqb_refl. cbn [negb]. rewrite klen_small by lia.
  rewrite rs_u8n; [|lia|rewrite !len_app, len_cons, len_nil; lia].
  cbn [bind]. pose proof (ksize_pos k).
  replace (0 + len key =? ksize k * n + len key) with false by (symmetry; apply N.eqb_neq; nia).
  cbn [negb andb]. rewrite N.eqb_refl. cbn [negb bind]. rewrite N.eqb_refl. cbn [negb].
  destruct (rs_key_ok e key ((pre ++ [n2b vt]) ++ [n2b (0 + len key)]) post fl Hk) as (buf & E & Hm).
  { rewrite !len_app, !len_cons, len_nil. lia. }
  rewrite klen_small in E by lia. rewrite E. cbn [bind]. rewrite N.eqb_refl. cbn [negb]. rewrite Hm. cbn [bind negb].
  rewrite !rs_at_pos. rewrite !len_app, !len_cons, len_nil.
  u64_simpl.
  destruct (N.eqb_spec (len pre + (0 + 1) + (0 + 1) + len key) (len pre + 2 + len key)) as [_|X]; [|lia].
  cbn [negb]. do 3 f_equal. rewrite <- !app_assoc. reflexivity.
Qed.

(** An absent value does not satisfy a reader that needs one. *)
Lemma read_pod_none_fail e vt k n key dest pre post fl :
  len key <= 40 -> vt < 256 -> n * ksize k <= 128 -> 0 < n ->
  len pre + len (small_block vt key []) + len post < two64 ->
  exists s', read_pod e vt k n key false dest (rs_at pre (small_block vt key [] ++ post) fl) = Done (SFail, dest, s').
Proof.
  intros Hk Hvt Hn Hpos Hs. unfold read_pod. rewrite len_small_block, len_nil in Hs.
  unfold small_block. rewrite len_nil. cbn [app].
  rewrite rs_u8n; [|lia|rewrite !len_cons, !len_app; lia].
  cbn [bind]. rewrite N.eqb_refl. cbn [negb]. rewrite klen_small by lia.
  rewrite rs_u8n; [|lia|rewrite !len_app, len_cons, len_nil; lia].
  cbn [bind]. pose proof (ksize_pos k).
  replace (0 + len key =? ksize k * n + len key) with false by (symmetry; apply N.eqb_neq; nia).
  cbn [negb andb]. eauto.
Qed.

Lemma read_bool_ok e vt key empty_ok b dest pre post fl :
  len key <= 40 -> vt < 256 ->
  let blk := small_block vt key [if b : bool then x01 else x00] in
  len pre + len blk + len post < two64 ->
  read_bool e vt key empty_ok dest (rs_at pre (blk ++ post) fl) = Done (SOk, b, rs_at (pre ++ blk) post fl).
Proof.
  intros Hk Hvt blk Hs. unfold read_bool.
  pose proof (read_pod_ok e vt (KW W8) 1 key empty_ok [if b then x01 else x00] (junk e 1) pre post fl Hk Hvt) as Q.
  rewrite element_bytes_1 in Q. fold blk in Q. rewrite Q.
  - cbn [bind]. destruct b; reflexivity.
  - cbn; lia.
  - lia.
  - reflexivity.
  - rewrite len_junk. reflexivity.
  - exact Hs.
Qed.

Lemma resize_ok {A} e size (fill : A) n l : n * size <= e_lim e ->
  exists l', resize e size fill n l = Done l' /\ len l' = n.
Proof.
  intros H. unfold resize. destruct (N.ltb_spec (e_lim e) (n * size)); [lia|].
  eexists. split; [reflexivity|]. rewrite len_app, len_take, len_rep. lia.
Qed.

Lemma read_string_ok e vt key empty_ok str dest pre post fl :
  len key <= 40 -> vt < 256 -> len str <= e_lim e ->
  let blk := large_block fl vt key (string_bytes fl str) in
  len pre + len blk + len post < two64 ->
  read_string e vt key empty_ok dest (rs_at pre (blk ++ post) fl) = Done (SOk, str, rs_at (pre ++ blk) post fl).
Proof.
  intros Hk Hvt Hlim blk Hs. unfold read_string. unfold blk.
  rewrite begin_read_ok; try assumption. cbn [bind]. unfold blk in Hs.
  rewrite len_large_block, len_string_bytes in *.
  destruct (N.eqb_spec (len pre + (10 + len key + (8 + len str))) 0) as [X|_]; [lia|].
  rewrite rs_at_pos, len_app, len_large_head.
  destruct (N.eqb_spec (len pre + (10 + len key)) (len pre + (10 + len key + (8 + len str)))) as [X|_]; [lia|].
  unfold string_bytes at 1. rewrite <- app_assoc.
  rewrite rs_u64n; [|lia|rewrite !len_app, len_large_head; lia].
  cbn [bind]. rewrite rs_at_pos, !len_app, len_large_head, len_num. cbn [wbytes].
  rewrite sub64_small by lia.
  destruct (N.ltb_spec (len pre + (10 + len key + (8 + len str)) - (len pre + (10 + len key) + 8)) (len str)) as [X|_]; [lia|].
  destruct (resize_ok e 1 x00 (len str) dest) as (d1 & Ed & Hd1); [lia|]. rewrite Ed. cbn [bind].
  assert (HX : (if 0 <? len str then rs_read (KW W8) (len str) d1
      (rs_at ((pre ++ large_head fl vt key (8 + len str)) ++ num W64 fl (len str)) (str ++ post) fl)
      else Done (len str, d1, rs_at ((pre ++ large_head fl vt key (8 + len str)) ++ num W64 fl (len str)) (str ++ post) fl))
     = Done (len str, str, rs_at (pre ++ large_block fl vt key (string_bytes fl str)) post fl)).
  { assert (Hassoc : ((pre ++ large_head fl vt key (8 + len str)) ++ num W64 fl (len str)) ++ str
       = pre ++ large_block fl vt key (string_bytes fl str)).
    { rewrite large_block_head, len_string_bytes. unfold string_bytes. rewrite <- !app_assoc. reflexivity. }
    destruct (N.ltb_spec 0 (len str)) as [Hp|Hz].
    - rewrite rs_bytes_ok; [|exact Hd1|rewrite !len_app, len_large_head, len_num; cbn [wbytes]; lia].
      rewrite Hassoc. reflexivity.
    - assert (Hz' : len str = 0) by lia. apply len_0 in Hz'. subst str. rewrite app_nil_r in Hassoc.
      rewrite Hassoc. apply len_0 in Hd1. subst d1. reflexivity. }
  rewrite HX. cbn [bind]. rewrite N.eqb_refl. cbn [negb].
  unfold end_read. rewrite rs_at_pos, len_app, len_large_block, len_string_bytes, N.eqb_refl. reflexivity.
Qed.

Lemma read_string_none e vt key dest pre post fl :
  len key <= 40 -> vt < 256 ->
  let blk := large_block fl vt key [] in
  len pre + len blk + len post < two64 -> forall empty_ok,
  read_string e vt key empty_ok dest (rs_at pre (blk ++ post) fl)
  = Done (if empty_ok then SEmpty else SFail, dest, rs_at (pre ++ blk) post fl).
Proof.
  intros Hk Hvt blk Hs empty_ok. unfold read_string. unfold blk.
  rewrite begin_read_ok; try assumption. cbn [bind]. unfold blk in Hs.
  rewrite large_block_head, app_nil_r in *.
  rewrite len_large_head in *.
  destruct (N.eqb_spec (len pre + (10 + len key)) 0) as [X|_]; [lia|].
  rewrite rs_at_pos, len_app, len_large_head. rewrite N.eqb_refl.
  unfold end_read_empty, end_read. rewrite rs_at_pos, len_app, len_large_head, N.eqb_refl. destruct empty_ok; reflexivity.
Qed.

(** ** Arrays *)
Lemma words32_flat l : ix_ok l -> words32 (length l) (flat_map (le 4) l) = l.
Proof.
  induction 1 as [|x l Hx H IH]; [reflexivity|].
  cbn [length words32 flat_map]. rewrite take_app_exact, drop_app_exact by (rewrite len_le; reflexivity).
  rewrite IH, of_le_le_small by exact Hx. reflexivity.
Qed.

Lemma land_low p b : p < 256 -> N.land (p + (if b : bool then 256 else 0)) 255 = p.
Proof.
  intros H. rewrite land_255. destruct b.
  - replace (p + 256) with (p + 1 * 256) by lia. rewrite N.mod_add by lia. apply N.mod_small. exact H.
  - rewrite N.add_0_r. apply N.mod_small. exact H.
Qed.
Lemma flag_bits p b : p < 256 ->
  negb (N.land (p + (if b : bool then 256 else 0)) 0x100 =? 0) = b /\
  negb (N.land (p + (if b : bool then 256 else 0)) 0x200 =? 0) = false.
Proof.
  intros H.
  assert (T : forall i, 8 <= i -> N.testbit p i = false).
  { intros i Hi. apply (testbit_high p 8); [exact H|exact Hi]. }
  change 0x100 with (N.shiftl 1 8). change 0x200 with (N.shiftl 1 9). rewrite !land_bit_test.
  rewrite <- lor_flags by exact H. rewrite !N.lor_spec, !T by lia. destruct b; split; reflexivity.
Qed.

Lemma read_meta_ok e c0 bend p n ix dix pre post fl :
  p < 256 -> n < two64 -> (match ix with Some l => ix_ok l /\ len l * 4 <= e_lim e | None => True end) ->
  (match ix, dix with Some _, Some _ | None, None => True | _, _ => False end) ->
  len pre + meta_len ix + len post < two64 -> len pre + meta_len ix <= bend -> bend < two64 ->
  read_meta e c0 bend dix (rs_at pre (meta_bytes fl p n ix ++ post) fl)
  = Done (true, p, n, ix, rs_at (pre ++ meta_bytes fl p n ix) post fl).
Proof.
  intros Hp Hn Hix Hd Hs Hb Hb64. unfold read_meta, meta_bytes, meta_len in *.
  set (b := match ix with Some _ => true | None => false end).
  assert (Eb : match ix with Some _ => 256 | None => 0 end = if b then 256 else 0) by (destruct ix; reflexivity).
  rewrite Eb in *. destruct (flag_bits p b Hp) as (F1 & F2).
  rewrite <- !app_assoc.
  rewrite rs_u16n; [|destruct b; lia|].
  2:{ destruct ix; rewrite !len_app, ?len_app, !len_num, ?len_flat_num, ?len_nil; cbn [wbytes]; lia. }
  cbn [bind]. rewrite land_low by exact Hp. rewrite F1, F2.
  rewrite rs_u64n; [|lia|].
  2:{ destruct ix; rewrite !len_app, ?len_app, ?len_num, ?len_flat_num, ?len_nil, ?len_num; cbn [wbytes]; lia. }
  cbn [bind]. destruct ix as [l|], dix as [dl|]; try contradiction; subst b; cbv iota.
  - destruct Hix as (Hix & Hal). rewrite <- !app_assoc.
    rewrite rs_u64n; [|lia|].
    2:{ rewrite !len_app, ?len_num, ?len_flat_num, ?len_num; cbn [wbytes]; lia. }
    cbn [bind]. rewrite !rs_at_pos, !len_app, !len_num. cbn [wbytes].
    rewrite sub64_small by lia.
    replace (bend - (len pre + (2 + 8) + 8)) with (bend - (len pre + 18)) by lia.
    destruct (N.ltb_spec ((bend - (len pre + 18)) / 4) (len l)) as [X|_].
    { exfalso. assert (len l <= (bend - (len pre + 18)) / 4) by (apply N.div_le_lower_bound; lia). lia. }
    destruct (resize_ok e 4 0 (len l) dl) as (l1 & El & Hl1); [lia|]. rewrite El. cbn [bind].
    rewrite <- wire_ints by exact Hix.
    rewrite rs_read_ok; [|rewrite len_flat_le4; reflexivity|rewrite !len_flat_le4; lia|].
    2:{ rewrite !len_app, len_flat_le4, !len_num; cbn [wbytes]; lia. }
    cbn [bind]. rewrite rs_at_pos, !len_app, len_wire, len_flat_le4 by (rewrite len_flat_le4; reflexivity).
    rewrite !len_num. cbn [wbytes]. u64_simpl.
    match goal with |- context [?a =? ?b] => destruct (N.eqb_spec a b) as [_|X]; [|lia] end.
    replace (N.to_nat (len l)) with (length l) by (unfold len; lia).
    rewrite words32_flat by exact Hix. do 2 f_equal. rewrite <- !app_assoc. reflexivity.
  - cbn [app]. rewrite !rs_at_pos, !len_app, !len_num. cbn [wbytes]. u64_simpl.
    match goal with |- context [?a =? ?b] => destruct (N.eqb_spec a b) as [_|X]; [|lia] end.
    do 2 f_equal. rewrite <- ?app_assoc, app_nil_r. reflexivity.
Qed.

Lemma pods_of_images k n l : Forall (shape_ok (ShPod k n)) l ->
  pods_of (length l) (n * ksize k) (flat_map the_image l) = l.
Proof.
  induction 1 as [|v l Hv H IH]; [reflexivity|].
  destruct v as [| |img]; cbn in Hv; try contradiction.
  cbn [length pods_of flat_map the_image]. rewrite take_app_exact, drop_app_exact by (symmetry; exact Hv).
  rewrite IH. reflexivity.
Qed.

Lemma Forall_take {A} (P : A -> Prop) n l : Forall P l -> Forall P (take n l).
Proof. intros H. rewrite <- (take_drop n l) in H. apply Forall_app in H. apply H. Qed.
Lemma Forall_rep {A} (P : A -> Prop) x n : P x -> Forall P (rep x n).
Proof. intros H. unfold rep. apply Forall_forall. intros y Hy. apply repeat_spec in Hy. subst. exact H. Qed.
Lemma resize_forall {A} e size (fill : A) n l l' (P : A -> Prop) :
  resize e size fill n l = Done l' -> P fill -> Forall P l -> Forall P l'.
Proof.
  unfold resize. destruct (_ <? _); [discriminate|]. intros E Hf Hl. injection E as <-.
  apply Forall_app. split; [apply Forall_take; exact Hl|apply Forall_rep; exact Hf].
Qed.

Lemma read_strings_ok e bend : forall strs dest pre post fl,
  len dest = len strs ->
  let bs := flat_map (string_bytes fl) strs in
  len bs <= e_lim e -> len pre + len bs + len post < two64 -> len pre + len bs <= bend -> bend < two64 ->
  read_strings e bend dest (rs_at pre (bs ++ post) fl) = Done (true, strs, rs_at (pre ++ bs) post fl).
Proof.
  induction strs as [|str strs IH]; intros dest pre post fl Hd bs Hal Hs Hb Hb64.
  - apply (len_0 dest) in Hd. subst dest. unfold bs. cbn [flat_map app read_strings]. rewrite app_nil_r. reflexivity.
  - destruct dest as [|d dest]; [rewrite len_cons, len_nil in Hd; lia|].
    rewrite !len_cons in Hd. unfold bs in *. cbn [flat_map read_strings] in *.
    rewrite len_app, len_string_bytes in *. unfold string_bytes at 1. rewrite <- !app_assoc.
    rewrite rs_u64n; [|lia|rewrite !len_app; lia].
    cbn [bind]. rewrite rs_at_pos, len_app, len_num. cbn [wbytes]. rewrite sub64_small by lia.
    destruct (N.ltb_spec (bend - (len pre + 8)) (len str)) as [X|_]; [lia|].
    destruct (resize_ok e 1 x00 (len str) d) as (d1 & Ed & Hd1); [lia|]. rewrite Ed. cbn [bind].
    set (rest := flat_map (string_bytes fl) strs) in *.
    assert (HX : (if 0 <? len str then rs_read (KW W8) (len str) d1 (rs_at (pre ++ num W64 fl (len str)) (str ++ rest ++ post) fl)
        else Done (len str, d1, rs_at (pre ++ num W64 fl (len str)) (str ++ rest ++ post) fl))
       = Done (len str, str, rs_at (pre ++ string_bytes fl str) (rest ++ post) fl)).
    { unfold string_bytes. rewrite (app_assoc pre).
      destruct (N.ltb_spec 0 (len str)) as [Hp|Hz].
      - rewrite rs_bytes_ok; [reflexivity|exact Hd1|rewrite !len_app, len_num; cbn [wbytes]; lia].
      - assert (Hz' : len str = 0) by lia. apply len_0 in Hz'. subst str. rewrite app_nil_r.
        apply len_0 in Hd1. subst d1. reflexivity. }
    rewrite HX. cbn [bind]. rewrite N.eqb_refl. cbn [negb].
    unfold rest. rewrite IH; [|lia|fold rest; lia| | |exact Hb64].
    + cbn [bind]. do 2 f_equal. rewrite <- !app_assoc. reflexivity.
    + rewrite len_app, len_string_bytes. fold rest. lia.
    + rewrite len_app, len_string_bytes. fold rest. lia.
Qed.

Lemma read_items_ok e h items dest pre post fl :
  Forall (shape_ok h) items -> len items < 2^63 -> h_ok h -> Forall (shape_ok h) dest ->
  let bs := items_bytes fl h items in
  4 * len bs <= e_lim e -> len pre + len bs + len post < two64 ->
  read_items e h (len pre + len bs) (h_per_item h) (h_count h items) dest (rs_at pre (bs ++ post) fl)
  = Done (true, items, rs_at (pre ++ bs) post fl).
Proof.
  intros Hi Hc Hh Hd bs Hal Hs.
  destruct h as [| |k n]; cbn [read_items h_per_item h_count]; unfold bs in *; cbn [items_bytes] in *.
  - rewrite len_packed, len_map in *.
    rewrite !add64_small with (b := 7) by (unfold two64; lia). rewrite rs_at_pos, sub64_small by lia.
    destruct (N.ltb_spec (len pre + (len items + 7) / 8 - len pre) ((len items + 7) / 8)) as [X|_]; [lia|].
    destruct (N.ltb_spec (e_lim e) ((len items + 7) / 8)) as [X|_]; [lia|]. cbn [bind].
    destruct (resize_ok e 1 x00 ((len items + 7) / 8) []) as (v1 & Ev & Hv1); [lia|]. rewrite Ev. cbn [bind].
    pose proof (len_packed (map the_bool items)) as Hpk. rewrite len_map in Hpk.
    rewrite <- Hpk. rewrite rs_bytes_ok; [|lia|lia].
    cbn [bind]. replace (N.to_nat (len items)) with (length (map the_bool items)) by (rewrite map_length; unfold len; lia).
    rewrite unpack_packed. cbn [bind]. do 3 f_equal.
    rewrite map_map. rewrite <- (map_id items) at 2. apply map_ext_in. intros v Hv.
    rewrite Forall_forall in Hi. specialize (Hi v Hv). destruct v; cbn in Hi; try contradiction. reflexivity.
  - assert (Hfm : flat_map (fun v => string_bytes fl (the_string v)) items = flat_map (string_bytes fl) (map the_string items)).
    { clear. induction items as [|v l IH]; [reflexivity|]. cbn [flat_map map]. rewrite IH. reflexivity. }
    assert (H8 : 8 * len items <= len (flat_map (string_bytes fl) (map the_string items))).
    { rewrite <- Hfm. clear. induction items as [|v l IH]; [apply N.le_0_l|]. cbn [flat_map].
      rewrite len_app, len_string_bytes, len_cons. lia. }
    rewrite Hfm in *. rewrite rs_at_pos, sub64_small by lia.
    match goal with |- context [?a / 8 <? len items] => destruct (N.ltb_spec (a / 8) (len items)) as [X|_] end.
    { exfalso. match goal with H : ?a / 8 < len items |- _ => assert (len items <= a / 8) by (apply N.div_le_lower_bound; lia) end. lia. }
    destruct (resize_ok e sizeof_string (VS []) (len items) dest) as (d1 & Ed & Hd1); [unfold sizeof_string; lia|].
    rewrite Ed. cbn [bind].
    rewrite read_strings_ok; [|rewrite !len_map; exact Hd1|lia|lia|lia|lia].
    cbn [bind]. do 3 f_equal.
    rewrite map_map. rewrite <- (map_id items) at 2. apply map_ext_in. intros v Hv.
    rewrite Forall_forall in Hi. specialize (Hi v Hv). destruct v; cbn in Hi; try contradiction. reflexivity.
  - pose proof (len_flat_image k n items Hi) as Hlen.
    rewrite len_element_bytes in * by exact Hlen. pose proof (ksize_pos k) as Hks.
    rewrite N.eqb_refl. cbn [negb]. rewrite rs_at_pos, sub64_small by lia.
    replace (len pre + len items * n * ksize k - len pre) with (len items * n * ksize k) by lia.
    rewrite N.div_mul by lia.
    destruct (N.ltb_spec (len items * n) (len items * n)) as [X|_]; [lia|].
    unfold h_ok in Hh. rewrite N.div_mul by lia.
    destruct (resize_ok e (n * ksize k) (val_default (ShPod k n)) (len items) dest) as (d1 & Ed & Hd1); [lia|].
    rewrite Ed. cbn [bind].
    assert (Hfd : Forall (shape_ok (ShPod k n)) d1).
    { eapply resize_forall; [exact Ed| |exact Hd]. cbn. apply len_rep. }
    rewrite element_bytes_wire by exact Hlen. rewrite pods_image_eq.
    rewrite rs_read_ok; [|exact Hlen|rewrite (len_flat_image k n d1 Hfd), Hlen, Hd1; reflexivity|lia].
    cbn [bind]. rewrite N.eqb_refl.
    replace (N.to_nat (len items)) with (length items) by (unfold len; lia).
    rewrite pods_of_images by exact Hi. reflexivity.
Qed.

Lemma h_count_bound h fl items : Forall (shape_ok h) items -> len items < 2^63 ->
  len (items_bytes fl h items) < two64 -> h_count h items < two64.
Proof.
  intros Hi Hc Hl. destruct h as [| |k n]; cbn [h_count items_bytes] in *; try (unfold two64; lia).
  rewrite len_element_bytes in Hl by (apply len_flat_image; exact Hi). pose proof (ksize_pos k). nia.
Qed.

Lemma read_array_ok e vt h key empty_ok items ix dest dix pre post fl :
  len key <= 40 -> vt < 256 -> h_ok h ->
  Forall (shape_ok h) items -> len items < 2^63 -> Forall (shape_ok h) dest ->
  (match ix with Some l => ix_ok l | None => True end) ->
  (match ix, dix with Some _, Some _ | None, None => True | _, _ => False end) ->
  let blk := large_block fl vt key (array_payload fl h items ix) in
  4 * len blk <= e_lim e -> len pre + len blk + len post < two64 ->
  read_array e vt h key empty_ok dest dix (rs_at pre (blk ++ post) fl)
  = Done (SOk, items, ix, rs_at (pre ++ blk) post fl).
Proof.
  intros Hk Hvt Hh Hi Hc Hd Hix Hm blk Hal Hs. unfold read_array, blk in *.
  rewrite begin_read_ok; try assumption. cbn [bind].
  rewrite array_payload_split in *.
  set (mb := meta_bytes fl (h_per_item h) (h_count h items) ix) in *.
  set (ib := items_bytes fl h items) in *.
  assert (Hmb : len mb = meta_len ix) by (apply len_meta_bytes).
  rewrite large_block_head in *. rewrite len_app, (len_app mb ib), len_large_head, Hmb in *.
  assert (Hml : 10 <= meta_len ix) by (unfold meta_len; lia).
  destruct (N.eqb_spec (len pre + (10 + len key + (meta_len ix + len ib))) 0) as [X|_]; [lia|].
  rewrite rs_at_pos, len_app, len_large_head.
  destruct (N.eqb_spec (len pre + (10 + len key + (meta_len ix + len ib))) (len pre + (10 + len key))) as [X|_]; [lia|].
  set (hd := large_head fl vt key (meta_len ix + len ib)) in *.
  assert (Hhd : len hd = 10 + len key) by apply len_large_head.
  rewrite <- app_assoc. unfold mb at 1.
  rewrite read_meta_ok; [|destruct h as [| |[[]| |] ?]; cbn; lia| | |exact Hm| | |lia].
  - cbn [bind negb]. fold mb.
    replace (len pre + (10 + len key + (meta_len ix + len ib))) with (len ((pre ++ hd) ++ mb) + len ib)
      by (rewrite !len_app, Hmb, Hhd; lia).
    unfold ib. rewrite read_items_ok; try assumption.
    + cbn [bind negb]. fold ib. unfold end_read. rewrite rs_at_pos, (len_app _ ib), N.eqb_refl.
      do 2 f_equal. rewrite <- !app_assoc. reflexivity.
    + fold ib. lia.
    + fold ib. rewrite !len_app, Hmb, Hhd. lia.
  - eapply (h_count_bound h fl); try assumption. fold ib. lia.
  - destruct ix as [l|]; [|exact I]. split; [exact Hix|]. unfold meta_len in Hal. lia.
  - rewrite !len_app, Hhd. lia.
  - rewrite !len_app, Hhd. lia.
Qed.

Lemma read_array_none e vt h key dest dix pre post fl :
  len key <= 40 -> vt < 256 ->
  let blk := large_block fl vt key [] in
  len pre + len blk + len post < two64 -> forall empty_ok,
  read_array e vt h key empty_ok dest dix (rs_at pre (blk ++ post) fl)
  = Done (if empty_ok then SEmpty else SFail, dest, dix, rs_at (pre ++ blk) post fl).
Proof.
  intros Hk Hvt blk Hs empty_ok. unfold read_array. unfold blk.
  rewrite begin_read_ok; try assumption. cbn [bind]. unfold blk in Hs.
  rewrite large_block_head, app_nil_r in *.
  rewrite len_large_head in *.
  destruct (N.eqb_spec (len pre + (10 + len key)) 0) as [X|_]; [lia|].
  rewrite rs_at_pos, len_app, len_large_head. rewrite N.eqb_refl.
  unfold end_read_empty, end_read. rewrite rs_at_pos, len_app, len_large_head, N.eqb_refl. destruct empty_ok; reflexivity.
Qed.

(** ** EntityReader::Read *)
Lemma read_single_ok e t key empty_ok v dest pre post fl :
  len key <= 40 -> val_ok t v -> val_ok t dest ->
  let blk := single_block fl t key (Some v) in
  4 * len blk <= e_lim e -> len pre + len blk + len post < two64 ->
  read_single e (vt_single t) (dshape t) key empty_ok dest (rs_at pre (blk ++ post) fl)
  = Done (SOk, v, rs_at (pre ++ blk) post fl).
Proof.
  intros Hk Hv Hd blk Hal Hs. unfold blk, single_block, val_ok in *.
  pose proof (dshape_ok t) as Hok. pose proof (pod_size_small t) as Hsm. pose proof (vt_single_lt t) as Hvt.
  destruct (dshape t) as [| |k n] eqn:Esh; cbn [read_single shape_ok h_ok] in *;
    destruct v; try contradiction; destruct dest; try contradiction; cbn [the_bool the_string the_image] in *.
  - rewrite read_bool_ok by assumption. reflexivity.
  - rewrite len_large_block, len_string_bytes in Hal. rewrite read_string_ok; try assumption; [reflexivity|lia].
  - rewrite read_pod_ok; try assumption; [reflexivity|]. apply Hsm. reflexivity.
Qed.

Lemma read_single_none e t key dest pre post fl :
  len key <= 40 -> val_ok t dest ->
  let blk := single_block fl t key None in
  len pre + len blk + len post < two64 ->
  exists v', read_single e (vt_single t) (dshape t) key true dest (rs_at pre (blk ++ post) fl)
  = Done (SEmpty, v', rs_at (pre ++ blk) post fl).
Proof.
  intros Hk Hd blk Hs. unfold blk, single_block, val_ok in *.
  pose proof (dshape_ok t) as Hok. pose proof (pod_size_small t) as Hsm. pose proof (vt_single_lt t) as Hvt.
  destruct (dshape t) as [| |k n] eqn:Esh; cbn [read_single shape_ok h_ok] in *; destruct dest; try contradiction.
  - unfold read_bool. rewrite read_pod_none; try assumption; [|cbn; lia|lia]. cbn [bind]. eauto.
  - rewrite read_string_none by assumption. cbn [bind]. eauto.
  - rewrite read_pod_none; try assumption; [cbn [bind]; eauto|]. apply Hsm. reflexivity.
Qed.

Lemma read_single_none_fail e t key dest pre post fl :
  len key <= 40 -> val_ok t dest ->
  let blk := single_block fl t key None in
  len pre + len blk + len post < two64 ->
  exists s', read_single e (vt_single t) (dshape t) key false dest (rs_at pre (blk ++ post) fl)
  = Done (SFail, dest, s').
Proof.
  intros Hk Hd blk Hs. unfold blk, single_block, val_ok in *.
  pose proof (dshape_ok t) as Hok. pose proof (pod_size_small t) as Hsm. pose proof (vt_single_lt t) as Hvt.
  destruct (dshape t) as [| |k n] eqn:Esh; cbn [read_single shape_ok h_ok] in *; destruct dest; try contradiction.
  - unfold read_bool. destruct (read_pod_none_fail e (vt_single t) (KW W8) 1 key (junk e 1) pre post fl) as (s' & E); try assumption; [cbn; lia|lia|].
    rewrite E. cbn [bind]. eauto.
  - rewrite read_string_none by assumption. cbn [bind]. eauto.
  - destruct (read_pod_none_fail e (vt_single t) k n key img pre post fl) as (s' & E); try assumption; [apply Hsm; reflexivity|].
    cbn [pod_image]. rewrite E. cbn [bind]. eauto.
Qed.

Lemma val_default_ok t : val_ok t (val_default (dshape t)).
Proof. unfold val_ok. destruct (dshape t); cbn; [exact I|reflexivity|apply len_rep]. Qed.

Lemma er_read_plain_ok e t key v dest pre post fl :
  len key <= 40 -> cval_ok t v -> cval_ok t dest -> cval_ctype dest = cval_ctype v ->
  4 * len (encode fl t key v) <= e_lim e ->
  len pre + len (encode fl t key v) + len post < two64 ->
  er_read_plain e t key dest (rs_at pre (encode fl t key v ++ post) fl)
  = Done (true, v, rs_at (pre ++ encode fl t key v) post fl).
Proof.
  intros Hk Hv Hd Hct Hal Hs. pose proof (dshape_ok t) as Hok. pose proof (vt_array_lt t) as Hvt.
  unfold er_read_plain.
  destruct v as [x|o|l|o|l ix|o]; destruct dest as [y|o'|l'|o'|l' ix'|o']; cbn [cval_ctype] in Hct;
    try discriminate; cbn [encode cval_ok] in *.
  - rewrite read_single_ok by assumption. reflexivity.
  - destruct o as [x|].
    + rewrite read_single_ok; try assumption; [reflexivity|apply val_default_ok].
    + destruct (read_single_none e t key (val_default (dshape t)) pre post fl Hk (val_default_ok t) Hs) as (v' & E).
      rewrite E. reflexivity.
  - unfold array_block in *. destruct Hv, Hd. rewrite read_array_ok; try assumption; [reflexivity|exact I|exact I].
  - unfold array_block in *. destruct o as [l|].
    + destruct Hv. rewrite read_array_ok; try assumption; [reflexivity|constructor|exact I|exact I].
    + rewrite read_array_none by assumption. reflexivity.
  - unfold array_block in *. destruct Hv as ((? & ?) & ?), Hd as ((? & ?) & ?).
    rewrite read_array_ok; try assumption; [reflexivity|exact I].
  - unfold array_block in *. destruct o as [[l ix]|].
    + destruct Hv as ((? & ?) & ?). rewrite read_array_ok; try assumption; [reflexivity|constructor|exact I].
    + rewrite read_array_none by assumption. reflexivity.
Qed.

(** Destinations for which Read replaces the content: everything but a non-empty vector or
    idx_vector of references. *)
Definition replaces (t : dtype) (dest : cval) : Prop :=
  match t, dest with
  | (TEntityRef | TPackageRef), (CVec l | CIdx l _) => l = []
  | _, _ => True
  end.

Lemma cval_default_ok t c : cval_ok t (cval_default t c).
Proof.
  destruct c; cbn; try exact I; try (split; [constructor|reflexivity]).
  - apply val_default_ok.
  - repeat split; try constructor.
Qed.
Lemma cval_default_ctype t c : cval_ctype (cval_default t c) = c.
Proof. destruct c; reflexivity. Qed.

Lemma encode_ref fl key v : encode fl TEntityRef key v = encode fl TUuid key v.
Proof. reflexivity. Qed.
Lemma encode_pref fl key v : encode fl TPackageRef key v = encode fl THash key v.
Proof. reflexivity. Qed.

Lemma er_read_override_ok e t key v dest pre post fl :
  len key <= 40 -> cval_ok t v -> cval_ctype dest = cval_ctype v ->
  (match dest with CVec l | CIdx l _ => l = [] | _ => True end) ->
  4 * len (encode fl t key v) <= e_lim e ->
  len pre + len (encode fl t key v) + len post < two64 ->
  er_read_override e t key dest (rs_at pre (encode fl t key v ++ post) fl)
  = Done (true, v, rs_at (pre ++ encode fl t key v) post fl).
Proof.
  intros Hk Hv Hct Hr Hal Hs. unfold er_read_override.
  rewrite er_read_plain_ok; try assumption.
  - cbn [bind negb]. destruct dest; try reflexivity; subst; destruct v; cbn in Hct; try discriminate; reflexivity.
  - apply cval_default_ok.
  - rewrite cval_default_ctype. exact Hct.
Qed.

Lemma er_read_ok e t key v dest pre post fl :
  len key <= 40 -> cval_ok t v -> cval_ok t dest -> cval_ctype dest = cval_ctype v -> replaces t dest ->
  4 * len (encode fl t key v) <= e_lim e ->
  len pre + len (encode fl t key v) + len post < two64 ->
  er_read e t key dest (rs_at pre (encode fl t key v ++ post) fl)
  = Done (true, v, rs_at (pre ++ encode fl t key v) post fl).
Proof.
  intros Hk Hv Hd Hct Hr Hal Hs.
  destruct t; try (apply er_read_plain_ok; assumption).
  - change (encode fl TEntityRef key v) with (encode fl TUuid key v) in *.
    apply er_read_override_ok; try assumption; destruct dest; auto.
  - change (encode fl TPackageRef key v) with (encode fl THash key v) in *.
    apply er_read_override_ok; try assumption; destruct dest; auto.
Qed.
