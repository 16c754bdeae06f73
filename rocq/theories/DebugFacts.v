(** * The debug build agrees with the release build. *)
From Verif Require Import Base Bytes BytesFacts Values Streams FileSpec ReadSpec StreamFacts StreamProps Types Format
  Accept EntityWriter EntityReader EntityWriterFacts PackFacts ArrayWriterFacts EntityReaderFacts EntitySafety
  ArraySafety Sections SectionFacts Protocol ProtocolFacts Damage DamageFacts EntityKeys Debug DebugSpec.
Open Scope N_scope.

(** ** Writer *)
Lemma bind_ext {A B} (m : res A) (f g : A -> res B) : (forall a, m = Done a -> f a = g a) -> bind m f = bind m g.
Proof. destruct m; cbn; auto. Qed.

Lemma d_begin_write_eq vt key s :
  d_begin_write vt key s = if klen key <=? 40 then begin_write vt key s else Throw.
Proof.
  unfold d_begin_write. change max_key with 40. unfold check at 1. destruct (klen key <=? 40); [|reflexivity].
  unfold begin_write.
  apply bind_ext. intros s1 E1. apply bind_ext. intros s2 E2. apply bind_ext. intros s3 E3. apply bind_ext. intros s4 E4.
  apply ws_u8_pos in E1. apply ws_u64_pos in E2. apply ws_u8_pos in E3. apply ws_write_pos in E4.
  assert (X : (ws_pos s4 =? add64 (add64 (ws_pos s) (klen key)) 10) = true).
  { rewrite E4, E3, E2, E1. rewrite !add64_assoc. apply N.eqb_eq. f_equal. lia. }
  rewrite X. reflexivity.
Qed.

Lemma ws_uuids_pos c : forall src s s', ws_pos s < two64 -> ws_uuids c src s = Done s' -> ws_pos s' = add64 (ws_pos s) (16 * N.of_nat c).
Proof.
  induction c as [|c IH]; intros src s s' Hp H; cbn [ws_uuids] in H.
  - injection H as <-. rewrite add64_small; lia.
  - destruct (len src <? 16); [discriminate|].
    destruct (thrown_res (ws_words W8 16 (uuid_to_wire (take 16 src)) s)) as [s1| |] eqn:E; cbn [bind] in H; try discriminate.
    change (ws_write (KW W8) 16 (uuid_to_wire (take 16 src)) s = Done s1) in E. apply ws_write_pos in E.
    apply IH in H; [|rewrite E; apply N.mod_lt; unfold two64; lia]. rewrite H, E, add64_assoc. f_equal. lia.
Qed.
Lemma ws_write_kpos k count src s s' : ws_pos s < two64 -> ksize k * count < two64 -> ws_write k count src s = Done s' ->
  ws_pos s' = add64 (ws_pos s) (ksize k * count).
Proof.
  intros Hp Hs H. destruct k as [w| |].
  - apply ws_write_pos in H. rewrite H. destruct w; cbn [ksize wbytes] in *; f_equal; unfold mul64, w64; rewrite ?N.mod_small; lia.
  - cbn [ws_write] in H. apply ws_uuids_pos in H; [|exact Hp]. rewrite H. f_equal. cbn [ksize]. lia.
  - cbn [ws_write] in H. change (ws_write (KW W8) (mul64 32 count) src s = Done s') in H. apply ws_write_pos in H.
    rewrite H. cbn [ksize] in *. f_equal. unfold mul64, w64. rewrite N.mod_small; lia.
Qed.

Lemma d_write_pod_eq vt k count key data s : ksize k * count <= 128 ->
  d_write_pod vt k count key data s = if klen key <=? 40 then write_pod vt k count key data s else Throw.
Proof.
  intros Hc. unfold d_write_pod. change max_key with 40. unfold check at 1.
  destruct (N.leb_spec (klen key) 40) as [Hk|_]; [|reflexivity].
  set (ds := match data with Some _ => ksize k * count | None => 0 end).
  assert (Hds : ds <= 128) by (unfold ds; destruct data; lia).
  unfold check at 1. destruct (N.ltb_spec (ds + klen key) 256) as [_|X]; [|lia].
  unfold write_pod. fold ds.
  apply bind_ext. intros s1 E1. apply bind_ext. intros s2 E2. apply bind_ext. intros s3 E3. apply bind_ext. intros s4 E4.
  apply ws_u8_pos in E1. apply ws_u8_pos in E2. apply ws_write_pos in E4.
  assert (P2 : ws_pos s2 < two64) by (rewrite E2; apply N.mod_lt; unfold two64; lia).
  assert (Q : ws_pos s3 = add64 (ws_pos s2) ds).
  { assert (Z : add64 (ws_pos s2) 0 = ws_pos s2) by (rewrite add64_small; lia).
    destruct data as [img|].
    - destruct (N.ltb_spec 0 ds) as [_|X].
      + apply ws_write_kpos in E3; [exact E3|exact P2|unfold two64; fold ds; lia].
      + injection E3 as <-. replace ds with 0 by lia. symmetry. exact Z.
    - injection E3 as <-. symmetry. exact Z. }
  assert (X : (ws_pos s4 =? add64 (add64 (ws_pos s) 2) (ds + klen key)) = true).
  { rewrite E4, Q, E2, E1. rewrite !add64_assoc. apply N.eqb_eq. f_equal. lia. }
  rewrite X. reflexivity.
Qed.

Lemma pod_small t k n : dshape t = ShPod k n -> ksize k * n <= 128 /\ 0 < n.
Proof. destruct t as [| i | i | f | d f | d i | d i | d f | f | | | | |]; cbn; intros H; try discriminate; injection H as <- <-;
  try destruct i; try destruct f; try destruct d; cbn; lia. Qed.

Lemma ksize_byte k : ksize k <= 0xff. Proof. destruct k as [[]| |]; cbn; lia. Qed.
Lemma d_write_meta_eq p n ix s : p <= 0xff -> d_write_meta p n ix s = write_meta p n ix s.
Proof. intros H. unfold d_write_meta, check. destruct (N.leb_spec p 0xff); [reflexivity|lia]. Qed.
Lemma d_write_items_eq h items ix s : d_write_items h items ix s = write_items h items ix s.
Proof.
  destruct h as [| |k n]; unfold d_write_items, write_items; rewrite d_write_meta_eq by (try apply ksize_byte; lia); reflexivity.
Qed.
Lemma d_write_array_eq vt h key items ix s :
  d_write_array vt h key items ix s = if klen key <=? 40 then write_array vt h key items ix s else Throw.
Proof.
  unfold d_write_array, write_array. rewrite d_begin_write_eq. destruct (klen key <=? 40); [|reflexivity].
  apply bind_ext. intros [ok s1] _. destruct (negb ok); [reflexivity|].
  destruct items as [l|]; [rewrite d_write_items_eq|]; reflexivity.
Qed.
Lemma d_write_string_eq vt key d s :
  d_write_string vt key d s = if klen key <=? 40 then write_string vt key d s else Throw.
Proof. unfold d_write_string, write_string. rewrite d_begin_write_eq. destruct (klen key <=? 40); reflexivity. Qed.
Lemma d_write_single_eq vt t key v s :
  d_write_single vt (dshape t) key v s = if klen key <=? 40 then write_single vt (dshape t) key v s else Throw.
Proof.
  unfold d_write_single, write_single. destruct (dshape t) as [| |k n] eqn:E.
  - unfold d_write_bool, write_bool. apply d_write_pod_eq. cbn. lia.
  - apply d_write_string_eq.
  - apply d_write_pod_eq. apply pod_small in E. lia.
Qed.
Lemma d_ew_write_eq t key c s : d_ew_write t key c s = if klen key <=? 40 then ew_write t key c s else Throw.
Proof. unfold d_ew_write, ew_write. destruct c; apply d_write_single_eq || apply d_write_array_eq. Qed.

Lemma klen_legal key : len key <= 40 -> (klen key <=? 40) = true.
Proof. intros H. rewrite klen_small by lia. apply N.leb_le. exact H. Qed.
Lemma klen_long key : 40 < len key -> len key < 256 -> (klen key <=? 40) = false.
Proof. intros H H2. rewrite klen_small by lia. apply N.leb_gt. exact H. Qed.

Lemma d_wstep_eq c st : wlegal c -> d_wstep c st = wstep c st.
Proof.
  unfold wlegal. destruct c as [h t key v|h key| |h key size ix| | |]; cbn [wkey d_wstep wstep]; intros H; try reflexivity;
    apply klen_legal in H; f_equal.
  - unfold d_w_write, w_write. rewrite d_ew_write_eq, H. reflexivity.
  - unfold d_w_begin, w_begin. rewrite d_begin_write_eq, H. reflexivity.
  - unfold d_w_begin_arr, w_begin_arr. rewrite d_begin_write_eq, H.
    destruct (split_at wf_id h (w_chain st)) as [[[a f] b]|]; [|reflexivity]. destruct b; [|reflexivity].
    apply bind_ext. intros [ok s1] _. rewrite d_write_meta_eq by lia. reflexivity.
Qed.

(** The innermost object, for which a begin is possible. *)
Lemma d_wstep_long c st key h : wkey c = Some key -> 40 < len key -> len key < 256 ->
  (match c with WWrite h' _ _ _ | WBegin h' _ | WBeginArr h' _ _ _ => h' = h | _ => False end) ->
  (exists a f, w_chain st = a ++ [f] /\ wf_id f = h /\ ~ In h (map wf_id a)) -> d_wstep c st = Throw.
Proof.
  intros E H1 H2 Hc (a & f & Ech & Hid & Hn).
  pose proof (split_at_mid wf_id h a f [] Hid Hn) as S. rewrite <- Ech in S.
  pose proof (klen_long key H1 H2) as K.
  destruct c as [h' t k v|h' k| |h' k size ix| | |]; try discriminate E; injection E as ->; subst h'; cbn [d_wstep].
  - unfold d_w_write. rewrite S, d_ew_write_eq, K. reflexivity.
  - unfold d_w_begin. rewrite S, d_begin_write_eq, K. reflexivity.
  - unfold d_w_begin_arr. rewrite S, d_begin_write_eq, K. reflexivity.
Qed.

(** ** Reader: the small blocks *)
Lemma d_begin_read_eq e vt key s : len key <= 40 -> d_begin_read e vt key s = begin_read e vt key s.
Proof. intros H. unfold d_begin_read, check. change max_key with 40. rewrite klen_legal by exact H. reflexivity. Qed.

Lemma d_read_pod_eq e vt k n key empty_ok dest pre post fl :
  len key <= 40 -> 0 < len key -> 0 < vt -> n * ksize k <= 128 -> 0 < n -> n * ksize k <= len dest -> len dest < lim62 -> small_rs pre post ->
  d_read_pod e vt k n key empty_ok dest (rs_at pre post fl) = read_pod e vt k n key empty_ok dest (rs_at pre post fl).
Proof.
  intros Hk Hk0 Hvt Hn Hpos Hd Hdl Hs. unfold d_read_pod, read_pod. change max_key with 40.
  pose proof (rs_u8_gen pre post fl Hs) as G1.
  destruct (rs_u8 (rs_at pre post fl)) as [[v1 s1]| |]; cbn [wp bind] in *; try contradiction.
  destruct G1 as (Hv1 & H1). destruct (N.eqb_spec v1 vt) as [->|Hne]; cbn [negb]; [|reflexivity].
  unfold check at 1. rewrite klen_legal by exact Hk. rewrite klen_small by lia.
  unfold check at 1. destruct (N.ltb_spec (ksize k * n + len key) 256) as [_|X]; [|lia].
  destruct H1 as [(p1 & -> & ->)|(_ & X & _)]; [|lia].
  assert (Hs1 : small_rs (pre ++ [n2b vt]) p1) by (apply small_rs_shift; exact Hs).
  pose proof (rs_u8_gen _ _ fl Hs1) as G2.
  destruct (rs_u8 (rs_at (pre ++ [n2b vt]) p1 fl)) as [[bs s2]| |]; cbn [wp bind] in *; try contradiction.
  destruct G2 as (Hbs & H2). pose proof (ksize_pos k) as Hkp.
  set (is_empty := negb (bs =? ksize k * n + len key)).
  destruct (is_empty && negb (empty_ok && (bs =? len key))) eqn:Ebad; [reflexivity|].
  destruct H2 as [(p2 & -> & ->)|(-> & Hbs0 & ->)].
  2:{ subst bs. assert (He : is_empty = true) by (unfold is_empty; apply negb_true_iff, N.eqb_neq; nia).
    rewrite He in Ebad. cbn [andb] in Ebad. apply negb_false_iff, andb_true_iff in Ebad.
    destruct Ebad as (_ & Hz). apply N.eqb_eq in Hz. lia. }
  set (pr2 := (pre ++ [n2b vt]) ++ [n2b bs]).
  assert (Hs2 : small_rs pr2 p2) by (apply small_rs_shift; exact Hs1).
  assert (Hp2 : len pr2 = len pre + 2) by (unfold pr2; rewrite !len_app, !len_cons, len_nil; lia).
  apply bind_ext. intros [[rc d1] s3] E3. destruct (N.eqb_spec rc n) as [->|Hne]; cbn [negb]; [|reflexivity].
  assert (Q : exists q r, s3 = rs_at q r fl /\ small_rs q r /\ len q = len pre + 2 + (if is_empty then 0 else ksize k * n)).
  { destruct is_empty.
    - injection E3 as <- <-. exists pr2, p2. repeat split; [exact Hs2|lia].
    - pose proof (rs_read_gen k n dest pr2 p2 fl Hs2 Hd Hdl) as G3. rewrite E3 in G3. cbn [wp] in G3.
      destruct G3 as (_ & [(img & rest & -> & Hli & _ & -> & _)|(_ & X & _)]); [|lia].
      exists (pr2 ++ element_bytes k n fl img), rest. split; [reflexivity|]. split; [apply small_rs_shift; exact Hs2|].
      rewrite len_app, (len_element_bytes k n fl img Hli). lia. }
  destruct Q as (q & r & -> & Hsq & Hq).
  apply bind_ext. intros [[kl buf] s4] E4.
  pose proof (rs_key_gen e key q r fl Hk Hsq) as G4. rewrite klen_small in G4 by lia. change max_key with 40 in G4. rewrite E4 in G4. cbn [wp] in G4.
  destruct G4 as (Hb & H4). destruct (N.eqb_spec kl (len key)) as [->|Hne]; cbn [negb]; [|reflexivity].
  destruct H4 as [(k' & rest & -> & Hl & _ & -> & _)|(_ & X & _)]; [|lia].
  apply bind_ext. intros same _. destruct (negb same); [reflexivity|].
  assert (X : (rs_pos (rs_at (q ++ k') rest fl) =? add64 (add64 (rs_pos (rs_at pre (n2b vt :: n2b bs :: p2) fl)) 2)
     (if is_empty then len key else ksize k * n + len key)) = true).
  { rewrite !rs_at_pos, len_app, Hl, Hq, add64_assoc. unfold small_rs, lim62 in Hs. apply N.eqb_eq.
    rewrite add64_small by (unfold two64; destruct is_empty; lia). destruct is_empty; lia. }
  rewrite X. reflexivity.
Qed.

Lemma d_read_bool_eq e vt key empty_ok dest pre post fl :
  len key <= 40 -> 0 < len key -> 0 < vt -> small_rs pre post ->
  d_read_bool e vt key empty_ok dest (rs_at pre post fl) = read_bool e vt key empty_ok dest (rs_at pre post fl).
Proof.
  intros Hk Hk0 Hvt Hs. unfold d_read_bool, read_bool. rewrite d_read_pod_eq; try assumption; try reflexivity; cbn [ksize wbytes]; try lia.
Qed.
Lemma vt_single_pos t : 0 < vt_single t. Proof. destruct t; cbn; try destruct d; cbn; lia. Qed.
Lemma vt_array_pos t : 0 < vt_array t. Proof. destruct t; cbn; try destruct d; cbn; lia. Qed.
Lemma d_read_single_eq e t key empty_ok dest pre post fl :
  len key <= 40 -> 0 < len key -> val_ok t dest -> small_rs pre post ->
  d_read_single e (vt_single t) (dshape t) key empty_ok dest (rs_at pre post fl)
  = read_single e (vt_single t) (dshape t) key empty_ok dest (rs_at pre post fl).
Proof.
  intros Hk Hk0 Hd Hs. pose proof (vt_single_pos t) as Hvt. unfold d_read_single, read_single, val_ok in *.
  destruct (dshape t) as [| |k n] eqn:E.
  - rewrite d_read_bool_eq; [reflexivity|assumption..].
  - unfold d_read_string, read_string. rewrite d_begin_read_eq by exact Hk. reflexivity.
  - destruct dest as [b|str|img]; cbn [shape_ok] in Hd; try contradiction. cbn [pod_image].
    destruct (pod_small _ _ _ E) as (P1 & P2).
    rewrite d_read_pod_eq; [reflexivity|try assumption; unfold lim62; lia..].
Qed.

(** ** Reader: the large blocks *)
Lemma begin_read_cut e vt key size rest pre fl :
  let post := n2b vt :: num W64 fl size ++ n2b (len key) :: key ++ rest in
  len key <= 40 -> vt < 256 -> size < two64 -> small_rs pre post -> add64 (len pre + 9) size <= len pre + len post ->
  begin_read e vt key (rs_at pre post fl) = Done (add64 (len pre + 9) size, rs_at (pre ++ header fl vt size key) rest fl).
Proof.
  intros post Hk Hvt Hsz Hs Hb. unfold small_rs, lim62, post in *. rewrite len_cons, len_app, len_num, len_cons, len_app in Hs, Hb.
  cbn [wbytes] in Hs, Hb. unfold begin_read.
  rewrite rs_u8n; [|lia|rewrite len_app, len_num, len_cons, len_app; cbn [wbytes]; unfold two64; lia].
  cbn [bind]. rewrite N.eqb_refl. cbn [negb].
  rewrite rs_u64n; [|lia|rewrite !len_app, !len_cons, !len_app, len_nil; unfold two64; lia].
  cbn [bind]. rewrite rs_at_pos, rs_at_size. rewrite !len_app, !len_cons, !len_app, len_nil, len_num. cbn [wbytes].
  replace (len pre + (0 + 1) + 8) with (len pre + 9) by lia.
  destruct (N.ltb_spec (len pre + 9 + (len key + len rest + 1)) (add64 (len pre + 9) size)) as [X|_]; [lia|].
  rewrite rs_u8n; [|lia|rewrite !len_app, !len_cons, len_nil, len_num; cbn [wbytes]; unfold two64; lia].
  cbn [bind]. rewrite klen_small by lia. rewrite N.eqb_refl. cbn [negb].
  destruct (rs_key_ok e key (((pre ++ [n2b vt]) ++ num W64 fl size) ++ [n2b (len key)]) rest fl Hk) as (buf & E & Hm).
  { rewrite !len_app, !len_cons, len_nil, len_num. cbn [wbytes]. unfold two64. lia. }
  rewrite klen_small in E by lia. rewrite E. cbn [bind]. rewrite Hm. cbn [bind].
  f_equal. f_equal. f_equal. unfold header. rewrite <- !app_assoc. reflexivity.
Qed.

Definition short_meta (fl : bool) (bend : N) (q r : list byte) : Prop :=
  announces_index fl r /\ bend < N.min (len q + 10) (len q + len r).

Lemma word_pos w fl v pre post p r :
  (post = num w fl v ++ r /\ p = pre ++ num w fl v) \/ (len post < wbytes w /\ p = pre ++ post /\ r = []) ->
  len p = N.min (len pre + wbytes w) (len pre + len post).
Proof. intros [(-> & ->)|(H & -> & ->)]; rewrite !len_app, ?len_num; lia. Qed.

(** A u16 cut off by the end of the stream. *)
Lemma rs_u16_short q r fl : small_rs q r -> len r < 2 ->
  rs_u16 (rs_at q r fl) = Done (match r with [b] => (if fl then 256 * b2n b else b2n b) | _ => 0 end, rs_at (q ++ r) [] fl).
Proof.
  intros Hs Hl. unfold small_rs, lim62 in Hs.
  assert (R : rs_raw (mul64 1 2) (rep x00 2) (rs_at q r fl) = Done (len r, r ++ drop (len r) (rep x00 2), rs_at (q ++ r) [] fl)).
  { unfold rs_raw. rewrite rs_at_size, rs_at_pos. change (mul64 1 2) with 2. rewrite add64_small by (unfold two64; lia).
    destruct (N.ltb_spec (len q + len r) (len q + 2)) as [_|X]; [|lia].
    rewrite sub64_small by (unfold two64; lia). replace (len q + len r - len q) with (len r) by lia.
    change (len (rep x00 2)) with 2. replace ((len q + len r <=? len q + len r) && (len r <=? 2)) with true by lia.
    unfold rs_at. cbn [rs_data rs_flip]. rewrite drop_len_app, take_all by lia. rewrite app_nil_r. f_equal. f_equal. f_equal.
    rewrite len_app. reflexivity. }
  unfold rs_u16, rs_word, rs_read1, rs_read, rs_words. cbn [ksize wbytes].
  rewrite R. cbn [bind].
  change (rs_flip (rs_at q r fl)) with fl.
  destruct r as [|b [|c r']]; [| |exfalso; rewrite !len_cons in Hl; lia].
  - rewrite len_nil. cbn [app]. destruct fl; reflexivity.
  - change (len [b]) with 1. destruct fl; cbn [app]; destruct b; reflexivity.
Qed.

Lemma high_byte_bits b : N.testbit (256 * b2n b) 8 = N.testbit (b2n b) 0 /\ N.testbit (256 * b2n b) 9 = N.testbit (b2n b) 1.
Proof. destruct b; split; reflexivity. Qed.
Lemma low_byte_bits b : N.testbit (b2n b) 8 = false. Proof. destruct b; reflexivity. Qed.

(** The flags as they are read. *)
Lemma flags_read q r fl : small_rs q r ->
  exists flags p r1, rs_u16 (rs_at q r fl) = Done (flags, rs_at p r1 fl) /\ flags < 65536 /\ small_rs p r1 /\
    len p = N.min (len q + 2) (len q + len r) /\ len p + len r1 = len q + len r /\
    (announces_index fl r <-> N.testbit flags 8 = true /\ N.testbit flags 9 = false).
Proof.
  intros Hs. pose proof Hs as Hs'. unfold small_rs, lim62 in Hs'.
  destruct (N.lt_ge_cases (len r) 2) as [Hl|Hl].
  - rewrite (rs_u16_short q r fl Hs Hl).
    assert (B : forall b, b2n b < 256) by (intros []; reflexivity).
    exists (match r with [b] => (if fl then 256 * b2n b else b2n b) | _ => 0 end), (q ++ r), [].
    split; [reflexivity|]. split.
    { destruct r as [|b [|c r]]; try lia. specialize (B b). destruct fl; lia. }
    split; [unfold small_rs, lim62; rewrite len_app, len_nil; lia|].
    rewrite len_app, len_nil. split; [lia|]. split; [lia|].
    destruct r as [|b [|c r]]; [| |exfalso; rewrite !len_cons in Hl; lia].
    + split; [|intros (X & _); discriminate X]. intros [(fg & rest & E & _)|(_ & b & E & _)]; [|discriminate].
      exfalso. assert (X : len (@nil byte) = len (num W16 fl fg ++ rest)) by (rewrite <- E; reflexivity).
      rewrite len_app, len_num, len_nil in X. cbn [wbytes] in X. lia.
    + split.
      * intros [(fg & rest & E & _)|(-> & c & E & E0 & E1)].
        { exfalso. assert (X : len [b] = len (num W16 fl fg ++ rest)) by (rewrite <- E; reflexivity).
          rewrite len_app, len_num, len_cons, len_nil in X. cbn [wbytes] in X. lia. }
        injection E as <-. destruct (high_byte_bits b) as (-> & ->). auto.
      * intros (X8 & X9). destruct fl; [|rewrite low_byte_bits in X8; discriminate].
        destruct (high_byte_bits b) as (Y8 & Y9). right. split; [reflexivity|]. exists b. rewrite <- Y8, <- Y9. auto.
  - pose proof (rs_word_w W16 _ _ fl Hs) as G1. unfold rs_u16.
    destruct (rs_word W16 (rs_at q r fl)) as [[flags s1]| |] eqn:Er; cbn [wp] in *; try contradiction.
    destruct G1 as (Hf & p1 & r1 & -> & Hw1 & H1). change (256 ^ wbytes W16) with 65536 in Hf.
    exists flags, p1, r1. split; [reflexivity|]. split; [exact Hf|]. split; [eapply within_small; eassumption|].
    split; [apply word_pos in H1; exact H1|]. split; [apply (within_pos _ _ _ _ _ Hw1)|].
    destruct H1 as [(E & _)|(X & _)]; [|cbn [wbytes] in X; lia]. split.
    + intros [(fg & rest & E' & Hg & G8 & G9)|(_ & b & E' & _)].
      * rewrite E' in Er. change (rs_word W16) with rs_u16 in Er.
        rewrite rs_u16n in Er; [|exact Hg|rewrite E', len_app, len_num in Hs'; cbn [wbytes] in Hs'; unfold two64; lia].
        injection Er as <- _. auto.
      * exfalso. rewrite E', len_cons, len_nil in Hl. lia.
    + intros (A & B). left. exists flags, r1. auto.
Qed.

Lemma meta_cut e c0 bend l q r fl : small_rs q r -> short_meta fl bend q r -> d_read_meta e c0 bend (Some l) (rs_at q r fl) = Throw.
Proof.
  intros Hs (Ha & Hb). destruct (flags_read q r fl Hs) as (flags & p & r1 & E & Hf & Hs1 & Hp & Hpr & Hab). unfold d_read_meta.
  apply Hab in Ha. destruct Ha as (F8 & F9).
  rewrite E. cbn [bind]. destruct (flags_land flags Hf) as (F1 & F2 & F3). rewrite F2, F3, F8, F9.
  pose proof (rs_word_w W64 _ _ fl Hs1) as G. unfold rs_u64.
  destruct (rs_word W64 (rs_at p r1 fl)) as [[c s2]| |]; cbn [wp bind] in *; try contradiction.
  destruct G as (_ & p2 & r2 & -> & _ & H). apply word_pos in H. rewrite rs_at_pos. cbn [wbytes] in H.
  unfold check. destruct (N.leb_spec (len p2) bend) as [X|_]; [lia|reflexivity].
Qed.

Lemma meta_or e c0 bend ix q r fl : small_rs q r ->
  d_read_meta e c0 bend ix (rs_at q r fl) = read_meta e c0 bend ix (rs_at q r fl) \/ (exists l, ix = Some l) /\ short_meta fl bend q r.
Proof.
  intros Hs. destruct (flags_read q r fl Hs) as (flags & p & r1 & E & Hf & Hs1 & Hp & Hpr & Hab). unfold d_read_meta, read_meta.
  rewrite E. cbn [bind]. destruct (flags_land flags Hf) as (F1 & F2 & F3). rewrite F2, F3.
  destruct (N.testbit flags 9) eqn:E9; [left; reflexivity|].
  pose proof (rs_word_w W64 _ _ fl Hs1) as G. unfold rs_u64.
  destruct (rs_word W64 (rs_at p r1 fl)) as [[c s2]| |]; cbn [wp bind] in *; try contradiction.
  destruct G as (_ & p2 & r2 & -> & _ & H). apply word_pos in H. cbn [wbytes] in H.
  destruct (N.testbit flags 8) eqn:E8; [|left; reflexivity].
  destruct ix as [l|]; [|left; reflexivity].
  rewrite !rs_at_pos. unfold check. destruct (N.leb_spec (len p2) bend) as [X|X]; [left; reflexivity|].
  right. split; [exists l; reflexivity|]. split; [apply Hab; auto|lia].
Qed.

(** A block that trips the check does not read successfully in the release build either. *)
Lemma meta_short_fails e c0 bend l q r fl : small_rs q r -> short_meta fl bend q r -> e_lim e < lim62 ->
  wp (read_meta e c0 bend (Some l) (rs_at q r fl)) (fun x => let '(ok, per, count, ix, s') := x in
    ok = true -> bend < rs_pos s' /\ exists p r', s' = rs_at p r' fl /\ within q r fl s') True.
Proof.
  intros Hs (Ha & Hb) He.
  eapply wp_impl; [apply (read_meta_gen e c0 bend (Some l) q r fl Hs He)| |tauto].
  intros [[[[ok per] count] ix] s'] (p & r' & -> & Hw & Hix & H) Hok.
  destruct (H Hok) as (_ & mb & (fg & Hfg & _ & _ & _ & _ & ->) & -> & ->).
  split; [|eexists _, _; split; [reflexivity|exact Hw]].
  rewrite rs_at_pos, !len_app, !len_num in *. cbn [wbytes] in *. lia.
Qed.

Lemma array_cut e vt h key empty_ok dest ix pre post fl :
  len key <= 40 -> vt < 256 -> small_rs pre post -> cut_short fl (len pre) (len pre + len post) vt key post ->
  d_read_array e vt h key empty_ok dest (Some ix) (rs_at pre post fl) = Throw.
Proof.
  intros Hk Hvt Hs (size & rest & -> & Hsz & Ha & H0 & Hne & Hlt).
  change ((len pre + 9 + size) mod two64) with (add64 (len pre + 9) size) in *.
  unfold d_read_array. rewrite d_begin_read_eq by exact Hk.
  rewrite begin_read_cut; [|assumption|assumption|assumption|assumption|lia].
  cbn [bind]. destruct (N.eqb_spec (add64 (len pre + 9) size) 0) as [X|_]; [lia|].
  rewrite rs_at_pos, len_app, len_header. rewrite len_cons, len_app, len_num, len_cons, len_app in Hlt. cbn [wbytes] in Hlt.
  destruct (N.eqb_spec (add64 (len pre + 9) size) (len pre + (10 + len key))) as [X|_]; [lia|].
  rewrite meta_cut; [reflexivity| |].
  - unfold small_rs in *. rewrite len_cons, len_app, len_num, len_cons, len_app in Hs. cbn [wbytes] in Hs.
    rewrite len_app, len_header. lia.
  - split; [exact Ha|]. rewrite len_app, len_header. lia.
Qed.

Lemma header_split fl vt bs key rest : header fl vt bs key ++ rest = n2b vt :: num W64 fl bs ++ n2b (len key) :: key ++ rest.
Proof. unfold header. cbn [app]. rewrite <- app_assoc. reflexivity. Qed.

Lemma array_or e vt h key empty_ok dest ix pre post fl :
  len key <= 40 -> 0 < len key -> 0 < vt -> small_rs pre post ->
  d_read_array e vt h key empty_ok dest ix (rs_at pre post fl) = read_array e vt h key empty_ok dest ix (rs_at pre post fl)
  \/ (exists l, ix = Some l) /\ cut_short fl (len pre) (len pre + len post) vt key post.
Proof.
  intros Hk Hk0 Hvt Hs. unfold d_read_array, read_array. rewrite d_begin_read_eq by exact Hk.
  pose proof (begin_read_gen e vt key pre post fl Hk Hk0 Hvt Hs) as G.
  destruct (begin_read e vt key (rs_at pre post fl)) as [[bend s1]| |]; cbn [wp bind] in *; try contradiction.
  destruct G as (Hw & H1).
  destruct (N.eqb_spec bend 0) as [->|Hne0]; [left; reflexivity|].
  destruct H1 as [?|H1]; [contradiction|].
  destruct (N.eqb_spec bend (rs_pos s1)) as [Hpe|Hpe]; [left; reflexivity|].
  destruct H1 as (bs & Hbs & Eb & Hle & [(rest & -> & ->)|(k' & Hl & Ep & ->)]).
  - assert (Hs1 : small_rs (pre ++ header fl vt bs key) rest) by (apply small_rs_shift; exact Hs).
    destruct (meta_or e 0 bend ix _ _ fl Hs1) as [->|(Hix & Ha & Hb)]; [left; reflexivity|].
    right. split; [exact Hix|]. exists bs, rest. rewrite header_split. split; [reflexivity|]. split; [exact Hbs|].
    split; [exact Ha|]. change ((len pre + 9 + bs) mod two64) with (add64 (len pre + 9) bs). rewrite <- Eb.
    rewrite rs_at_pos, len_app, len_header in Hpe. rewrite <- header_split, !len_app, len_header in *. lia.
  - left. assert (Hs1 : small_rs (pre ++ post) []) by (unfold small_rs in *; rewrite len_app, len_nil; lia).
    destruct (meta_or e 0 bend ix _ _ fl Hs1) as [->|(_ & [(fg & r & E & _)|(_ & b & E & _)] & _)]; [reflexivity| |discriminate].
    exfalso. assert (X : len (@nil byte) = len (num W16 fl fg ++ r)) by (rewrite <- E; reflexivity).
    rewrite len_app, len_num, len_nil in X. cbn [wbytes] in X. lia.
Qed.

(** ** EntityReader::Read *)
Definition trip_at (fl : bool) (pos total : N) (t : dtype) (key l : list byte) (dest : cval) : Prop :=
  idx_dest dest = true /\ cut_short fl pos total (vt_array t) key l.

Lemma plain_cut e t key dest pre post fl : len key <= 40 -> small_rs pre post ->
  trip_at fl (len pre) (len pre + len post) t key post dest -> d_er_read_plain e t key dest (rs_at pre post fl) = Throw.
Proof.
  intros Hk Hs (Hi & Hc). pose proof (vt_array_lt t) as Hvt.
  destruct dest; try discriminate Hi; cbn [d_er_read_plain]; rewrite array_cut; try assumption; reflexivity.
Qed.
Lemma plain_or e t key dest pre post fl : len key <= 40 -> 0 < len key -> small_rs pre post -> cval_ok t dest ->
  d_er_read_plain e t key dest (rs_at pre post fl) = er_read_plain e t key dest (rs_at pre post fl)
  \/ trip_at fl (len pre) (len pre + len post) t key post dest.
Proof.
  intros Hk Hk0 Hs Hd. pose proof (vt_array_pos t) as Hvt.
  destruct dest as [v|o|l|o|l ix|o]; cbn [d_er_read_plain er_read_plain].
  - left. rewrite d_read_single_eq; [reflexivity|assumption..].
  - left. rewrite d_read_single_eq; [reflexivity|try assumption..]. apply val_default_ok.
  - destruct (array_or e (vt_array t) (dshape t) key false l None pre post fl Hk Hk0 Hvt Hs) as [->|((x & X) & _)]; [left; reflexivity|discriminate].
  - destruct (array_or e (vt_array t) (dshape t) key true [] None pre post fl Hk Hk0 Hvt Hs) as [->|((x & X) & _)]; [left; reflexivity|discriminate].
  - destruct (array_or e (vt_array t) (dshape t) key false l (Some ix) pre post fl Hk Hk0 Hvt Hs) as [->|(_ & X)]; [left; reflexivity|].
    right. split; [reflexivity|exact X].
  - destruct (array_or e (vt_array t) (dshape t) key true [] (Some []) pre post fl Hk Hk0 Hvt Hs) as [->|(_ & X)]; [left; reflexivity|].
    right. split; [reflexivity|exact X].
Qed.
Lemma idx_dest_default t dest : idx_dest (cval_default t (cval_ctype dest)) = idx_dest dest.
Proof. destruct dest; reflexivity. Qed.
Lemma er_cut e t key dest pre post fl : len key <= 40 -> small_rs pre post ->
  trip_at fl (len pre) (len pre + len post) t key post dest -> d_er_read e t key dest (rs_at pre post fl) = Throw.
Proof.
  intros Hk Hs (Hi & Hc).
  assert (O : forall u, vt_array u = vt_array t -> d_er_read_override e u key dest (rs_at pre post fl) = Throw).
  { intros u Hu. unfold d_er_read_override. rewrite plain_cut; [reflexivity|exact Hk|exact Hs|].
    split; [rewrite idx_dest_default; exact Hi|rewrite Hu; exact Hc]. }
  destruct t; cbn [d_er_read]; try (apply plain_cut; [exact Hk|exact Hs|split; assumption]); apply O; reflexivity.
Qed.
Lemma er_or e t key dest pre post fl : len key <= 40 -> 0 < len key -> small_rs pre post -> cval_ok t dest ->
  d_er_read e t key dest (rs_at pre post fl) = er_read e t key dest (rs_at pre post fl)
  \/ trip_at fl (len pre) (len pre + len post) t key post dest.
Proof.
  intros Hk Hk0 Hs Hd.
  assert (O : forall u, vt_array u = vt_array t ->
    d_er_read_override e u key dest (rs_at pre post fl) = er_read_override e u key dest (rs_at pre post fl)
    \/ trip_at fl (len pre) (len pre + len post) t key post dest).
  { intros u Hu. unfold d_er_read_override, er_read_override.
    destruct (plain_or e u key (cval_default u (cval_ctype dest)) pre post fl Hk Hk0 Hs (cval_default_ok u _)) as [->|(Hi & Hc)];
      [left; reflexivity|right]. rewrite idx_dest_default in Hi. rewrite Hu in Hc. split; assumption. }
  destruct t; cbn [d_er_read er_read]; try (apply plain_or; assumption); apply O; reflexivity.
Qed.

(** ** Calls *)
Lemma rs_split (s : rstream) : rs_pos s <= len (rs_data s) ->
  exists pre post, s = rs_at pre post (rs_flip s) /\ len pre = rs_pos s /\ post = drop (rs_pos s) (rs_data s) /\
    len (rs_data s) = len pre + len post.
Proof.
  intros H. exists (take (rs_pos s) (rs_data s)), (drop (rs_pos s) (rs_data s)).
  assert (L : len (take (rs_pos s) (rs_data s)) = rs_pos s) by (rewrite len_take; lia).
  split; [destruct s as [d p f]; cbn [rs_data rs_pos rs_flip] in *; unfold rs_at; rewrite take_drop, L; reflexivity|].
  split; [exact L|]. split; [reflexivity|]. rewrite L, len_drop. lia.
Qed.


Lemma live_split h st : rlive h st -> exists x, split_at rf_id h (r_chain st) = Some x.
Proof.
  unfold rlive. induction (r_chain st) as [|f l IH]; cbn [map In split_at]; [intros []|]. intros [->|H].
  - rewrite N.eqb_refl. eexists. reflexivity.
  - destruct (rf_id f =? h); [eexists; reflexivity|]. destruct (IH H) as ([[a g] b] & ->). eexists. reflexivity.
Qed.
Lemma split_live h st x : split_at rf_id h (r_chain st) = Some x -> rlive h st.
Proof. destruct x as [[a f] b]. intros H. apply split_at_app in H. destruct H as (E & <- & _). unfold rlive. rewrite E, map_app. apply in_or_app. right. left. reflexivity. Qed.

Lemma d_rstep_trips e c st : rlegal c -> rs_pos (r_stream st) <= len (rs_data (r_stream st)) -> len (rs_data (r_stream st)) < 2^62 ->
  trips c st -> d_rstep e c st = Throw.
Proof.
  intros Hl Hp Hd Ht. destruct (rs_split _ Hp) as (pre & post & Es & Hpre & Epost & Hlen).
  assert (Hs : small_rs pre post) by (unfold small_rs, lim62; lia).
  destruct c as [h t key dest|h key nok|h arg|h key nok ix|h arg i opt|h arg i|h arg]; cbn [trips rlegal rkey] in *; try contradiction;
    unfold trips in Ht; cbn zeta in Ht; rewrite <- Epost, Hlen, <- Hpre in Ht.
  - destruct Ht as (Hlive & Hi & Hc). destruct (live_split _ _ Hlive) as (x & Ex). cbn [d_rstep]. unfold d_r_read. rewrite Ex, Es.
    rewrite er_cut; [reflexivity|exact (proj2 Hl)|exact Hs|split; assumption].
  - destruct ix as [ix|]; [|contradiction]. destruct Ht as ((a & f & Ech & Hid & Hn) & size & rest & Ep & Hsz & Ha & H0 & Hne & Hlt).
    pose proof (split_at_mid rf_id h a f [] Hid Hn) as S. rewrite <- Ech in S. cbn [d_rstep]. unfold d_r_begin_arr. rewrite S.
    change ((len pre + 9 + size) mod two64) with (add64 (len pre + 9) size) in *.
    rewrite Es, Ep, d_begin_read_eq by exact (proj2 Hl). rewrite Ep in Hs, Hlt.
    rewrite begin_read_cut; [|exact (proj2 Hl)|reflexivity|exact Hsz|exact Hs|lia].
    cbn [bind]. destruct (N.eqb_spec (add64 (len pre + 9) size) 0) as [X|_]; [lia|].
    rewrite rs_at_pos, len_app, len_header. rewrite len_cons, len_app, len_num, len_cons, len_app in Hlt. cbn [wbytes] in Hlt.
    destruct (N.eqb_spec (add64 (len pre + 9) size) (len pre + (10 + len key))) as [X|_]; [lia|].
    rewrite meta_cut; [reflexivity| |].
    + unfold small_rs in *. rewrite len_cons, len_app, len_num, len_cons, len_app in Hs. cbn [wbytes] in Hs.
      rewrite len_app, len_header. lia.
    + split; [exact Ha|]. rewrite len_app, len_header. lia.
Qed.

Lemma d_rstep_or e c st : rlegal c -> dest_fits c -> rs_pos (r_stream st) <= len (rs_data (r_stream st)) -> len (rs_data (r_stream st)) < 2^62 ->
  d_rstep e c st = rstep e c st \/ trips c st.
Proof.
  intros Hl Hf Hp Hd. destruct (rs_split _ Hp) as (pre & post & Es & Hpre & Epost & Hlen).
  assert (Hs : small_rs pre post) by (unfold small_rs, lim62; lia).
  destruct c as [h t key dest|h key nok|h arg|h key nok ix|h arg i opt|h arg i|h arg]; cbn [trips rlegal rkey dest_fits] in *;
    try (left; reflexivity); cbn [d_rstep rstep].
  - unfold d_r_read, r_read. destruct (split_at rf_id h (r_chain st)) as [x|] eqn:Ex; [|left; reflexivity].
    rewrite Es. destruct (er_or e t key dest pre post (rs_flip (r_stream st)) (proj2 Hl) (proj1 Hl) Hs Hf) as [->|(Hi & Hc)]; [left; reflexivity|].
    right. rewrite <- Es. split; [eapply split_live; exact Ex|]. split; [exact Hi|]. rewrite <- Epost, Hlen, <- Hpre. exact Hc.
  - left. unfold d_r_begin, r_begin. rewrite d_begin_read_eq by exact (proj2 Hl). reflexivity.
  - unfold d_r_begin_arr, r_begin_arr. destruct (split_at rf_id h (r_chain st)) as [[[a f] b]|] eqn:Ex; [|left; reflexivity].
    destruct b; [|left; reflexivity]. rewrite d_begin_read_eq by exact (proj2 Hl).
    pose proof (begin_read_gen e vt_array_subsection key pre post (rs_flip (r_stream st)) (proj2 Hl) (proj1 Hl) eq_refl Hs) as G.
    rewrite <- Es in G. destruct (begin_read e vt_array_subsection key (r_stream st)) as [[bend s1]| |]; cbn [wp bind] in *; try contradiction.
    destruct G as (Hw & H1).
    destruct (N.eqb_spec bend 0) as [->|Hne0]; [left; reflexivity|].
    destruct H1 as [?|H1]; [contradiction|].
    destruct (N.eqb_spec bend (rs_pos s1)) as [Hpe|Hpe]; [left; reflexivity|].
    destruct H1 as (bs & Hbs & Eb & Hle & [(rest & Ep & ->)|(k' & Hl' & Ep & ->)]).
    + rewrite Ep in Hs, Hle. assert (Hs1 : small_rs (pre ++ header (rs_flip (r_stream st)) vt_array_subsection bs key) rest) by (apply small_rs_shift; exact Hs).
      destruct (meta_or e (rf_size f) bend ix _ _ (rs_flip (r_stream st)) Hs1) as [->|((l & ->) & Ha & Hb)]; [left; reflexivity|].
      right. apply split_at_app in Ex. destruct Ex as (Ech & Hid & Hn). split; [exists a, f; auto|].
      rewrite <- Epost, Hlen, <- Hpre. exists bs, rest. rewrite Ep, header_split. split; [reflexivity|]. split; [exact Hbs|].
      split; [exact Ha|]. change ((len pre + 9 + bs) mod two64) with (add64 (len pre + 9) bs). rewrite <- Eb.
      rewrite rs_at_pos, len_app, len_header in Hpe. rewrite <- header_split, !len_app, len_header in *. lia.
    + left. assert (Hs1 : small_rs (pre ++ post) []) by (unfold small_rs in *; rewrite len_app, len_nil; lia).
      destruct (meta_or e (rf_size f) bend ix _ _ (rs_flip (r_stream st)) Hs1) as [->|(_ & [(fg & r & E & _)|(_ & b & E & _)] & _)]; [reflexivity| |discriminate].
      exfalso. assert (X : len (@nil byte) = len (num W16 (rs_flip (r_stream st)) fg ++ r)) by (rewrite <- E; reflexivity).
      rewrite len_app, len_num, len_nil in X. cbn [wbytes] in X. lia.
Qed.

(** ** Successful reads *)

Lemma large_block_cut fl pos total vt key p rest : len key <= 40 -> vt < 256 -> pos + len (large_block fl vt key p ++ rest) < 2^62 ->
  cut_short fl pos total vt key (large_block fl vt key p ++ rest) -> p <> [] /\ len p < 10.
Proof.
  intros Hk Hvt Hl (size & r & E & Hsz & _ & H0 & Hne & Hlt). rewrite len_app, len_large_block in Hl.
  unfold large_block in E. cbn [app] in E. injection E as E. rewrite <- app_assoc in E.
  assert (Es : size = 1 + len key + len p).
  { apply (num_inj W64 fl); [exact Hsz|change (256 ^ wbytes W64) with two64; unfold two64; lia|].
    apply app_inv_len in E; [symmetry; exact (proj1 E)|rewrite !len_num; reflexivity]. }
  subst size. rewrite N.mod_small in * by (unfold two64; lia). split; [|lia].
  intros ->. rewrite len_nil in *. lia.
Qed.

Lemma vt_differ t : vt_single t <> vt_array t.
Proof. destruct t; cbn; lia. Qed.
Lemma first_differs t (l l' : list byte) : n2b (vt_single t) :: l = n2b (vt_array t) :: l' -> False.
Proof. intros E. injection E as E _. apply n2b_inj in E; [exact (vt_differ t E)|apply vt_single_lt|apply vt_array_lt]. Qed.

Lemma single_not_cut eos fl pos total t key bs v rest : single_accepts eos fl t key bs v ->
  cut_short fl pos total (vt_array t) key (bs ++ rest) -> False.
Proof.
  intros H (size & r & E & _).
  assert (X : exists l, bs = n2b (vt_single t) :: l).
  { destruct v as [x|]; cbn [single_accepts] in H.
    - destruct H as (p & _ & ->). destruct (dshape t); eexists; reflexivity.
    - destruct (dshape t); [subst bs; eexists; reflexivity| |subst bs; eexists; reflexivity].
      destruct H as [->|(_ & n & k' & _ & ->)]; eexists; reflexivity. }
  destruct X as (l & ->). exact (first_differs _ _ _ E).
Qed.
Lemma array_not_cut eos fl pos total t key bs a rest : len key <= 40 -> pos + len (bs ++ rest) < 2^62 -> (eos = true -> rest = []) ->
  array_accepts eos fl t key bs a -> cut_short fl pos total (vt_array t) key (bs ++ rest) -> False.
Proof.
  intros Hk Hl He H Hc. pose proof (vt_array_lt t) as Hvt.
  destruct a as [[items ix]|]; cbn [array_accepts] in H.
  - destruct H as (p & (fg & body & _ & _ & _ & _ & _ & _ & Ep) & ->).
    apply large_block_cut in Hc; [|assumption..]. destruct Hc as (_ & Hlt). rewrite Ep, !len_app, !len_num in Hlt. cbn [wbytes] in Hlt. lia.
  - destruct H as [->|(-> & n & k' & Hlk & ->)].
    + apply large_block_cut in Hc; [|assumption..]. destruct Hc as (X & _). apply X. reflexivity.
    + rewrite (He eq_refl), app_nil_r in Hc. destruct Hc as (size & r & E & _).
      apply (f_equal len) in E. rewrite !len_cons, !len_app, !len_cons, len_app, !len_num in E. lia.
Qed.
Lemma accepts_not_cut eos fl pos total t key bs w rest : len key <= 40 -> pos + len (bs ++ rest) < 2^62 -> (eos = true -> rest = []) ->
  accepts eos fl t key bs w -> cut_short fl pos total (vt_array t) key (bs ++ rest) -> False.
Proof.
  intros Hk Hl He. destruct w; cbn [accepts]; intros H Hc; (eapply single_not_cut; eassumption) || (eapply array_not_cut; eassumption).
Qed.

Lemma read_success_same e t key dest data pos fl v s' :
  pos <= len data -> len data < 2^62 -> e_lim e < 2^60 -> 0 < len key -> len key <= 40 -> cval_ok t dest ->
  er_read e t key dest (RS data pos fl) = Done (true, v, s') -> d_er_read e t key dest (RS data pos fl) = Done (true, v, s').
Proof.
  intros Hp Hd He Hk0 Hk Hok E.
  destruct (rs_split (RS data pos fl) Hp) as (pre & post & Es & Hpre & Epost & Hlen). cbn [rs_data rs_pos rs_flip] in *.
  assert (Hs : small_rs pre post) by (unfold small_rs, lim62; lia).
  rewrite Es. destruct (er_or e t key dest pre post fl Hk Hk0 Hs Hok) as [->|(Hi & Hc)]; [rewrite <- Es; exact E|].
  exfalso. pose proof (t_reader_total e t key dest data pos fl Hp Hd He Hk0 Hk Hok) as T. rewrite E in T.
  destruct T as (_ & n & Hn & _ & T). destruct (T eq_refl) as (w & Ha & _).
  rewrite <- Epost in Ha. pose proof (take_drop n post) as TD. rewrite <- TD in Hc.
  refine (accepts_not_cut _ _ _ _ _ _ _ _ _ Hk _ _ Ha Hc).
  - rewrite TD. lia.
  - intros X. apply N.eqb_eq in X. assert (L : len (drop n post) = 0) by (rewrite len_drop; lia).
    apply len_length in L. destruct (drop n post); [reflexivity|discriminate].
Qed.

(** ** Keys that are too long *)
Lemma d_read_pod_long e vt k n key empty_ok dest pre post fl : 40 < len key -> len key < 256 -> small_rs pre post ->
  wp (d_read_pod e vt k n key empty_ok dest (rs_at pre post fl)) (fun r => fst (fst r) = SFail) True.
Proof.
  intros H1 H2 Hs. unfold d_read_pod. apply wp_bind. eapply wp_impl; [apply rs_u8_gen; exact Hs| |tauto].
  intros [v s1] _. destruct (negb (v =? vt)); [reflexivity|]. unfold check at 1. change max_key with 40. rewrite klen_long by assumption. exact I.
Qed.
Lemma d_begin_read_long e vt key s : 40 < len key -> len key < 256 -> d_begin_read e vt key s = Throw.
Proof. intros H1 H2. unfold d_begin_read, check. change max_key with 40. rewrite klen_long by assumption. reflexivity. Qed.
Lemma d_er_read_long e t key dest pre post fl : 40 < len key -> len key < 256 -> small_rs pre post ->
  wp (d_er_read e t key dest (rs_at pre post fl)) (fun r => fst (fst r) = false) True.
Proof.
  intros H1 H2 Hs.
  assert (S : forall vt h ok d, wp (d_read_single e vt h key ok d (rs_at pre post fl)) (fun r => fst (fst r) = SFail) True).
  { intros vt h ok d. destruct h as [| |k n]; cbn [d_read_single]; apply wp_bind.
    - unfold d_read_bool. apply wp_bind. eapply wp_impl; [apply d_read_pod_long; assumption| |tauto].
      intros [[st x] s1] E. cbn in E. subst st. reflexivity.
    - unfold d_read_string. rewrite d_begin_read_long by assumption. exact I.
    - eapply wp_impl; [apply d_read_pod_long; assumption| |tauto]. intros [[st x] s1] E. exact E. }
  assert (A : forall vt h ok d ix, d_read_array e vt h key ok d ix (rs_at pre post fl) = Throw).
  { intros. unfold d_read_array. rewrite d_begin_read_long by assumption. reflexivity. }
  assert (P : forall u d, wp (d_er_read_plain e u key d (rs_at pre post fl)) (fun r => fst (fst r) = false) True).
  { intros u d. destruct d; cbn [d_er_read_plain]; rewrite ?A; try exact I;
    (apply wp_bind; eapply wp_impl; [apply S| |tauto]; intros [[st x] s1] E; cbn in E; subst st; reflexivity). }
  assert (O : forall u, wp (d_er_read_override e u key dest (rs_at pre post fl)) (fun r => fst (fst r) = false) True).
  { intros u. unfold d_er_read_override. apply wp_bind. eapply wp_impl; [apply P| |tauto].
    intros [[ok x] s1] E. cbn in E. subst ok. reflexivity. }
  destruct t; cbn [d_er_read]; apply P || apply O.
Qed.

Lemma debug_reader_safe e t key dest data pos fl :
  pos <= len data -> len data < 2^62 -> e_lim e < 2^60 -> 0 < len key -> len key < 256 -> cval_ok t dest ->
  d_er_read e t key dest (RS data pos fl) = Undef ->
  len key <= 40 /\ (is_array dest /\ multi_component t) /\ count_damage fl t key (drop pos data).
Proof.
  intros Hp Hd He Hk0 Hk Hok E.
  destruct (rs_split (RS data pos fl) Hp) as (pre & post & Es & Hpre & Epost & Hlen). cbn [rs_data rs_pos rs_flip] in *.
  assert (Hs : small_rs pre post) by (unfold small_rs, lim62; lia).
  destruct (N.lt_ge_cases 40 (len key)) as [Hl|Hl].
  - exfalso. pose proof (d_er_read_long e t key dest pre post fl Hl Hk Hs) as W. rewrite <- Es, E in W. exact W.
  - split; [exact Hl|]. destruct (er_or e t key dest pre post fl Hl Hk0 Hs Hok) as [X|X].
    + rewrite <- Es, E in X. pose proof (t_reader_total e t key dest data pos fl Hp Hd He Hk0 Hl Hok) as T. rewrite <- X in T. exact T.
    + exfalso. apply (er_cut e) in X; [|exact Hl|exact Hs]. rewrite <- Es, E in X. discriminate.
Qed.

(** ** Tables *)
Lemma begin_arr_handle e h key ix st c size ix' st' :
  r_begin_arr e h key false ix st = Done (c, size, true, ix', st') -> c <> None.
Proof.
  unfold r_begin_arr. destruct (split_at rf_id h (r_chain st)) as [[[a f] b]|]; [|discriminate].
  destruct b; [|discriminate]. destruct (begin_read _ _ _ _) as [[endp s1]| |]; cbn [bind]; try discriminate.
  destruct (endp =? 0); [discriminate|]. destruct (endp =? rs_pos s1); [cbn; discriminate|].
  destruct (read_meta _ _ _ _ _) as [[[[[ok per] count] ix1] s2]| |]; cbn [bind]; try discriminate.
  destruct ok; cbn [negb]; [|discriminate]. intros H. injection H as <- _ _ _. discriminate.
Qed.
