(** * The array and value writers produce the blocks of Format.v. *)
From Verif Require Import Base Bytes BytesFacts Values Streams FileSpec StreamFacts StreamProps Types Format EntityWriter EntityWriterFacts PackFacts.
Open Scope N_scope.

Definition items_bytes (fl : bool) (h : shape) (items : list val) : list byte :=
  match h with
  | ShPod k n => element_bytes k (len items * n) fl (flat_map the_image items)
  | ShBool => packed (map the_bool items)
  | ShString => flat_map (fun v => string_bytes fl (the_string v)) items
  end.
Definition h_per_item (h : shape) : N := match h with ShPod k _ => ksize k | _ => 0 end.
Definition h_count (h : shape) (items : list val) : N :=
  match h with ShPod _ n => len items * n | _ => len items end.
Lemma array_payload_split fl h items ix :
  array_payload fl h items ix = meta_bytes fl (h_per_item h) (h_count h items) ix ++ items_bytes fl h items.
Proof.
  unfold array_payload, meta_bytes, h_per_item, h_count, items_bytes.
  rewrite <- !app_assoc. destruct h; reflexivity.
Qed.

Definition h_ok (h : shape) : Prop := match h with ShPod k n => 0 < n | _ => True end.
Lemma dshape_ok t : h_ok (dshape t).
Proof. destruct t as [|[]|[]|[]|[] []|[] []|[] []|[] []|[]| | | | |]; cbn; lia. Qed.
Lemma pod_size_small t k n : dshape t = ShPod k n -> n * ksize k <= 128.
Proof.
  destruct t as [|[]|[]|[]|[] []|[] []|[] []|[] []|[]| | | | |]; cbn; intros H; try discriminate;
    inversion H; subst; cbn; lia.
Qed.

Lemma pods_image_eq l : pods_image l = flat_map the_image l.
Proof. reflexivity. Qed.
Lemma len_flat_image k n l : Forall (shape_ok (ShPod k n)) l ->
  len (flat_map the_image l) = len l * n * ksize k.
Proof.
  induction 1 as [|v l Hv H IH]; [reflexivity|].
  cbn [flat_map]. rewrite len_app, IH, len_cons. destruct v; cbn in Hv; try contradiction.
  cbn [the_image]. rewrite Hv. lia.
Qed.

Lemma len_string_bytes fl s : len (string_bytes fl s) = 8 + len s.
Proof. unfold string_bytes. rewrite len_app, len_num. reflexivity. Qed.

Lemma len_items_bytes_count h fl l : Forall (shape_ok h) l -> h_ok h -> len l <= 8 * len (items_bytes fl h l).
Proof.
  intros H Hh. destruct h as [| |k n]; cbn [items_bytes].
  - rewrite len_packed, len_map. pose proof (N.div_mod (len l + 7) 8 ltac:(lia)) as H1.
    pose proof (N.mod_lt (len l + 7) 8 ltac:(lia)) as H2. lia.
  - clear. induction l as [|v l IH]; [apply N.le_0_l|].
    cbn [flat_map]. rewrite len_app, len_cons, len_string_bytes. lia.
  - rewrite len_element_bytes by (apply len_flat_image; exact H).
    pose proof (ksize_pos k). unfold h_ok in Hh. set (q := ksize k) in *. assert (1 <= n * q) by nia. nia.
Qed.

Lemma val_bool_the : map val_bool = map the_bool. Proof. reflexivity. Qed.

Lemma write_strings_at : forall l vsize s c fl lim,
  ws_at s c fl lim -> 2 * (len c + len (flat_map (string_bytes fl) l)) <= lim ->
  vsize + len (flat_map (string_bytes fl) l) - 8 * len l < two64 ->
  exists s', write_strings l vsize s = Done (vsize + len (flat_map (string_bytes fl) l) - 8 * len l, s') /\
    ws_at s' (c ++ flat_map (string_bytes fl) l) fl lim.
Proof.
  assert (Hge : forall fl (l : list (list byte)), 8 * len l <= len (flat_map (string_bytes fl) l)).
  { intros fl l. induction l as [|x l IH]; [apply N.le_0_l|]. cbn [flat_map].
    rewrite len_app, len_cons, len_string_bytes. lia. }
  induction l as [|str l IH]; intros vsize s c fl lim H Hlim Hv.
  - exists s. cbn [write_strings flat_map]. rewrite app_nil_r. split; [|exact H].
    rewrite (@len_nil byte), (@len_nil (list byte)). f_equal. f_equal. lia.
  - cbn [flat_map write_strings] in *. rewrite len_app, len_string_bytes in Hlim, Hv.
    rewrite len_cons in Hv. specialize (Hge fl l).
    destruct (ws_u64_at (len str) s c fl lim H) as (s1 & E1 & H1); [lia|]. rewrite E1. cbn [bind].
    assert (HX : exists s2, (if 0 <? len str then ws_write (KW W8) (len str) str s1 else Done s1) = Done s2 /\
        ws_at s2 (c ++ string_bytes fl str) fl lim).
    { unfold string_bytes. destruct (N.ltb_spec 0 (len str)) as [Hpos|Hz].
      - destruct (ws_bytes_at str s1 _ fl lim H1) as (s3 & E3 & H3).
        { rewrite !len_app, len_enc. cbn [wbytes]. lia. }
        exists s3. split; [exact E3|]. rewrite <- !app_assoc in H3. exact H3.
      - exists s1. split; [reflexivity|]. assert (Hz' : len str = 0) by lia. apply len_0 in Hz'. subst str.
        rewrite app_nil_r. exact H1. }
    destruct HX as (s2 & E2 & H2). rewrite E2. cbn [bind].
    rewrite add64_small by lia.
    destruct (IH (vsize + len str) s2 (c ++ string_bytes fl str) fl lim H2) as (s3 & E3 & H3).
    { rewrite len_app, len_string_bytes. lia. } { lia. }
    exists s3. rewrite E3, <- app_assoc in *. split; [|exact H3].
    rewrite len_app, len_string_bytes, len_cons. f_equal. f_equal. lia.
Qed.

Lemma write_items_at h items ix s c fl lim :
  ws_at s c fl lim -> Forall (shape_ok h) items -> len items < 2^63 -> h_ok h ->
  (match ix with Some l => ix_ok l | None => True end) ->
  2 * (len c + len (array_payload fl h items ix)) <= lim ->
  exists s', write_items h items ix s = Done (true, s') /\
    ws_at s' (c ++ array_payload fl h items ix) fl lim.
Proof.
  intros H Hi Hcnt Hh Hix Hlim. pose proof (ws_at_lim _ _ _ _ H) as Hl64.
  rewrite array_payload_split in *. rewrite len_app, len_meta_bytes in Hlim.
  destruct h as [| |k n]; cbn [h_per_item h_count items_bytes write_items] in *.
  - destruct (write_meta_at 0 (len items) ix s c fl lim H) as (s1 & E1 & H1); [lia|exact Hix|lia|].
    rewrite E1. cbn [bind negb].
    destruct (N.ltb_spec 0 (len items)) as [Hpos|Hz].
    + rewrite !add64_small with (b := 7) by (unfold two64; lia).
      change (map val_bool items) with (map the_bool items).
      replace (len items) with (len (map the_bool items)) by apply len_map.
      rewrite pack_loop_packed. cbn [bind]. rewrite <- len_packed.
      destruct (ws_bytes_at (packed (map the_bool items)) s1 _ fl lim H1) as (s2 & E2 & H2).
      { rewrite len_app, len_meta_bytes. lia. }
      rewrite E2. cbn [bind]. exists s2. split.
      * rewrite (ws_at_pos _ _ _ _ H2), (ws_at_pos _ _ _ _ H1). rewrite !len_app, len_meta_bytes.
        u64_simpl. f_equal. f_equal. apply N.eqb_eq. lia.
      * rewrite len_map, app_assoc. exact H2.
    + exists s1. split; [reflexivity|]. assert (Hz' : len items = 0) by lia. apply len_0 in Hz'. subst items.
      rewrite app_nil_r. exact H1.
  - destruct (write_meta_at 0 (len items) ix s c fl lim H) as (s1 & E1 & H1); [lia|exact Hix|lia|].
    rewrite E1. cbn [bind negb].
    assert (Hfm : flat_map (fun v => string_bytes fl (the_string v)) items = flat_map (string_bytes fl) (map val_string items)).
    { clear. induction items as [|v l IH]; [reflexivity|]. cbn [flat_map map]. rewrite IH. reflexivity. }
    assert (H8 : 8 * len items <= len (flat_map (string_bytes fl) (map val_string items))).
    { rewrite <- Hfm. clear. induction items as [|v l IH]; [apply N.le_0_l|]. cbn [flat_map].
      rewrite len_app, len_string_bytes, len_cons. lia. }
    destruct (N.ltb_spec 0 (len items)) as [Hpos|Hz].
    + rewrite Hfm in *. rewrite (mul64_small 8 (len items)) by lia.
      destruct (write_strings_at (map val_string items) (8 * len items) s1 _ fl lim H1) as (s2 & E2 & H2).
      { rewrite len_app, len_meta_bytes. lia. } { rewrite len_map. lia. }
      rewrite E2. cbn [bind]. exists s2. split.
      * rewrite (ws_at_pos _ _ _ _ H2), (ws_at_pos _ _ _ _ H1). rewrite !len_app, len_meta_bytes, len_map.
        u64_simpl. f_equal. f_equal. apply N.eqb_eq. lia.
      * rewrite app_assoc. exact H2.
    + exists s1. split; [reflexivity|]. assert (Hz' : len items = 0) by lia. apply len_0 in Hz'. subst items.
      rewrite app_nil_r. exact H1.
  - pose proof (len_flat_image k n items Hi) as Hlen.
    rewrite len_element_bytes in Hlim by exact Hlen.
    pose proof (ksize_pos k) as Hks.
    rewrite (mul64_small (len items) n) by nia.
    destruct (write_meta_at (ksize k) (len items * n) ix s c fl lim H) as (s1 & E1 & H1);
      [destruct k as [[]| |]; cbn; lia|exact Hix|lia|].
    rewrite E1. cbn [bind negb].
    destruct (N.ltb_spec 0 (len items * n)) as [Hpos|Hz].
    + rewrite pods_image_eq.
      destruct (ws_write_at k (len items * n) (flat_map the_image items) s1 _ fl lim H1 Hlen) as (s2 & E2 & H2).
      { rewrite len_app, len_meta_bytes, Hlen. lia. }
      rewrite E2. cbn [bind]. exists s2. split.
      * rewrite (ws_at_pos _ _ _ _ H2), (ws_at_pos _ _ _ _ H1). rewrite !len_app, len_meta_bytes.
        rewrite len_wire, Hlen by exact Hlen.
        u64_simpl. f_equal. f_equal. apply N.eqb_eq. lia.
      * rewrite element_bytes_wire by exact Hlen. rewrite app_assoc. exact H2.
    + exists s1. split; [reflexivity|].
      replace (len items * n) with 0 by lia.
      unfold element_bytes, elements. cbn [N.to_nat chunks map flat_map]. rewrite app_nil_r.
      replace (len items * n) with 0 in H1 by lia. exact H1.
Qed.

Lemma write_array_at vt h key a s c fl lim :
  ws_at s c fl lim -> len key < 256 -> h_ok h ->
  (match a with Some (items, ix) => Forall (shape_ok h) items /\ len items < 2^63 /\
     match ix with Some l => ix_ok l | None => True end | None => True end) ->
  let payload := match a with Some (items, ix) => array_payload fl h items ix | None => [] end in
  2 * (len c + 10 + len key + len payload) <= lim ->
  exists s', write_array vt h key (option_map fst a) (match a with Some (_, ix) => ix | None => None end) s = Done (true, s') /\
    ws_at s' (c ++ large_block fl vt key payload) fl lim.
Proof.
  intros H Hk Hh Ha payload Hlim. unfold write_array. rewrite (ws_at_pos _ _ _ _ H).
  destruct (begin_write_at vt key s c fl lim H Hk) as (s1 & E1 & H1); [lia|].
  rewrite E1. cbn [bind negb].
  assert (HX : exists s2, (match option_map fst a with Some l => write_items h l (match a with Some (_, ix) => ix | None => None end) s1
      | None => Done (true, s1) end) = Done (true, s2) /\ ws_at s2 ((c ++ large_open fl vt key) ++ payload) fl lim).
  { destruct a as [[items ix]|]; cbn [option_map fst].
    - destruct Ha as (Hi & Hc & Hix). apply write_items_at; auto.
      rewrite len_app, len_large_open. unfold payload in *. lia.
    - exists s1. split; [reflexivity|]. unfold payload. rewrite app_nil_r. exact H1. }
  destruct HX as (s2 & E2 & H2). rewrite E2. cbn [bind negb].
  rewrite <- app_assoc in H2.
  apply end_write_at; [exact H2|lia|exact Hk].
Qed.

(** ** EntityWriter::Write *)
Lemma write_pod_none_at vt k n key s c fl lim :
  ws_at s c fl lim -> len key < 256 -> 2 * (len c + 2 + len key) <= lim ->
  exists s', write_pod vt k n key None s = Done (true, s') /\ ws_at s' (c ++ small_block vt key []) fl lim.
Proof.
  intros H Hk Hlim. pose proof (ws_at_pos _ _ _ _ H) as Hp. pose proof (ws_at_lim _ _ _ _ H) as Hl64.
  unfold write_pod. rewrite klen_small, kbytes_small by lia.
  destruct (ws_u8_at vt s c fl lim H) as (s1 & E1 & H1); [lia|]. rewrite E1. cbn [bind].
  destruct (ws_u8_at ((0 + len key) mod 256) s1 _ fl lim H1) as (s2 & E2 & H2).
  { rewrite len_app, len_enc. cbn [wbytes]. lia. } rewrite E2. cbn [bind].
  destruct (ws_bytes_at key s2 _ fl lim H2) as (s4 & E4 & H4).
  { rewrite !len_app, !len_enc. cbn [wbytes]. lia. }
  rewrite E4. cbn [bind]. exists s4. split.
  - rewrite (ws_at_pos _ _ _ _ H4), Hp. rewrite !len_app, !len_enc. cbn [wbytes].
    u64_simpl. f_equal. f_equal. apply N.eqb_eq. lia.
  - unfold small_block. rewrite <- !app_assoc in H4. rewrite <- !num_enc, !num_W8, n2b_mod in H4.
    rewrite len_nil. exact H4.
Qed.

Lemma len_encode_pos fl t key c : len key <= 40 -> 0 < len (encode fl t key c).
Proof.
  intros _. destruct c; cbn [encode]; unfold single_block, array_block; try destruct (dshape t);
    rewrite ?len_small_block, ?len_large_block; lia.
Qed.

Lemma write_single_at t key v s c fl lim :
  ws_at s c fl lim -> len key <= 40 -> (match v with Some x => val_ok t x | None => True end) ->
  2 * (len c + len (single_block fl t key v)) <= lim ->
  exists s', write_single (vt_single t) (dshape t) key v s = Done (true, s') /\
    ws_at s' (c ++ single_block fl t key v) fl lim.
Proof.
  intros H Hk Hv Hlim. unfold single_block, val_ok in *.
  pose proof (dshape_ok t) as Hok. pose proof (pod_size_small t) as Hsm.
  destruct (dshape t) as [| |k n] eqn:Esh; cbn [write_single].
  - unfold write_bool.
    assert (Hb : match (match option_map val_bool v with Some b => Some (le 1 (if b then 1 else 0)) | None => None end)
                 with Some img => element_bytes (KW W8) 1 fl img | None => [] end
            = match v with Some x => [if the_bool x then x01 else x00] | None => [] end).
    { destruct v as [x|]; [|reflexivity]. cbn [option_map]. rewrite le1, element_bytes_1.
      change (val_bool x) with (the_bool x). destruct (the_bool x); reflexivity. }
    (* the limit: a null value is written without its byte *)
    destruct v as [x|].
    + cbn [option_map] in *. rewrite len_small_block in Hlim. change (len [if the_bool x then x01 else x00]) with 1 in Hlim.
      destruct (write_pod_at (vt_single t) (KW W8) 1 key (Some (le 1 (if val_bool x then 1 else 0))) s c fl lim H) as (s1 & E1 & H1).
      { cbn. lia. } { lia. } { reflexivity. } { cbn [ksize wbytes]. lia. }
      rewrite Hb in H1. eauto.
    + rewrite len_small_block, len_nil in Hlim. cbn [option_map].
      destruct (write_pod_none_at (vt_single t) (KW W8) 1 key s c fl lim H) as (s1 & E1 & H1); [lia|lia|eauto].
  - assert (E : option_map val_string v = option_map the_string v) by reflexivity. rewrite E.
    destruct (write_string_at (vt_single t) key (option_map the_string v) s c fl lim H) as (s1 & E1 & H1).
    { lia. }
    { destruct v as [x|]; cbn [option_map]; rewrite len_large_block in Hlim; [rewrite len_string_bytes in Hlim|]; rewrite ?len_nil in Hlim; lia. }
    exists s1. split; [exact E1|]. destruct v; exact H1.
  - destruct v as [x|].
    + cbn in Hv. destruct x as [| |img]; try contradiction. cbn [option_map pod_image the_image] in *.
      rewrite len_small_block, len_element_bytes in Hlim by exact Hv.
      specialize (Hsm k n eq_refl).
      destruct (write_pod_at (vt_single t) k n key (Some img) s c fl lim H) as (s1 & E1 & H1); try lia; try exact Hv; eauto.
    + rewrite len_small_block, len_nil in Hlim. cbn [option_map].
      destruct (write_pod_none_at (vt_single t) k n key s c fl lim H) as (s1 & E1 & H1); [lia|lia|eauto].
Qed.

Lemma ew_write_at t key v s c fl lim :
  ws_at s c fl lim -> len key <= 40 -> cval_ok t v ->
  2 * (len c + len (encode fl t key v)) <= lim ->
  exists s', ew_write t key v s = Done (true, s') /\ ws_at s' (c ++ encode fl t key v) fl lim.
Proof.
  intros H Hk Hv Hlim. unfold ew_write.
  pose proof (dshape_ok t) as Hok.
  destruct v as [x|o|l|o|l ix|o]; cbn [encode cval_ok] in *.
  - apply write_single_at; assumption.
  - apply write_single_at; assumption.
  - unfold array_block in *. rewrite len_large_block in Hlim. destruct Hv as (Hv & Hc).
    apply (write_array_at (vt_array t) (dshape t) key (Some (l, None)) s c fl lim); try assumption; [lia|auto|lia].
  - unfold array_block in *. rewrite len_large_block in Hlim.
    destruct (write_array_at (vt_array t) (dshape t) key (match o with Some l => Some (l, None) | None => None end) s c fl lim)
      as (s1 & E1 & H1); try assumption; [lia|destruct o; [destruct Hv|]; auto|lia|].
    exists s1. split; [|exact H1]. destruct o; exact E1.
  - unfold array_block in *. rewrite len_large_block in Hlim. destruct Hv as ((Hv & Hc) & Hix).
    apply (write_array_at (vt_array t) (dshape t) key (Some (l, Some ix)) s c fl lim); try assumption; [lia|auto|lia].
  - unfold array_block in *. rewrite len_large_block in Hlim.
    destruct (write_array_at (vt_array t) (dshape t) key (match o with Some (l, ix) => Some (l, Some ix) | None => None end) s c fl lim)
      as (s1 & E1 & H1); try assumption; [lia|destruct o as [[l ix]|]; [destruct Hv as ((A & B) & C)|]; auto|lia|].
    exists s1. split; [|exact H1]. destruct o as [[l ix]|]; exact E1.
Qed.
