(** * Reading a value as another type, container or name. Proofs. *)
From Verif Require Import Base Bytes BytesFacts Values Streams FileSpec ReadSpec StreamFacts StreamProps Types Format
  Accept EntityWriter EntityReader EntityWriterFacts PackFacts ArrayWriterFacts EntityReaderFacts EntitySafety ArraySafety
  ReadTotal Items ItemSpec EntityProps EntityKeys EntityTheorems Sections Documents DocSpec SectionFacts SectionReadFacts SectionTheorems CodecFacts
  TruncSpec Truncation Containers EntityGen EntitySpec EvolveSpec.
Local Open Scope N_scope.

Lemma same_data_form t t' : vt_single t = vt_single t' -> dshape t = dshape t' -> same_data t t'.
Proof.
  unfold same_data.
  destruct t as [|[]|[]|[]|[] []|[] []|[] []|[] []|[]| | | | |]; destruct t' as [|[]|[]|[]|[] []|[] []|[] []|[] []|[]| | | | |];
    cbn; intros H1 H2; try discriminate; auto 8.
Qed.
Lemma same_data_spec t t' : same_data t t' -> vt_single t = vt_single t' /\ vt_array t = vt_array t' /\ dshape t = dshape t'.
Proof.
  intros [->|[[H H']|[H H']]]; auto; cbn in H, H'; destruct H as [<-|[<-|[]]], H' as [<-|[<-|[]]]; auto.
Qed.
Lemma vt_array_single t t' : vt_array t = vt_array t' -> vt_single t = vt_single t'.
Proof.
  destruct t as [|[]|[]|[]|[] []|[] []|[] []|[] []|[]| | | | |]; destruct t' as [|[]|[]|[]|[] []|[] []|[] []|[] []|[]| | | | |];
    cbn; intros; try reflexivity; discriminate.
Qed.

Lemma begin_other e vt vt' key key' payload pre post fl :
  len key' <= 40 -> 0 < len key' -> 0 < vt' -> len key < 256 -> vt < 256 -> vt' < 256 -> vt' <> vt \/ key' <> key ->
  len pre + len (large_block fl vt key payload) + len post < lim62 ->
  exists s', begin_read e vt' key' (rs_at pre (large_block fl vt key payload ++ post) fl) = Done (0, s').
Proof.
  intros Hk Hk0 Hvt Hk2 Hvt1 Hvt2 Hne Hs.
  assert (Hs' : small_rs pre (large_block fl vt key payload ++ post)) by (unfold small_rs; rewrite len_app; lia).
  destruct (wp_done _ _ (begin_read_gen e vt' key' pre _ fl Hk Hk0 Hvt Hs')) as ((ex & s') & Eb & _ & [->|B]); [eauto|].
  exfalso. destruct B as (bs & Hbs & _ & _ & B).
  rewrite len_large_block in Hs.
  destruct B as [(rest & E & _)|(k' & Hl & E & _)].
  - unfold large_block, header in E. cbn [app] in E. injection E as E1 E2. rewrite <- !app_assoc in E2.
    apply app_inv_len in E2; [|rewrite !len_num; reflexivity]. destruct E2 as (_ & E2). cbn [app] in E2. injection E2 as E3 E4.
    apply n2b_inj in E1; [|assumption..]. apply n2b_inj in E3; [|lia..].
    rewrite <- !app_assoc in E4. apply app_inv_len in E4; [|exact E3]. destruct E4 as (-> & _). subst. destruct Hne; congruence.
  - unfold large_block in E. cbn [app] in E. injection E as E1 E2. rewrite <- !app_assoc in E2.
    apply app_inv_len in E2; [|rewrite !len_num; reflexivity]. destruct E2 as (_ & E2). cbn [app] in E2. injection E2 as E3 E4.
    apply n2b_inj in E3; [|lia..]. apply (f_equal (@len byte)) in E4. rewrite !len_app in E4. lia.
Qed.

(** Small blocks. *)
Lemma single_fail e t key eo dest pre bs fl :
  dshape t <> ShString -> val_ok t dest -> len key <= 40 -> 0 < len key -> small_rs pre bs ->
  (forall pl rest, bs = small_block (vt_single t) key pl ++ rest -> (pl = [] /\ eo = true) \/ len pl = h_bytes (dshape t) -> False) ->
  exists d s', read_single e (vt_single t) (dshape t) key eo dest (rs_at pre bs fl) = Done (SFail, d, s').
Proof.
  intros Hns Hd Hk Hk0 Hs Hno. pose proof (vt_single_pos t) as P1. pose proof (vt_single_lt t) as P2.
  unfold val_ok in *. pose proof (dshape_ok t) as Hok. pose proof (pod_size_small t) as Hsm.
  assert (X : forall k n img, n * ksize k <= 128 -> 0 < n -> len img = n * ksize k -> h_bytes (dshape t) = n * ksize k ->
    exists d s', read_pod e (vt_single t) k n key eo img (rs_at pre bs fl) = Done (SFail, d, s')).
  { intros k n img H1 H2 H3 Hh.
    destruct (wp_done _ _ (read_pod_gen e (vt_single t) k n key eo img pre bs fl Hk Hk0 P1 H1 H2 H3 Hs)) as (((st & d) & s') & Er & _ & Hl & B).
    destruct st; [eauto| |]; exfalso.
    - destruct B as (B0 & rest & B & _). exact (Hno _ _ B (or_introl (conj eq_refl B0))).
    - destruct B as (rest & B & _). apply (Hno _ _ B). right. rewrite len_element_bytes by congruence. congruence. }
  destruct (dshape t) as [| |k n] eqn:Es; cbn [read_single].
  - unfold read_bool. destruct (X (KW W8) 1 (junk e 1)) as (d & s' & ->); [vm_compute; discriminate|lia|rewrite len_junk; reflexivity|reflexivity|]. cbn [bind]. eauto.
  - contradiction.
  - destruct dest as [|s|img]; cbn in Hd; try contradiction. cbn [pod_image].
    destruct (X k n img) as (d & s' & ->); [eapply Hsm; reflexivity|exact Hok|exact Hd|reflexivity|]. cbn [bind]. eauto.
Qed.

Lemma plain_fail e t key dest s : cval_ok t dest ->
  (forall d, cval_ctype d = cval_ctype dest -> forall u, vt_single u = vt_single t -> vt_array u = vt_array t -> dshape u = dshape t -> cval_ok u d ->
     exists x s', er_read_plain e u key d s = Done (false, x, s')) ->
  exists x s', er_read e t key dest s = Done (false, x, s').
Proof.
  intros Hd H. unfold er_read. destruct t; try (apply H; auto);
    unfold er_read_override; match goal with |- context [er_read_plain e ?u key ?d s] => destruct (H d (cval_default_ctype _ _) u eq_refl eq_refl eq_refl (cval_default_ok _ _)) as (x & s' & ->) end;
    cbn [bind negb]; eauto.
Qed.

Lemma read_array_begin e vt h key eo dest ix s s' : begin_read e vt key s = Done (0, s') ->
  read_array e vt h key eo dest ix s = Done (SFail, dest, ix, s').
Proof. intros E. unfold read_array. rewrite E. cbn [bind]. rewrite N.eqb_refl. reflexivity. Qed.
Lemma read_string_begin e vt key eo dest s s' : begin_read e vt key s = Done (0, s') ->
  read_string e vt key eo dest s = Done (SFail, dest, s').
Proof. intros E. unfold read_string. rewrite E. cbn [bind]. rewrite N.eqb_refl. reflexivity. Qed.

(** A large block of another type or name. *)
Lemma other_large e t key' dest vt key payload pre post fl :
  cval_ok t dest -> len key' <= 40 -> 0 < len key' -> len key < 256 -> vt < 256 ->
  type_byte t (cval_ctype dest) <> vt \/ key' <> key -> large t (cval_ctype dest) = true ->
  len pre + len (large_block fl vt key payload) + len post < lim62 ->
  exists x s', er_read e t key' dest (rs_at pre (large_block fl vt key payload ++ post) fl) = Done (false, x, s').
Proof.
  intros Hd Hk Hk0 Hk2 Hvt Hne Hl Hs. apply plain_fail; [exact Hd|]. intros d Hc u U1 U2 U3 Hu.
  assert (Hb : forall vt', 0 < vt' -> vt' < 256 -> type_byte t (cval_ctype dest) = vt' -> exists s', begin_read e vt' key' (rs_at pre (large_block fl vt key payload ++ post) fl) = Done (0, s')).
  { intros vt' A B <-. apply begin_other; assumption. }
  rewrite <- Hc in Hb, Hl.
  pose proof (vt_single_pos u). pose proof (vt_single_lt u). pose proof (vt_array_pos u). pose proof (vt_array_lt u).
  destruct d as [v|o|l|o|l ix|o]; cbn [cval_ctype type_byte large er_read_plain] in *.
  1,2: destruct t; try discriminate Hl; rewrite U3; destruct (Hb (vt_single u)) as (s' & E); [assumption|assumption|congruence|];
    cbn [read_single dshape]; rewrite (read_string_begin _ _ _ _ _ _ _ E); cbn [bind st_ok]; eauto.
  all: destruct (Hb (vt_array u)) as (s' & E); [assumption|assumption|congruence|];
    rewrite (read_array_begin _ _ _ _ _ _ _ _ _ E); cbn [bind st_ok]; eauto.
Qed.
Lemma large_shape t c : large t c = false -> dshape t <> ShString /\ (c = CtNone \/ c = CtOpt).
Proof. destruct c; cbn; try discriminate; destruct t; cbn; try discriminate; split; auto; discriminate. Qed.
(** A small block of another name, or with another size. *)
Lemma other_small e t key' dest key payload pre post fl :
  cval_ok t dest -> len key' <= 40 -> 0 < len key' -> len key <= 40 -> len payload <= 128 -> large t (cval_ctype dest) = false ->
  (forall pl, payload ++ key = pl ++ key' -> (pl = [] /\ is_optional dest) \/ len pl = h_bytes (dshape t) -> False) ->
  len pre + len (small_block (type_byte t (cval_ctype dest)) key payload) + len post < lim62 ->
  exists x s', er_read e t key' dest (rs_at pre (small_block (type_byte t (cval_ctype dest)) key payload ++ post) fl) = Done (false, x, s').
Proof.
  intros Hd Hk Hk0 Hk2 Hp Hl Hno Hs. apply plain_fail; [exact Hd|]. intros d Hc u U1 U2 U3 Hu.
  destruct (large_shape _ _ Hl) as [Hns Hct].
  assert (Hs' : small_rs pre (small_block (type_byte t (cval_ctype dest)) key payload ++ post)) by (unfold small_rs; rewrite len_app; lia).
  assert (Htb : type_byte t (cval_ctype dest) = vt_single u) by (destruct Hct as [->| ->]; cbn; congruence). rewrite Htb in *.
  assert (Hh : h_bytes (dshape t) <= 128).
  { pose proof (pod_size_small t) as Hsm. destruct (dshape t); cbn; try lia. apply (Hsm _ _ eq_refl). }
  assert (G : forall eo x, val_ok u x -> (eo = true -> is_optional dest) -> exists y s', read_single e (vt_single u) (dshape u) key' eo x (rs_at pre (small_block (vt_single u) key payload ++ post) fl) = Done (SFail, y, s')).
  { intros eo x Hx Heo. apply single_fail; try assumption; [congruence|]. intros pl rest E B.
    assert (len pl <= 128) by (rewrite U3 in B; destruct B as [[-> _]| ->]; [rewrite len_nil; lia|exact Hh]).
    apply small_block_inj in E; [|apply vt_single_lt|apply vt_single_lt|lia|lia]. destruct E as (_ & E & _).
    apply (Hno pl E). rewrite <- U3. destruct B as [[-> B]|B]; [left|right]; auto. }
  destruct d as [v|o|l|o|l ix|o]; cbn [cval_ctype] in Hc; try (exfalso; destruct Hct; congruence); cbn [er_read_plain].
  - destruct (G false v Hu ltac:(discriminate)) as (y & s' & ->). cbn [bind st_ok]. eauto.
  - destruct (G true (val_default (dshape u)) (val_default_ok u)) as (y & s' & ->); [|cbn [bind st_ok]; eauto].
    intros _. destruct dest; try discriminate Hc. exact Logic.I.
Qed.

(** An array with another component size, or with an index instead of without one. *)
Lemma read_meta_wrong e c0 bend p n ix dix pre post fl :
  p < 256 -> n < two64 -> (match ix, dix with Some _, None | None, Some _ => True | _, _ => False end) ->
  len pre + len (meta_bytes fl p n ix) + len post < two64 ->
  exists a b c s', read_meta e c0 bend dix (rs_at pre (meta_bytes fl p n ix ++ post) fl) = Done (false, a, b, c, s').
Proof.
  intros Hp Hn Hd Hs. unfold read_meta, meta_bytes in *.
  set (b := match ix with Some _ => true | None => false end).
  assert (Eb : match ix with Some _ => 256 | None => 0 end = if b then 256 else 0) by (destruct ix; reflexivity).
  rewrite Eb in *. destruct (flag_bits p b Hp) as (F1 & F2).
  rewrite <- !app_assoc. rewrite !len_app, !len_num in Hs. cbn [wbytes] in Hs.
  rewrite rs_u16n; [|destruct b; lia|rewrite !len_app, !len_num; cbn [wbytes]; lia].
  cbn [bind]. rewrite land_low by exact Hp. rewrite F1, F2.
  rewrite rs_u64n; [|lia|rewrite !len_app, !len_num; cbn [wbytes]; lia].
  cbn [bind]. destruct ix as [l|], dix as [dl|]; try contradiction; subst b; cbv iota; eauto 6.
Qed.
Lemma ksize_lt k : ksize k < 256.
Proof. destruct k as [[]| |]; cbn; lia. Qed.
Lemma other_array e t u key dest ix dix eo items pre post fl :
  len key <= 40 -> vt_array u = vt_array t -> vec_ok t items -> (match ix with Some l => ix_ok l | None => True end) ->
  (match ix, dix with Some _, Some _ | None, None => dshape u <> dshape t | _, _ => True end) ->
  4 * len (array_block fl t key (Some (items, ix))) <= e_lim e ->
  len pre + len (array_block fl t key (Some (items, ix))) + len post < lim62 ->
  exists d i s', read_array e (vt_array u) (dshape u) key eo dest dix (rs_at pre (array_block fl t key (Some (items, ix)) ++ post) fl) = Done (SFail, d, i, s').
Proof.
  intros Hk Hvt [Hit Hln] Hix Hne Hal Hs. unfold array_block in *. unfold read_array. rewrite Hvt.
  rewrite begin_read_ok; [|exact Hk|apply vt_array_lt|unfold lim62, two64 in *; lia]. cbn [bind].
  pose proof (len_large_block fl (vt_array t) key (array_payload fl (dshape t) items ix)) as HL.
  set (p := h_elem (dshape t)).
  set (n := h_count (dshape t) items). set (bdy := items_bytes fl (dshape t) items).
  assert (Ep : array_payload fl (dshape t) items ix = meta_bytes fl p n ix ++ bdy).
  { unfold array_payload, meta_bytes, p, h_elem, n, bdy, h_count, items_bytes. destruct (dshape t); rewrite <- !app_assoc; reflexivity. }
  assert (Hp : p < 256) by (unfold p, h_elem; destruct (dshape t); try lia; apply ksize_lt).
  rewrite Ep, len_app in HL. rewrite Ep.
  assert (Hm : len (meta_bytes fl p n ix) = meta_len ix) by apply len_meta_bytes.
  assert (Hn : n < two64) by (apply (h_count_bound (dshape t) fl items Hit Hln); fold bdy; rewrite Ep in Hs; unfold lim62, two64 in *; lia).
  destruct (N.eqb_spec (len pre + len (large_block fl (vt_array t) key (meta_bytes fl p n ix ++ bdy))) 0) as [X|_]; [lia|].
  rewrite rs_at_pos, len_app, len_large_head.
  destruct (N.eqb_spec (len pre + len (large_block fl (vt_array t) key (meta_bytes fl p n ix ++ bdy))) (len pre + (10 + len key))) as [X|_].
  { unfold meta_len in Hm. lia. }
  rewrite <- app_assoc.
  assert (Hlm : len pre + len (large_block fl (vt_array t) key (meta_bytes fl p n ix ++ bdy)) < two64) by (rewrite Ep in Hs; unfold lim62, two64 in *; lia).
  destruct (match ix, dix with Some _, None | None, Some _ => true | _, _ => false end) eqn:Em.
  - destruct (read_meta_wrong e 0 (len pre + len (large_block fl (vt_array t) key (meta_bytes fl p n ix ++ bdy))) p n ix dix
      (pre ++ large_head fl (vt_array t) key (len (meta_bytes fl p n ix ++ bdy))) (bdy ++ post) fl Hp Hn) as (a & b & c & s' & ->).
    + destruct ix, dix; try discriminate; exact Logic.I.
    + rewrite !len_app, len_large_head. rewrite Ep in Hs. unfold lim62, two64 in *. lia.
    + cbn [bind negb]. eauto.
  - rewrite read_meta_ok; try assumption.
    + cbn [bind negb]. assert (Hsh : dshape u <> dshape t) by (destruct ix, dix; try discriminate; exact Hne).
      assert (Hel : h_elem (dshape u) <> h_elem (dshape t)) by (intros X; apply Hsh; apply layout_array; assumption).
      assert (Hpu : exists k c, dshape u = ShPod k c).
      { destruct u as [|[]|[]|[]|[] []|[] []|[] []|[] []|[]| | | | |]; cbn; eauto; exfalso; apply Hsh;
          destruct t as [|[]|[]|[]|[] []|[] []|[] []|[] []|[]| | | | |]; cbn in Hvt; try discriminate; reflexivity. }
      destruct Hpu as (k & c & Eu). rewrite Eu in *. cbn [read_items]. cbn [h_elem] in Hel. fold p in Hel.
      destruct (N.eqb_spec (ksize k) p) as [X|_]; [contradiction|]. cbn [negb bind]. eauto.
    + destruct ix as [l|]; [|exact Logic.I]. split; [exact Hix|]. unfold meta_len in Hm. rewrite Ep in Hal. lia.
    + destruct ix, dix; try discriminate; exact Logic.I.
    + rewrite !len_app, len_large_head. rewrite Ep in Hs. unfold lim62, two64 in *. lia.
    + rewrite len_app, len_large_head. lia.
Qed.

(** ** Values *)
Definition single (c : ctype) : bool := match c with CtNone | CtOpt => true | _ => false end.
Lemma byte_family t c t' c' : type_byte t c = type_byte t' c' -> single c = single c'.
Proof.
  destruct c, c'; try reflexivity; destruct t as [|[]|[]|[]|[] []|[] []|[] []|[] []|[]| | | | |];
    destruct t' as [|[]|[]|[]|[] []|[] []|[] []|[] []|[]| | | | |]; cbn; discriminate.
Qed.
Lemma byte_same t t' c c' : single c = single c' -> type_byte t c = type_byte t' c -> type_byte t c' = type_byte t' c'.
Proof. destruct c, c'; try discriminate; auto. Qed.
Lemma byte_vt t t' c : type_byte t c = type_byte t' c -> vt_single t = vt_single t'.
Proof. destruct c; cbn; auto using vt_array_single. Qed.
Lemma same_byte t t' c : same_data t t' -> type_byte t c = type_byte t' c.
Proof. intros H. apply same_data_spec in H. destruct H as (H1 & H2 & _). destruct c; cbn; assumption. Qed.
Lemma content_family v w : content v = content w -> single (cval_ctype v) = single (cval_ctype w).
Proof. destruct v as [v|o|l|o|l ix|o], w as [w|p|m|p|m jx|p]; cbn; try reflexivity; discriminate. Qed.
Lemma byte_single t c c' : single c = single c' -> type_byte t c = type_byte t c'.
Proof. destruct c, c'; try discriminate; auto. Qed.
Lemma value_as_byte t v t' c' w : value_as t v t' c' w -> type_byte t' c' = type_byte t (cval_ctype v).
Proof.
  intros (Hc & Hv & [H|[_ H]]); [|exact H]. subst c'. rewrite <- (same_byte t t') by exact H. apply byte_single, content_family, Hv.
Qed.
Lemma encode_same fl t t' key v : same_data t t' -> encode fl t' key v = encode fl t key v.
Proof.
  intros H. apply same_data_spec in H. destruct H as (H1 & H2 & H3).
  destruct v; cbn [encode]; unfold single_block, array_block; rewrite ?H1, ?H2, ?H3; reflexivity.
Qed.
Lemma encode_null fl t key v : is_null v -> encode fl t key v =
  if large t (cval_ctype v) then large_block fl (type_byte t (cval_ctype v)) key [] else small_block (type_byte t (cval_ctype v)) key [].
Proof.
  intros H. rewrite encode_form. assert (X : payload_of fl t v = []); [|rewrite X; reflexivity].
  destruct v as [v|[o|]|l|[o|]|l ix|[o|]]; try contradiction; cbn [payload_of]; reflexivity.
Qed.
Lemma encode_null_same fl t t' key v w : is_null v -> is_null w -> type_byte t (cval_ctype v) = type_byte t' (cval_ctype w) -> encode fl t key v = encode fl t' key w.
Proof. intros H H' E. rewrite !encode_null by assumption. rewrite !large_byte, E. reflexivity. Qed.
Lemma null_content v w : content w = content v -> is_null v -> is_null w.
Proof. destruct v as [v|[o|]|l|[o|]|l ix|[o|]], w as [w|[p|]|m|[p|]|m jx|[p|]]; cbn; try contradiction; auto; try discriminate; destruct p as [? ?]; discriminate. Qed.
Lemma value_as_encode t v t' c' w fl key : value_as t v t' c' w -> encode fl t' key w = encode fl t key v.
Proof.
  intros H. pose proof (value_as_byte _ _ _ _ _ H) as Hb. destruct H as (Hc & Hv & [H|[Hn H]]).
  - rewrite (encode_same fl t t') by exact H. apply encode_content. exact Hv.
  - subst c'. apply encode_null_same; auto. eapply null_content; eassumption.
Qed.
Lemma value_as_ok t v t' c' w : value_as t v t' c' w -> cval_ok t v -> cval_ok t' w.
Proof.
  intros (Hc & Hv & H) Hok.
  assert (Hs : same_data t t' \/ is_null w) by (destruct H as [H|[H _]]; [left; exact H|right; eapply null_content; eassumption]).
  destruct Hs as [Hs|Hs]; [|destruct w as [w|[p|]|m|[p|]|m jx|[p|]]; cbn in *; contradiction || exact Logic.I].
  apply same_data_spec in Hs. destruct Hs as (_ & _ & E).
  assert (X : forall x, val_ok t x -> val_ok t' x) by (unfold val_ok; rewrite E; auto).
  assert (Y : forall l, vec_ok t l -> vec_ok t' l) by (intros l [A B]; split; [eapply Forall_impl; [exact X|exact A]|exact B]).
  destruct v as [v|[o|]|l|[o|]|l ix|[[o oi]|]], w as [w|[p|]|m|[p|]|m jx|[[p pi]|]]; cbn in *; try discriminate; try exact Logic.I;
    try (injection Hv as -> ->; destruct Hok; split; auto; fail); injection Hv as ->; auto.
Qed.
(** The value in another container. *)
Definition recast (c : ctype) (v : cval) : option cval :=
  match c, content v with
  | CtNone, inl (Some x) => Some (CV x)
  | CtOpt, inl o => Some (COpt o)
  | CtVec, inr (Some (l, None)) => Some (CVec l)
  | CtOptVec, inr (Some (l, None)) => Some (COptVec (Some l))
  | CtOptVec, inr None => Some (COptVec None)
  | CtIdx, inr (Some (l, Some ix)) => Some (CIdx l ix)
  | CtOptIdx, inr (Some (l, Some ix)) => Some (COptIdx (Some (l, ix)))
  | CtOptIdx, inr None => Some (COptIdx None)
  | _, _ => None
  end.
Lemma recast_some c v w : recast c v = Some w -> cval_ctype w = c /\ content w = content v.
Proof.
  unfold recast. destruct c, (content v) as [[x|]|[[l [ix|]]|]]; try discriminate; intros H; injection H as <-; split; reflexivity.
Qed.
Lemma recast_none c v w : recast c v = None -> cval_ctype w = c -> content w = content v -> False.
Proof.
  unfold recast. intros H Hc E. rewrite <- E in H. subst c.
  destruct w as [w|[p|]|m|[p|]|m jx|[[p pi]|]]; cbn in H; discriminate.
Qed.
Lemma is_null_dec v : {is_null v} + {~ is_null v}.
Proof. destruct v as [v|[o|]|l|[o|]|l ix|[o|]]; cbn; auto. Qed.
Lemma is_optional_dec v : {is_optional v} + {~ is_optional v}.
Proof. destruct v as [v|[o|]|l|[o|]|l ix|[o|]]; cbn; auto. Qed.

Lemma shape_eq_dec (a b : shape) : {a = b} + {a <> b}.
Proof. decide equality; [apply N.eq_dec|]. decide equality. decide equality. Qed.
Lemma h_bytes_pos t : dshape t <> ShString -> 0 < h_bytes (dshape t).
Proof. destruct t as [|[]|[]|[]|[] []|[] []|[] []|[] []|[]| | | | |]; cbn; intros; try lia. congruence. Qed.
Lemma payload_single fl t v x : (v = CV x \/ v = COpt (Some x)) -> dshape t <> ShString -> val_ok t x -> len (payload_of fl t v) = h_bytes (dshape t).
Proof.
  intros Hx Hn Hok. unfold val_ok in Hok. destruct Hx as [-> | ->]; cbn [payload_of]; destruct (dshape t) as [| |k n]; try contradiction; try reflexivity;
    destruct x; cbn in Hok; try contradiction; cbn [the_image h_bytes]; apply len_element_bytes; exact Hok.
Qed.

Definition reads_value (e : renv) (t : dtype) (v : cval) (t' : dtype) (key : list byte) (dest : cval) (pre post : list byte) (fl : bool) : Prop :=
  (exists w, value_as t v t' (cval_ctype dest) w /\ cval_ok t' w /\
     er_read e t' key dest (rs_at pre (encode fl t key v ++ post) fl) = Done (true, w, rs_at (pre ++ encode fl t key v) post fl)) \/
  ((forall w, ~ value_as t v t' (cval_ctype dest) w) /\
     exists x s', er_read e t' key dest (rs_at pre (encode fl t key v ++ post) fl) = Done (false, x, s')).
Lemma value_decides e t v t' key dest pre post fl :
  item_ok (Item t key v) -> 0 < len key -> cval_ok t' dest -> replaced t' dest ->
  4 * len (encode fl t key v) <= e_lim e -> len pre + len (encode fl t key v) + len post < lim62 ->
  reads_value e t v t' key dest pre post fl.
Proof.
  intros [Hv Hk] Hk0 Hd Hr Hal Hs. cbn [i_type i_key i_val] in *.
  assert (Yes : forall w, value_as t v t' (cval_ctype dest) w -> reads_value e t v t' key dest pre post fl).
  { intros w W. left. exists w. split; [exact W|]. pose proof (value_as_ok _ _ _ _ _ W Hv) as Ow. split; [exact Ow|].
    rewrite <- (value_as_encode _ _ _ _ _ fl key W) in *. destruct W as (Wc & _).
    rewrite er_read_delivered; [|try assumption..|unfold lim62, two64 in *; lia]; [|congruence].
    rewrite replaced_delivered by (try assumption; congruence). reflexivity. }
  assert (No : (forall w, ~ value_as t v t' (cval_ctype dest) w) -> (exists x s', er_read e t' key dest (rs_at pre (encode fl t key v ++ post) fl) = Done (false, x, s')) ->
    reads_value e t v t' key dest pre post fl) by (intros; right; auto).
  destruct (N.eq_dec (type_byte t' (cval_ctype dest)) (type_byte t (cval_ctype v))) as [Hb|Hb].
  2:{ apply No; [intros w W; apply Hb; exact (value_as_byte _ _ _ _ _ W)|].
      destruct (encode_head fl t key v) as (r & E). rewrite E in *. cbn [app].
      apply er_read_mismatch; [apply type_byte_lt|congruence|]. rewrite len_cons in Hs. rewrite len_app. unfold lim62, two64 in *. lia. }
  pose proof (byte_family _ _ _ _ Hb) as Hf.
  assert (Hb2 : type_byte t' (cval_ctype v) = type_byte t (cval_ctype v)) by (rewrite <- Hb; apply byte_single; congruence).
  pose proof (byte_vt _ _ _ Hb2) as Hvt.
  destruct (recast (cval_ctype dest) v) as [w|] eqn:Erc.
  - destruct (recast_some _ _ _ Erc) as [Wc Wv].
    destruct (is_null_dec v) as [Hn|Hn]; [apply (Yes w); split; [exact Wc|split; [exact Wv|auto]]|].
    destruct (shape_eq_dec (dshape t) (dshape t')) as [Hsh|Hsh].
    { apply (Yes w). split; [exact Wc|]. split; [exact Wv|]. left. apply same_data_form; congruence. }
    apply No; [intros y (_ & _ & [Y|[Y _]]); [apply same_data_spec in Y; tauto|contradiction]|].
    destruct (large t (cval_ctype v)) eqn:EL.
    + destruct (single (cval_ctype v)) eqn:Es.
      { exfalso. apply Hsh. destruct v; cbn in Es, EL; try discriminate; destruct t; try discriminate EL;
          destruct t' as [|[]|[]|[]|[] []|[] []|[] []|[] []|[]| | | | |]; cbn in Hvt; try discriminate; reflexivity. }
      assert (Ha : vt_array t' = vt_array t) by (destruct v; try discriminate Es; cbn in Hb2; congruence).
      apply plain_fail; [exact Hd|]. intros d Hc u U1 U2 U3 Hu.
      destruct v as [v|[o|]|l|[o|]|l ix|[[o oi]|]]; try discriminate Es; cbn [encode is_null] in *; try tauto;
        destruct d as [dv|od|ld|od|ld id|od]; cbn [cval_ctype] in Hc; rewrite <- Hc in Erc, Hf; try discriminate Erc; try discriminate Hf; cbn [er_read_plain];
        (edestruct other_array as (x & i & s' & ->);
           [exact Hk|congruence|apply Hv|try exact Logic.I; apply Hv|cbv iota; congruence|exact Hal|exact Hs|cbn [bind st_ok]; eauto]).
    + rewrite encode_form, EL in Hs |- *. rewrite <- Hb in Hs |- *. apply other_small; try assumption.
      * apply small_payload; [exact Hv|exact EL].
      * rewrite large_byte, Hb, <- large_byte. exact EL.
      * intros pl E B. apply app_inv_tail in E. subst pl.
        pose proof (large_shape _ _ EL) as [Hns Hct].
        assert (Hlen : len (payload_of fl t v) = h_bytes (dshape t)).
        { destruct v as [v|[o|]|l|o|l ix|o]; cbn [cval_ctype] in Hct; try (destruct Hct; discriminate); try (cbn in Hn; tauto).
          - apply (payload_single fl t _ v); auto. - apply (payload_single fl t _ o); auto. }
        assert (0 < h_bytes (dshape t)) by (apply h_bytes_pos; exact Hns).
        destruct B as [[B _]|B]; [rewrite B, len_nil in Hlen; lia|]. apply Hsh. apply layout_single; congruence.
  - apply No; [intros y (Y1 & Y2 & _); exact (recast_none _ _ _ Erc Y1 Y2)|].
    destruct (is_null_dec v) as [Hn|Hn].
    + assert (E : encode fl t key v = encode fl t' key v) by (apply encode_null_same; auto). rewrite E in *.
      apply absent_rejected; try assumption; [|unfold lim62, two64 in *; lia].
      intros Ho. destruct v as [v|[o|]|l|[o|]|l ix|[o|]]; try contradiction; destruct dest as [dv|od|ld|od|ld id|od]; try contradiction; cbn in Erc, Hf; discriminate.
    + destruct (single (cval_ctype v)) eqn:Es.
      { exfalso. destruct v as [v|[o|]|l|[o|]|l ix|[[o oi]|]]; try discriminate Es; cbn in Hn; try tauto; destruct dest; cbn in Erc, Hf; discriminate. }
      assert (Ha : vt_array t' = vt_array t) by (destruct v; try discriminate Es; cbn in Hb2; congruence).
      apply plain_fail; [exact Hd|]. intros d Hc u U1 U2 U3 Hu.
      destruct v as [v|[o|]|l|[o|]|l ix|[[o oi]|]]; try discriminate Es; cbn [encode is_null] in *; try tauto;
        destruct d as [dv|od|ld|od|ld id|od]; cbn [cval_ctype] in Hc; rewrite <- Hc in Erc, Hf; try discriminate Erc; try discriminate Hf; cbn [er_read_plain];
        (edestruct other_array as (x & i & s' & ->);
           [exact Hk|congruence|apply Hv|try exact Logic.I; apply Hv|exact Logic.I|exact Hal|exact Hs|cbn [bind st_ok]; eauto]).
Qed.
