(** * Parts. Proofs. *)
From Verif Require Import Base Bytes BytesFacts Values Streams FileSpec ReadSpec StreamFacts StreamProps Types Format
  Accept EntityWriter EntityReader EntityWriterFacts PackFacts ArrayWriterFacts EntityReaderFacts EntitySafety ArraySafety
  ReadTotal Items ItemSpec EntityProps Sections Documents DocSpec SectionFacts SectionReadFacts SectionTheorems CodecFacts
  Keys KeySpec KeyFacts Containers ValueEqSpec Graph GraphSpec Classes Table TableSpec TableFacts TableCodec
  IndexedVector IndexedVectorSpec IndexedVectorFacts DynTypes Varying VaryingSpec VaryingCodec EntityGen EntitySpec EntityFacts EntityCodec
  TruncSpec Truncation EntityTrunc Parts PartsSpec.
Local Open Scope N_scope.

Scheme part_mind := Induction for part Sort Prop with parts_mind := Induction for parts Sort Prop with pelems_mind := Induction for pelems Sort Prop.
Combined Scheme part_parts_ind from part_mind, parts_mind, pelems_mind.

Lemma slen_pelems l : slen (pelems_doc l) = pelen l.
Proof. induction l as [|b l IH]; cbn [pelems_doc slen pelen]; [reflexivity|]. rewrite IH. reflexivity. Qed.
Lemma pelems_mirror_len w : forall r, pelems_mirror w r -> pelen r = pelen w.
Proof. induction w as [|b w IH]; cbn; intros r H; [subst r; reflexivity|]. destruct H as (b' & l' & -> & _ & H). cbn. rewrite (IH _ H). reflexivity. Qed.


Lemma doc_app_bytes fl a b : nodes_bytes fl (doc_app a b) = nodes_bytes fl a ++ nodes_bytes fl b.
Proof. induction a as [|n a IH]; cbn [doc_app nodes_bytes]; [reflexivity|]. rewrite IH, app_assoc. reflexivity. Qed.

Section I.
Context (U : forall t, umap_impl (key t)).

Notation dbytes fl b := (nodes_bytes fl (parts_doc b)).
Notation pbytes fl l := (elems_bytes fl (pelems_doc l)).
Definition writes_pelems (l : pelems) : Prop := forall h hc above f ch i st c fl lim,
  w_chain st = (above ++ [f]) ++ [ch] -> wf_id f = h -> wf_id ch = hc -> widle ch ->
  ~ In h (map wf_id above) -> ~ In hc (map wf_id (above ++ [f])) ->
  Forall (fun g => wf_id g < w_next st) (w_chain st) ->
  add64 (wf_index f) 1 = i -> i + pelen l <= wf_size f -> wf_size f < ones ->
  ws_at (w_stream st) c fl lim -> 2 * (len c + len (pbytes fl l)) <= lim ->
  exists st' f', write_pelems U h hc i l st = Done (true, st') /\ ws_at (w_stream st') (c ++ pbytes fl l) fl lim /\
    w_chain st' = (above ++ [f']) ++ [ch] /\ wf_id f' = h /\ wf_start f' = wf_start f /\ wf_size f' = wf_size f /\
    add64 (wf_index f') 1 = i + pelen l /\ w_next st <= w_next st'.
Lemma write_parr_eq h key ix elems st : write_part U h (PArray key ix elems) st =
    do r <- w_begin_arr h key (pelen elems) ix st; let '(c, st1) := r in
    match c with
    | None => Done (false, st1)
    | Some hc =>
      do r2 <- write_pelems U h hc 0 elems st1; let '(ok, st2) := r2 in
      if ok then w_end_arr h (Some hc) st2 else Done (false, st2)
    end.
Proof. reflexivity. Qed.
Lemma write_pelem_eq h hc i body r st : write_pelems U h hc i (PECons body r) st =
    do r1 <- w_begin_in h (Some hc) i st; let '(ok, st1) := r1 in
    if negb ok then Done (false, st1) else
    do r2 <- write_parts U hc body st1; let '(ok2, st2) := r2 in
    if negb ok2 then Done (false, st2) else
    do r3 <- w_end_in h (Some hc) i st2; let '(ok3, st3) := r3 in
    if ok3 then write_pelems U h hc (i + 1) r st3 else Done (false, st3).
Proof. reflexivity. Qed.
Lemma writes_pelem body l : writes (fun h st => write_parts U h body st) (fun fl => dbytes fl body) -> writes_pelems l -> writes_pelems (PECons body l).
Proof.
    intros IHb IHl h hc above f ch i st c fl lim HC Hid Hidc Hch Hn1 Hn2 F Hix Hsz Hs1 H Hlim.
    rewrite write_pelem_eq. cbn [pelems_doc elems_bytes pelen] in *. rewrite !len_app, len_num in Hlim. cbn [wbytes] in Hlim.
    pose proof (ws_at_lim _ _ _ _ H) as Hl64. pose proof (ws_at_pos _ _ _ _ H) as Hp.
    unfold w_begin_in at 1. rewrite HC, <- app_assoc. cbn [app]. rewrite split_at_mid by assumption.
    cbn [head_id hdl_eqb]. rewrite Hidc, N.eqb_refl, Hix, N.eqb_refl. cbn [negb].
    destruct (N.leb_spec (wf_size f) i) as [X|_]; [lia|].
    destruct (ws_u64_at maxint64 _ c fl lim H) as (s1 & E1 & H1); [lia|]. rewrite E1. cbn [bind].
    rewrite (ws_at_pos _ _ _ _ H1), Hp, len_app, len_enc. cbn [wbytes]. rewrite add64_small, N.eqb_refl by (unfold two64 in *; lia).
    cbn [negb].
    set (f1 := WF (wf_id f) (wf_start f) (wf_size f) i (len c)).
    set (st1 := WSt s1 (above ++ f1 :: [ch]) (w_next st)).
    destruct (IHb hc (above ++ [f1]) ch st1 (c ++ enc W64 fl maxint64) fl lim) as (st2 & E2 & (H2 & C2 & N2)); [| exact H1 | rewrite len_app, len_enc; cbn [wbytes]; lia |].
    { unfold st1. repeat split; cbn [w_chain w_next]; try assumption; try apply Hch.
      - rewrite <- app_assoc. reflexivity.
      - rewrite map_app in *. exact Hn2.
      - rewrite HC in F. rewrite !Forall_app in F. destruct F as ((F1 & F2) & F3). rewrite Forall_app. split; [exact F1|].
        constructor; [inversion F2; assumption|exact F3]. }
    rewrite E2. cbn [bind]. unfold st1 in C2, N2. cbn [w_chain w_next] in C2, N2.
    unfold w_end_in at 1. rewrite C2. rewrite split_at_mid by (try assumption; exact Hid).
    cbn [head_id hdl_eqb negb]. rewrite Hidc, N.eqb_refl. cbn [negb orb wf_index f1]. rewrite N.eqb_refl. cbn [negb wf_arr_start f1].
    pose proof (ws_at_pos _ _ _ _ H2) as Hp2. rewrite Hp2.
    rewrite <- app_assoc in H2.
    destruct (ws_patch_at (len c) (len (dbytes fl body)) (w_stream st2) c (enc W64 fl maxint64) (dbytes fl body) fl lim H2 eq_refl)
      as (s3 & s4 & s5 & P1 & P2 & P3 & P4).
    { apply len_enc. }
    { rewrite !len_app, len_enc. cbn [wbytes]. lia. }
    rewrite <- app_assoc. rewrite sub64_8; [|rewrite !len_app, len_enc; cbn [wbytes]; unfold two64 in *; lia
                              |rewrite !len_app, len_enc; cbn [wbytes]; lia].
    replace (len (c ++ enc W64 fl maxint64 ++ dbytes fl body) - len c - 8) with (len (dbytes fl body))
      by (rewrite !len_app, len_enc; cbn [wbytes]; lia).
    rewrite P1. cbn [thrown bind]. rewrite P2. cbn [bind]. rewrite P3. cbn [thrown bind].
    destruct (N.ltb_spec (len c) (len (c ++ enc W64 fl maxint64 ++ dbytes fl body))) as [_|X];
      [|rewrite !len_app, len_enc in X; cbn [wbytes] in X; lia].
    destruct (IHl h hc above f1 ch (i + 1) (WSt s5 (above ++ f1 :: [ch]) (w_next st2))
       (c ++ enc W64 fl (len (dbytes fl body)) ++ dbytes fl body) fl lim) as (st6 & f' & Q1 & Q2 & Q3 & Q4 & Q5 & Q6 & Q7 & Q8).
    + cbn [w_chain]. rewrite <- app_assoc. reflexivity.
    + exact Hid.
    + exact Hidc.
    + exact Hch.
    + exact Hn1.
    + rewrite map_app in *. exact Hn2.
    + cbn [w_chain w_next]. rewrite HC in F. rewrite !Forall_app in F. destruct F as ((F1 & F2) & F3). rewrite Forall_app.
      split; [eapply Forall_impl; [|exact F1]; cbn; intros; lia|].
      constructor; [inversion F2; subst; cbn; lia|]. inversion F3; subst. constructor; [lia|constructor].
    + cbn. apply add64_small. unfold ones, two64 in *. lia.
    + cbn. lia.
    + cbn. exact Hs1.
    + cbn [w_stream]. exact P4.
    + rewrite !len_app, len_enc. cbn [wbytes]. lia.
    + cbn [w_stream w_chain w_next f1 wf_start wf_size] in *.
      exists st6, f'. split; [exact Q1|]. split; [|split; [exact Q3|split; [exact Q4|split; [exact Q5|split; [exact Q6|split; [rewrite Q7; lia|lia]]]]]].
      replace (c ++ num W64 fl (len (dbytes fl body)) ++ dbytes fl body ++ pbytes fl l)
        with ((c ++ enc W64 fl (len (dbytes fl body)) ++ dbytes fl body) ++ pbytes fl l)
        by (rewrite <- !app_assoc; reflexivity). exact Q2.
Qed.
Lemma writes_parr key ix elems : len key <= 40 -> match ix with Some l => ix_ok l | None => True end -> writes_pelems elems ->
  writes (fun h st => write_part U h (PArray key ix elems) st) (fun fl => large_block fl vt_array_subsection key (meta_bytes fl 0 (pelen elems) ix ++ pbytes fl elems)).
Proof.
  intros Hk Hix IH h above f st c fl lim R H Hlim. cbv beta in Hlim |- *.
    rewrite len_large_block, len_app, len_meta_bytes in Hlim. rewrite write_parr_eq.
    pose proof (elems_bytes_bound fl (pelems_doc elems)) as Hb. rewrite slen_pelems in Hb. pose proof (ws_at_lim _ _ _ _ H) as Hl64.
    assert (Hn1 : pelen elems < ones) by (unfold ones, two64 in *; lia).
    destruct (begin_arr_at h key (pelen elems) ix st above f c fl lim R H Hk Hn1 Hix) as (s1 & E1 & H1); [lia|].
    rewrite E1. cbn [bind].
    pose proof (wready_child h above f st s1 (len c) R) as R1. cbn zeta in R1.
    destruct R as (E & Hid & Hn & F & I).
    destruct (IH h (w_next st) above (WF h (wf_start f) (pelen elems) ones 0) (WF (w_next st) (len c) 0 ones 0) 0
       (WSt s1 ((above ++ [WF h (wf_start f) (pelen elems) ones 0]) ++ [WF (w_next st) (len c) 0 ones 0]) (w_next st + 1))
       (c ++ large_open fl vt_array_subsection key ++ meta_bytes fl 0 (pelen elems) ix) fl lim eq_refl eq_refl eq_refl) as (st2 & f' & E2 & H2 & C2 & I2 & S2 & Z2 & X2 & N2); try assumption.
    + repeat split; reflexivity.
    + destruct R1 as (_ & _ & Q & _). rewrite map_app in Q. cbn [map] in Q. rewrite Hid in Q. rewrite map_app. exact Q.
    + destruct R1 as (_ & _ & _ & Q & _). cbn [w_chain w_next] in *. rewrite !Forall_app in *.
      destruct Q as ((Q1 & Q2) & Q3). split; [|exact Q3]. split; [exact Q1|]. constructor; [|constructor]. cbn.
      inversion Q2; subst. assumption.
    + reflexivity.
    + cbn. lia.
    + rewrite !len_app, len_large_open, len_meta_bytes. lia.
    + rewrite E2. cbn [bind w_chain w_next wf_size wf_start] in *.
      assert (Hend : add64 (wf_index f') 1 = wf_size f') by (rewrite X2, Z2; lia).
      replace ((c ++ large_open fl vt_array_subsection key ++ meta_bytes fl 0 (pelen elems) ix) ++ pbytes fl elems)
        with (c ++ large_open fl vt_array_subsection key ++ (meta_bytes fl 0 (pelen elems) ix ++ pbytes fl elems)) in H2
        by (rewrite <- !app_assoc; reflexivity).
      destruct (end_arr_at h key _ st2 above f' (w_next st) (len c) [] c fl lim C2 I2 Hn Hend eq_refl H2 Hk) as (s3 & E3 & H3);
        [rewrite len_app, len_meta_bytes; lia|].
      rewrite E3. eexists. split; [reflexivity|]. split; [exact H3|]. cbn.
      rewrite S2, (idle_frame f h Hid I). split; [congruence|lia].
Qed.

Lemma writes_parts_all :
  (forall p, part_ok p -> writes (fun h st => write_part U h p st) (fun fl => nodes_bytes fl (part_doc p))) /\
  (forall l, parts_ok l -> writes (fun h st => write_parts U h l st) (fun fl => nodes_bytes fl (parts_doc l))) /\
  (forall l, pelems_ok l -> writes_pelems l).
Proof.
  apply part_parts_ind.
  - intros [t key v] Hi. eapply writes_ext; [exact (writes_item t key v Hi)|reflexivity|]. intros fl. apply app_nil_r.
  - intros s x (Hs & Hx & Hf). exact (proj1 (writes_both U) s x Hs Hx Hf).
  - intros key body IH [Hk Hb]. eapply writes_ext; [exact (writes_section key _ _ Hk (IH Hb))|reflexivity|]. intros fl. apply app_nil_r.
  - intros key Hk. eapply writes_ext; [exact (writes_nodes (Cons (NNullSection key) Nil) (conj Hk Logic.I))| |reflexivity].
    intros h st. cbn. destruct (w_null h key st) as [[[] st1]| |]; reflexivity.
  - intros key ix elems IH (Hk & Hix & He). eapply writes_ext; [exact (writes_parr key ix elems Hk Hix (IH He))|reflexivity|].
    intros fl. cbn [part_doc nodes_bytes]. rewrite app_nil_r, node_bytes_array, slen_pelems. reflexivity.
  - intros key Hk. eapply writes_ext; [exact (writes_nodes (Cons (NNullArray key) Nil) (conj Hk Logic.I))| |reflexivity].
    intros h st. cbn. destruct (w_null_arr h key st) as [[[] st1]| |]; reflexivity.
  - intros _. exact writes_nil.
  - intros p IHp r IHr [Hp Hr]. eapply writes_ext; [exact (writes_seq _ _ _ _ (IHp Hp) (IHr Hr))|reflexivity|].
    intros fl. cbn [parts_doc]. apply doc_app_bytes.
  - intros _ h hc above f ch i st c fl lim HC Hid Hidc Hch Hn1 Hn2 F Hix Hsz Hs1 H Hlim.
    exists st, f. cbn [pelems_doc elems_bytes write_pelems pelen] in *. rewrite app_nil_r, N.add_0_r.
    split; [reflexivity|]. split; [exact H|]. repeat split; try assumption; lia.
  - intros b IHb l IHl [Hb Hl]. exact (writes_pelem b l (IHb Hb) (IHl Hl)).
Qed.

Lemma read_sec_eq e h key body st : read_part U e h (PSection key body) st =
    do r <- r_begin e h key true st; let '(c, ok, st1) := r in
    match c with
    | None => Done (ok, PNull key, st1)
    | Some hc =>
      do r2 <- read_parts U e hc body st1; let '(ok2, body', st2) := r2 in
      if negb ok2 then Done (false, PSection key body', st2) else
      do r3 <- r_end h (Some hc) st2; let '(ok3, st3) := r3 in Done (ok3, PSection key body', st3)
    end.
Proof. reflexivity. Qed.
Lemma read_cons_eq e h p l st : read_parts U e h (PCons p l) st =
    do r1 <- read_part U e h p st; let '(ok, p', st1) := r1 in
    if negb ok then Done (false, PCons p' PNil, st1) else
    do r2 <- read_parts U e h l st1; let '(ok2, r', st2) := r2 in Done (ok2, PCons p' r', st2).
Proof. reflexivity. Qed.
(** A section read by a program: the result of EndReadSection counts. *)
Lemma readsP_sec key body b Q : len key <= 40 -> (forall fl, b fl <> []) -> readsP (fun e h st => read_parts U e h body st) b Q ->
  readsP (fun e h st => read_part U e h (PSection key body) st) (fun fl => large_block fl vt_subsection key (b fl))
    (fun p => exists body', p = PSection key body' /\ Q body').
Proof.
  intros Hk Hb HR e h above f st pre post fl R Es Hal Hs. cbv beta in Es, Hal, Hs. rewrite read_sec_eq.
  rewrite (r_begin_ok e h key true _ st above f pre post fl R (Hb fl) Hk Es Hs). cbn [bind negb].
  rewrite len_large_block in Hal, Hs.
  set (pos := len pre + len (large_block fl vt_subsection key (b fl))).
  set (s1 := rs_at (pre ++ large_head fl vt_subsection key (len (b fl))) (b fl ++ post) fl).
  pose proof (rready_child h above f st s1 pos R) as R1. cbn zeta in R1.
  destruct R as (E & Hid & Hn & F & Idl).
  destruct (HR e (r_next st) _ _ _ (pre ++ large_head fl vt_subsection key (len (b fl))) post fl R1 eq_refl) as (x & st2 & E2 & Qx & (S2 & C2 & N2));
    [lia|rewrite len_app, len_large_head; lia|].
  rewrite E2. cbn [bind negb]. cbn [r_chain r_next] in C2, N2.
  pose proof (r_end_ok h st2 above f (rf_new (r_next st) pos) _ post fl C2 Hid Hn Idl S2) as X. cbn [rf_new rf_id rf_end] in X. rewrite X.
  - cbn [bind]. eexists _, _. split; [reflexivity|]. split; [eauto|]. split; [|split; [cbn; congruence|cbn; lia]].
    cbn [r_stream]. rewrite S2, large_block_head, <- !app_assoc. reflexivity.
  - unfold pos. rewrite !len_app, len_large_block, len_large_head. lia.
Qed.
Lemma readsP_null key r : len key <= 40 -> r = PNull key \/ (exists body, r = PSection key body) ->
  readsP (fun e h st => read_part U e h r st) (fun fl => large_block fl vt_subsection key []) (fun p => p = PNull key).
Proof.
  intros Hk Hr e h above f st pre post fl R Es Hal Hs. cbv beta in Es, Hal, Hs.
  assert (Eb := r_begin_empty e h key st above f pre post fl R Hk Es Hs).
  destruct Hr as [->|(body & ->)]; cbn [read_part]; rewrite Eb; cbn [bind];
    (eexists _, _; split; [reflexivity|]; split; [reflexivity|]; split; [reflexivity|split; [reflexivity|cbn; lia]]).
Qed.

Lemma nil_dec b : {b = Nil} + {b <> Nil}.
Proof. destruct b; [left; reflexivity|right; discriminate]. Qed.

Definition reads_pelems (w r : pelems) : Prop := forall e h above f ch i st pre post fl,
  r_chain st = (above ++ [f]) ++ [ch] -> rf_id f = h -> ridle ch ->
  ~ In h (map rf_id above) -> ~ In (rf_id ch) (map rf_id (above ++ [f])) ->
  Forall (fun g => rf_id g < r_next st) (r_chain st) ->
  add64 (rf_index f) 1 = i -> i + pelen w <= rf_size f -> rf_size f < ones ->
  r_stream st = rs_at pre (pbytes fl w ++ post) fl ->
  4 * len (pbytes fl w) <= e_lim e -> len pre + len (pbytes fl w) + len post < two64 ->
  exists x st' f', read_pelems U e h (rf_id ch) i r st = Done (true, x, st') /\ pelems_same w x /\
    r_stream st' = rs_at (pre ++ pbytes fl w) post fl /\
    r_chain st' = (above ++ [f']) ++ [ch] /\ rf_id f' = h /\ rf_end f' = rf_end f /\ rf_size f' = rf_size f /\
    add64 (rf_index f') 1 = i + pelen w /\ r_next st <= r_next st'.
Lemma read_pelem_eq e h hc i body r st : read_pelems U e h hc i (PECons body r) st =
    do r1 <- r_begin_in h (Some hc) i true st; let '(ok, has_data, st1) := r1 in
    if negb ok then Done (false, PENil, st1) else
    do r2 <- (if has_data : bool then read_parts U e hc body st1 else Done (true, PNil, st1));
    let '(ok2, body', st2) := r2 in
    if negb ok2 then Done (false, PECons body' PENil, st2) else
    do r3 <- r_end_in h (Some hc) i st2; let '(ok3, st3) := r3 in
    if negb ok3 then Done (false, PECons body' PENil, st3) else
    do r4 <- read_pelems U e h hc (i + 1) r st3; let '(ok4, r', st4) := r4 in Done (ok4, PECons body' r', st4).
Proof. reflexivity. Qed.
Lemma read_parr_eq e h key ix elems st : read_part U e h (PArray key ix elems) st =
    do r <- r_begin_arr e h key true (match ix with Some _ => Some [] | None => None end) st;
    let '(c, count, ok, ix', st1) := r in
    match c with
    | None => Done (ok, PNullArray key, st1)
    | Some hc =>
      if negb (count =? pelen elems) then Done (false, PNullArray key, st1) else
      do r2 <- read_pelems U e h hc 0 elems st1; let '(ok2, elems', st2) := r2 in
      if negb ok2 then Done (false, PArray key ix' elems', st2) else
      do r3 <- r_end_arr h (Some hc) st2; let '(ok3, st3) := r3 in Done (ok3, PArray key ix' elems', st3)
    end.
Proof. reflexivity. Qed.
Lemma readsP_pelem body l b' r : (parts_doc body <> Nil -> readsP (fun e h st => read_parts U e h b' st) (fun fl => dbytes fl body) (parts_same body)) ->
  reads_pelems l r -> reads_pelems (PECons body l) (PECons b' r).
Proof.
    intros IHb IHl e h above f ch i st pre post fl HC Hid Hch Hn1 Hn2 F Hix Hsz Hs1 Es Hal Hs.
    rewrite read_pelem_eq. cbn [pelems_doc elems_bytes pelen] in *. rewrite !len_app, len_num in Hal, Hs. cbn [wbytes] in Hal, Hs.
    rewrite <- !app_assoc in Es.
    unfold r_begin_in at 1. rewrite HC, <- app_assoc. cbn [app]. rewrite split_at_mid by assumption.
    cbn [head_id hdl_eqb]. rewrite N.eqb_refl, Hix, N.eqb_refl. cbn [negb].
    destruct (N.leb_spec (rf_size f) i) as [X|_]; [lia|].
    rewrite Es. rewrite rs_u64n; [|lia|rewrite !len_app; lia]. cbn [bind].
    rewrite rs_at_pos, len_app, len_num. cbn [wbytes]. rewrite add64_small by lia.
    set (f1 := RF (rf_id f) (rf_end f) (rf_size f) i (len pre + 8 + len (dbytes fl body))).
    set (s1 := rs_at (pre ++ num W64 fl (len (dbytes fl body))) (dbytes fl body ++ pbytes fl l ++ post) fl).
    set (st1 := RSt s1 (above ++ f1 :: [ch]) (r_next st)).
    assert (B : exists x st2, (if negb (len (dbytes fl body) =? 0) : bool then read_parts U e (rf_id ch) b' st1 else Done (true, PNil, st1))
                 = Done (true, x, st2) /\ ((parts_doc body <> Nil -> parts_same body x) /\ (parts_doc body = Nil -> x = PNil)) /\
               rpost st1 st2 (rs_at ((pre ++ num W64 fl (len (dbytes fl body))) ++ dbytes fl body) (pbytes fl l ++ post) fl)).
    { destruct (nil_dec (parts_doc body)) as [Hb|Hb].
      - unfold st1, s1. rewrite Hb. cbn [nodes_bytes]. eexists PNil, _. split; [reflexivity|]. split; [split; [congruence|reflexivity]|]. rewrite app_nil_r. split; [reflexivity|]. split; [reflexivity|lia].
      - assert (Hne := nodes_bytes_nonempty fl _ Hb).
        destruct (N.eqb_spec (len (dbytes fl body)) 0) as [X|_]; [apply len_0 in X; contradiction|]. cbn [negb].
        destruct (IHb Hb e (rf_id ch) (above ++ [f1]) ch st1 (pre ++ num W64 fl (len (dbytes fl body))) (pbytes fl l ++ post) fl) as (x & st2 & E2 & Q2 & P2).
        + unfold st1. repeat split; cbn [r_chain r_next]; try assumption; try apply Hch.
          * rewrite <- app_assoc. reflexivity.
          * rewrite map_app in *. exact Hn2.
          * rewrite HC in F. rewrite !Forall_app in F. destruct F as ((F1 & F2) & F3). rewrite Forall_app. split; [exact F1|].
            constructor; [inversion F2; assumption|exact F3].
        + reflexivity.
        + lia.
        + rewrite !len_app, len_num. cbn [wbytes]. lia.
        + exists x, st2. split; [exact E2|]. split; [split; [intros _; exact Q2|contradiction]|exact P2]. }
    destruct B as (x & st2 & E2 & Q2x & (S2 & C2 & N2)). rewrite E2. cbn [bind negb].
    unfold st1 in C2, N2. cbn [r_chain r_next] in C2, N2.
    unfold r_end_in at 1. rewrite C2. rewrite split_at_mid by (try assumption; exact Hid).
    cbn [head_id hdl_eqb negb]. rewrite N.eqb_refl. cbn [negb orb rf_index f1]. rewrite N.eqb_refl. cbn [negb rf_end_pos f1].
    rewrite S2, rs_at_pos, !len_app, len_num. cbn [wbytes bind]. rewrite N.eqb_refl. cbn [negb].
    destruct (IHl e h above f1 ch (i + 1) st2
       ((pre ++ num W64 fl (len (dbytes fl body))) ++ dbytes fl body) post fl) as (y & st6 & f' & Q1 & Qy & Q2 & Q3 & Q4 & Q5 & Q6 & Q7 & Q8); try assumption.
    + rewrite C2, <- app_assoc. reflexivity.
    + rewrite map_app in *. exact Hn2.
    + rewrite C2. rewrite HC in F. rewrite !Forall_app in F. destruct F as ((F1 & F2) & F3). rewrite Forall_app.
      split; [eapply Forall_impl; [|exact F1]; cbn; intros; lia|].
      constructor; [inversion F2; subst; cbn; lia|]. inversion F3; subst. constructor; [lia|constructor].
    + cbn. apply add64_small. unfold ones, two64 in *. lia.
    + cbn. lia.
    + lia.
    + rewrite !len_app, len_num. cbn [wbytes]. lia.
    + cbn [f1 rf_end rf_size] in *.
      rewrite Q1. cbn [bind].
      exists (PECons x y), st6, f'. split; [reflexivity|]. split; [exists x, y; split; [reflexivity|]; split; [apply Q2x|split; [apply Q2x|exact Qy]]|]. split; [|split; [exact Q3|split; [exact Q4|split; [exact Q5|split; [exact Q6|split; [rewrite Q7; lia|lia]]]]]].
      rewrite Q2, <- !app_assoc. reflexivity.
Qed.
Lemma readsP_parr key ix ix' elems elems' : len key <= 40 -> match ix with Some l => ix_ok l | None => True end ->
  (ix = None <-> ix' = None) -> pelen elems' = pelen elems -> reads_pelems elems elems' ->
  readsP (fun e h st => read_part U e h (PArray key ix' elems') st)
    (fun fl => large_block fl vt_array_subsection key (meta_bytes fl 0 (pelen elems) ix ++ pbytes fl elems))
    (fun p => exists y, p = PArray key ix y /\ pelems_same elems y).
Proof.
    intros Hk Hix Mix El IH e h above f st pre post fl R Es Hal Hs. cbv beta in Es, Hal, Hs |- *.
    pose proof (elems_bytes_bound fl (pelems_doc elems)) as Hb. rewrite slen_pelems in Hb.
    assert (Hlen := len_large_block fl vt_array_subsection key (meta_bytes fl 0 (pelen elems) ix ++ pbytes fl elems)).
    rewrite len_app, len_meta_bytes in Hlen.
    assert (Hn1 : pelen elems < ones) by (unfold ones, two64 in *; lia).
    rewrite read_parr_eq, El.
    assert (Hml : match ix with Some l => len l * 4 <= meta_len ix | None => True end) by (unfold meta_len; destruct ix; [lia|exact I]).
    rewrite (r_begin_arr_ok e h key true (pelen elems) ix _ (pbytes fl elems) st above f pre post fl R Hk); try assumption.
    2: unfold ones, two64 in *; lia.
    2: destruct ix; [split; [exact Hix|lia]|exact I].
    2: destruct ix, ix'; try exact I; exfalso; destruct Mix as (M1 & M2); [discriminate (M2 eq_refl)|discriminate (M1 eq_refl)].
    cbn [bind]. rewrite N.eqb_refl. cbn [negb].
    set (pl := meta_bytes fl 0 (pelen elems) ix ++ pbytes fl elems) in *.
    set (pos := len pre + len (large_block fl vt_array_subsection key pl)).
    pose proof (rready_child h above f st (r_stream st) pos R) as R1. cbn zeta in R1.
    destruct R as (E & Hid & Hn & F & I).
    destruct (IH e h above (RF h (rf_end f) (pelen elems) ones 0) (rf_new (r_next st) pos) 0
       (RSt (rs_at (pre ++ large_head fl vt_array_subsection key (len pl) ++ meta_bytes fl 0 (pelen elems) ix) (pbytes fl elems ++ post) fl)
          ((above ++ [RF h (rf_end f) (pelen elems) ones 0]) ++ [rf_new (r_next st) pos]) (r_next st + 1))
       (pre ++ large_head fl vt_array_subsection key (len pl) ++ meta_bytes fl 0 (pelen elems) ix) post fl)
      as (x & st2 & f' & E2 & Qx & S2 & C2 & I2 & X2 & Z2 & Y2 & N2); try assumption; try reflexivity.
    + repeat split; reflexivity.
    + destruct R1 as (_ & _ & Q & _). rewrite map_app in Q. cbn [map] in Q. rewrite Hid in Q. rewrite map_app. exact Q.
    + destruct R1 as (_ & _ & _ & Q & _). cbn [r_chain r_next] in *. rewrite !Forall_app in *.
      destruct Q as ((Q1 & Q2) & Q3). split; [|exact Q3]. split; [exact Q1|]. constructor; [|constructor]. cbn.
      inversion Q2; subst. assumption.
    + cbn. lia.
    + rewrite !len_app, len_large_head, len_meta_bytes. lia.
    + change (rf_id (rf_new (r_next st) pos)) with (r_next st) in E2. rewrite E2. cbn [bind negb r_chain r_next r_stream rf_end rf_size] in *.
      assert (Hend : add64 (rf_index f') 1 = rf_size f') by (rewrite Y2, Z2; lia).
      pose proof (r_end_arr_ok h st2 above f' _ _ post fl C2 I2 Hn Hend S2) as Q. cbn [rf_new rf_id rf_end] in Q. rewrite Q.
      * cbn [bind]. eexists _, _. split; [reflexivity|]. split; [exists x; split; [reflexivity|exact Qx]|]. split; [|split; [|cbn; lia]].
        -- cbn [r_stream]. rewrite S2, large_block_head. unfold pl. rewrite <- !app_assoc. reflexivity.
        -- cbn [r_chain]. rewrite X2, (ridle_frame f h Hid I). congruence.
      * unfold pos. rewrite Hlen, !len_app, len_large_head, len_meta_bytes. lia.
Qed.
Lemma readsP_null_arr key r : len key <= 40 -> r = PNullArray key \/ (exists ix elems, r = PArray key ix elems) ->
  readsP (fun e h st => read_part U e h r st) (fun fl => large_block fl vt_array_subsection key []) (fun p => p = PNullArray key).
Proof.
  intros Hk Hr e h above f st pre post fl R Es Hal Hs. cbv beta in Es, Hal, Hs.
  assert (Eb := fun ix => r_begin_arr_empty e h key ix st above f pre post fl R Hk Es Hs).
  destruct Hr as [->|(ix & elems & ->)]; [cbn [read_part]|rewrite read_parr_eq]; rewrite Eb; cbn [bind];
    (eexists _, _; split; [reflexivity|]; split; [reflexivity|]; split; [reflexivity|split; [reflexivity|cbn; lia]]).
Qed.

Lemma reads_parts_all :
  (forall w r, part_ok w -> part_mirrors w r -> readsP (fun e h st => read_part U e h r st) (fun fl => nodes_bytes fl (part_doc w)) (part_same w)) /\
  (forall w r, parts_ok w -> parts_mirror w r -> readsP (fun e h st => read_parts U e h r st) (fun fl => nodes_bytes fl (parts_doc w)) (parts_same w)) /\
  (forall w r, pelems_ok w -> pelems_mirror w r -> reads_pelems w r).
Proof.
  apply part_parts_ind.
  - intros [t key v] r Hi (j & -> & (E1 & E2 & E3 & E4) & Hr). destruct j as [t' key' d]. cbn [i_type i_key i_val] in *. subst t' key'.
    eapply readsP_ext; [|reflexivity|intros fl; apply app_nil_r].
    exact (readsP_map _ (fun _ v => PItem (Item t key v)) _ (eq v) _ (reads_P _ _ _ _ (reads_item t key v d Hi E3 E4 Hr) eq_refl)
      (fun x Hx => f_equal (fun z => PItem (Item t key z)) (eq_sym Hx))).
  - intros s x r (Hs & Hx & Hf) (y & -> & Hy & Hd).
    refine (readsP_map _ (fun _ v => PObj s v) _ _ _ (proj1 (reads_both U) s y x Hs Hy Hd Hx Hf) _). intros z (Z1 & Z2). cbn. eauto.
  - intros key body IH r [Hk Hb] (body' & -> & Hm). cbn [part_doc].
    eapply readsP_ext; [|reflexivity|intros fl; apply app_nil_r].
    destruct (nil_dec (parts_doc body)) as [En|En].
    + rewrite En. eapply readsP_imp; [apply (readsP_null key _ Hk); eauto|]. intros p ->. split; [congruence|auto].
    + eapply readsP_imp; [exact (readsP_sec key body' _ _ Hk (fun fl => nodes_bytes_nonempty fl _ En) (IH body' Hb (Hm En)))|].
      intros p (b' & -> & Hs). split; [eauto|congruence].
  - intros key r Hk Hm. eapply readsP_ext; [exact (readsP_null key r Hk Hm)|reflexivity|intros fl; apply app_nil_r].
  - intros key ix elems IH r (Hk & Hix & He) (ix' & elems' & -> & Mix & Mm).
    eapply readsP_ext; [exact (readsP_parr key ix ix' elems elems' Hk Hix Mix (pelems_mirror_len _ _ Mm) (IH elems' He Mm))|reflexivity|].
    intros fl. cbn [part_doc nodes_bytes]. rewrite app_nil_r, node_bytes_array, slen_pelems. reflexivity.
  - intros key r Hk Hm. eapply readsP_ext; [exact (readsP_null_arr key r Hk Hm)|reflexivity|intros fl; apply app_nil_r].
  - intros r _ ->. eapply readsP_imp; [|intros x Hx; exact Hx].
    intros e h above f st pre post fl R Es Hal Hs. cbn [read_parts]. exists PNil, st. split; [reflexivity|]. split; [reflexivity|].
    split; [rewrite app_nil_r; exact Es|]. split; [reflexivity|lia].
  - intros p IHp l IHl r [Hp Hl] (p' & l' & -> & Mp & Ml). cbn [parts_doc].
    eapply readsP_ext; [exact (readsP_seq _ (fun x e h st => do r2 <- read_parts U e h l' st; let '(ok2, r', st2) := r2 in Done (ok2, PCons x r', st2))
        (fun x => PCons x PNil) _ (fun fl => nodes_bytes fl (parts_doc l)) _ (parts_same (PCons p l)) (IHp p' Hp Mp)
        (fun x Hx => readsP_map _ (fun _ r' => PCons x r') _ _ _ (IHl l' Hl Ml) (fun y Hy => ex_intro _ x (ex_intro _ y (conj eq_refl (conj Hx Hy))))))| |].
    + intros e h st. rewrite read_cons_eq. destruct (read_part U e h p' st) as [[[[] x] st1]| |]; reflexivity.
    + intros fl. apply doc_app_bytes.
  - intros r _ -> e h above f ch i st pre post fl HC Hid Hch Hn1 Hn2 F Hix Hsz Hs1 Es Hal Hs.
    exists PENil, st, f. cbn [pelems_doc elems_bytes read_pelems pelen] in *. rewrite app_nil_r, N.add_0_r.
    split; [reflexivity|]. split; [reflexivity|]. split; [exact Es|]. repeat split; try assumption; lia.
  - intros b IHb l IHl r [Hb Hl] (b' & l' & -> & Mb & Ml). exact (readsP_pelem b l b' l' (fun Hn => IHb b' Hb (Mb Hn)) (IHl l' Hl Ml)).
Qed.

Lemma part_cuts w r : part_ok w -> part_keyed w -> part_mirrors w r -> cuts (fun e h st => read_part U e h r st) (fun fl => nodes_bytes fl (part_doc w)).
Proof.
  assert (Sec : forall key body pay, len key <= 40 -> 0 < len key ->
    cuts (fun e h st => read_part U e h (PSection key body) st) (fun fl => large_block fl vt_subsection key (pay fl))).
  { intros key body pay Hk Hk0 e h above f st pre p q fl R E Hq Es Hal Hs. rewrite read_sec_eq.
    edestruct section_cut as (st' & ->); [exact R|exact Hk|exact Hk0|exact E|exact Hq|exact Es|exact Hs|]. cbn [bind]. eauto. }
  assert (Arr : forall key ix elems pay, len key <= 40 -> 0 < len key ->
    cuts (fun e h st => read_part U e h (PArray key ix elems) st) (fun fl => large_block fl vt_array_subsection key (pay fl))).
  { intros key ix elems pay Hk Hk0 e h above f st pre p q fl R E Hq Es Hal Hs. rewrite read_parr_eq.
    edestruct array_section_cut as (st' & ->); [exact R|exact Hk|exact Hk0|exact E|exact Hq|exact Es|exact Hs|]. cbn [bind]. eauto. }
  destruct w as [[t key v]|s x|key body|key|key ix elems|key]; cbn [part_ok part_keyed part_mirrors part_doc].
  - intros Hi Hk0 (j & -> & (E1 & E2 & E3 & E4) & _). destruct j as [t' key' d]. cbn [i_type i_key i_val] in *. subst t' key'.
    eapply cuts_ext; [|reflexivity|intros fl; apply app_nil_r].
    exact (cuts_map _ (fun _ v => PItem (Item t key v)) _ (cuts_item t key v d Hi Hk0 E3 E4)).
  - intros (Hs & Hx & Hf) Hn (y & -> & Hy & Hd). exact (cuts_map _ (fun _ v => PObj s v) _ (proj1 (cuts_both U) s y x Hs Hn Hy Hd Hx Hf)).
  - intros [Hk _] Hk0 (body' & -> & _). eapply cuts_ext; [apply (Sec key body' (fun fl => nodes_bytes fl (parts_doc body)) Hk Hk0)|reflexivity|intros fl; apply app_nil_r].
  - intros Hk Hk0 [->|(body & ->)]; (eapply cuts_ext; [|reflexivity|intros fl; apply app_nil_r]).
    + intros e h above f st pre p q fl R E Hq Es Hal Hs. cbn [read_part].
      edestruct section_cut as (st' & ->); [exact R|exact Hk|exact Hk0|exact E|exact Hq|exact Es|exact Hs|]. cbn [bind]. eauto.
    + apply (Sec key body (fun _ => []) Hk Hk0).
  - intros (Hk & _) Hk0 (ix' & elems' & -> & _). eapply cuts_ext; [apply (Arr key ix' elems' (fun fl => meta_bytes fl 0 (pelen elems) ix ++ pbytes fl elems) Hk Hk0)|reflexivity|].
    intros fl. cbn [nodes_bytes]. rewrite app_nil_r, node_bytes_array, slen_pelems. reflexivity.
  - intros Hk Hk0 [->|(ix & elems & ->)]; (eapply cuts_ext; [|reflexivity|intros fl; apply app_nil_r]).
    + intros e h above f st pre p q fl R E Hq Es Hal Hs. cbn [read_part].
      edestruct array_section_cut as (st' & ->); [exact R|exact Hk|exact Hk0|exact E|exact Hq|exact Es|exact Hs|]. cbn [bind]. eauto.
    + apply (Arr key ix elems (fun _ => []) Hk Hk0).
Qed.
Lemma parts_cuts w : forall r, parts_ok w -> parts_keyed w -> parts_mirror w r ->
  cuts (fun e h st => read_parts U e h r st) (fun fl => nodes_bytes fl (parts_doc w)).
Proof.
  induction w as [|p l IH]; intros r Hok Hk Hm.
  - apply cuts_nil.
  - destruct Hok as [Op Ol], Hk as [Kp Kl], Hm as (p' & l' & -> & Mp & Ml).
    eapply cuts_ext; [exact (cuts_seq _ (fun x e h st => do r2 <- read_parts U e h l' st; let '(ok2, r', st2) := r2 in Done (ok2, PCons x r', st2))
        (fun x => PCons x PNil) _ (fun fl => nodes_bytes fl (parts_doc l)) _ (proj1 reads_parts_all p p' Op Mp) (part_cuts p p' Op Kp Mp)
        (fun x Hx => cuts_map _ (fun _ r' => PCons x r') _ (IH l' Ol Kl Ml)))| |].
    + intros e h st. rewrite read_cons_eq. destruct (read_part U e h p' st) as [[[[] x] st1]| |]; reflexivity.
    + intros fl. cbn [parts_doc]. apply doc_app_bytes.
Qed.

Lemma t_parts_roundtrip : forall w init lim fl, parts_ok w -> room init lim (len (nodes_bytes fl (parts_doc w))) ->
  exists s0 st, fresh init lim fl = Done s0 /\ write_parts U 0 w (w_open s0) = Done (true, st) /\
    ws_data (w_stream st) = nodes_bytes fl (parts_doc w) /\
    forall e r post, parts_mirror w r -> read_room e (ws_pos (w_stream st)) (ws_pos (w_stream st) + len post) ->
      exists x st', read_parts U e 0 r (r_open (RS (ws_data (w_stream st) ++ post) 0 fl)) = Done (true, x, st') /\ parts_same w x /\
        r_stream st' = RS (ws_data (w_stream st) ++ post) (ws_pos (w_stream st)) fl.
Proof.
  intros w init lim fl Hw Hr.
  exact (roundtripP (fun h st => write_parts U h w st) (fun r e h st => read_parts U e h r st) _ (parts_same w) init lim fl (parts_mirror w)
    (proj1 (proj2 writes_parts_all) w Hw) (fun r Hm => proj1 (proj2 reads_parts_all) w r Hw Hm) Hr).
Qed.
Lemma t_parts_cut : forall w init lim fl, parts_ok w -> parts_keyed w -> room init lim (len (nodes_bytes fl (parts_doc w))) ->
  exists s0 st, fresh init lim fl = Done s0 /\ write_parts U 0 w (w_open s0) = Done (true, st) /\
    forall e r pre p, parts_mirror w r -> cut_off p (ws_data (w_stream st)) ->
      4 * ws_pos (w_stream st) <= e_lim e -> len pre + ws_pos (w_stream st) < 2^62 ->
      exists y st', read_parts U e 0 r (r_open (RS (pre ++ p) (len pre) fl)) = Done (false, y, st').
Proof.
  intros w init lim fl Hw Hk Hr.
  exact (cut_open (fun h st => write_parts U h w st) (fun r e h st => read_parts U e h r st) _ init lim fl (parts_mirror w)
    (proj1 (proj2 writes_parts_all) w Hw) (fun r Hm => parts_cuts w r Hw Hk Hm) Hr).
Qed.
End I.
