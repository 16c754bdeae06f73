(** * Reading documents: the mirrored calls find what was written. *)
From Verif Require Import Base Bytes BytesFacts Values Streams FileSpec ReadSpec StreamFacts StreamProps Types Format
  Accept EntityWriter EntityReader EntityWriterFacts PackFacts ArrayWriterFacts EntityReaderFacts EntitySafety ArraySafety
  ReadTotal Items ItemSpec EntityProps Sections Documents DocSpec SectionFacts.
Open Scope N_scope.

Definition ridle (f : rframe) : Prop := rf_size f = 0 /\ rf_index f = ones /\ rf_end_pos f = 0.
Definition rready (h : N) (above : list rframe) (f : rframe) (st : rstate) : Prop :=
  r_chain st = above ++ [f] /\ rf_id f = h /\ ~ In h (map rf_id above) /\
  Forall (fun g => rf_id g < r_next st) (r_chain st) /\ ridle f.

Lemma rready_last_fresh h above f st : rready h above f st -> ~ In (r_next st) (map rf_id (above ++ [f])).
Proof.
  intros (E & _ & _ & F & _) X. rewrite E in F. apply in_map_iff in X. destruct X as (g & Eg & Hg).
  rewrite Forall_forall in F. specialize (F g Hg). lia.
Qed.
Lemma rready_child h above f st s1 endp :
  rready h above f st ->
  let c := rf_new (r_next st) endp in
  rready (r_next st) (above ++ [f]) c (RSt s1 ((above ++ [f]) ++ [c]) (r_next st + 1)).
Proof.
  intros H c. pose proof (rready_last_fresh _ _ _ _ H) as Hf. destruct H as (E & Hid & Hn & F & I).
  split; [reflexivity|]. split; [reflexivity|]. split; [exact Hf|]. cbn [r_chain r_next]. split.
  - apply Forall_app. split; [|repeat constructor; cbn; lia]. rewrite <- E. eapply Forall_impl; [|exact F]. cbn. intros; lia.
  - repeat split; reflexivity.
Qed.
Lemma ridle_frame f h : rf_id f = h -> ridle f -> RF h (rf_end f) 0 ones 0 = f.
Proof. destruct f; unfold ridle; cbn. intros <- (-> & -> & ->). reflexivity. Qed.

Definition rpost (st st' : rstate) (s : rstream) : Prop :=
  r_stream st' = s /\ r_chain st' = r_chain st /\ r_next st <= r_next st'.

Lemma r_begin_ok e h key no payload st above f pre post fl :
  rready h above f st -> payload <> [] -> len key <= 40 ->
  r_stream st = rs_at pre (large_block fl vt_subsection key payload ++ post) fl ->
  len pre + len (large_block fl vt_subsection key payload) + len post < two64 ->
  r_begin e h key no st = Done (Some (r_next st), true,
    RSt (rs_at (pre ++ large_head fl vt_subsection key (len payload)) (payload ++ post) fl)
        ((above ++ [f]) ++ [rf_new (r_next st) (len pre + len (large_block fl vt_subsection key payload))]) (r_next st + 1)).
Proof.
  intros (E & Hid & Hn & F & I) Hp Hk Es Hs. unfold r_begin. rewrite E, split_at_mid by assumption. rewrite Es.
  rewrite begin_read_ok by (try assumption; unfold vt_subsection; lia). cbn [bind].
  rewrite rs_at_pos, len_app, len_large_head. rewrite len_large_block in *.
  assert (0 < len payload) by (destruct payload; [congruence|rewrite len_cons; lia]).
  destruct (N.eqb_spec (len pre + (10 + len key + len payload)) 0); [lia|].
  destruct (N.eqb_spec (len pre + (10 + len key + len payload)) (len pre + (10 + len key))); [lia|].
  rewrite app2. reflexivity.
Qed.

Lemma r_begin_empty e h key st above f pre post fl :
  rready h above f st -> len key <= 40 ->
  r_stream st = rs_at pre (large_block fl vt_subsection key [] ++ post) fl ->
  len pre + len (large_block fl vt_subsection key []) + len post < two64 ->
  r_begin e h key true st = Done (None, true,
    RSt (rs_at (pre ++ large_block fl vt_subsection key []) post fl) (r_chain st) (r_next st)).
Proof.
  intros (E & Hid & Hn & F & I) Hk Es Hs. unfold r_begin. rewrite E, split_at_mid by assumption. rewrite Es.
  rewrite begin_read_ok by (try assumption; unfold vt_subsection; lia). cbn [bind].
  rewrite large_block_head in *. rewrite app_nil_r in *. cbn [app].
  rewrite rs_at_pos, len_app, len_large_head.
  destruct (N.eqb_spec (len pre + (10 + len key)) 0); [lia|]. rewrite N.eqb_refl.
  unfold end_read_empty, end_read. rewrite rs_at_pos, len_app, len_large_head, N.eqb_refl. reflexivity.
Qed.

Lemma r_begin_arr_empty e h key ix st above f pre post fl :
  rready h above f st -> len key <= 40 ->
  r_stream st = rs_at pre (large_block fl vt_array_subsection key [] ++ post) fl ->
  len pre + len (large_block fl vt_array_subsection key []) + len post < two64 ->
  r_begin_arr e h key true ix st = Done (None, 0, true, ix,
    RSt (rs_at (pre ++ large_block fl vt_array_subsection key []) post fl) (r_chain st) (r_next st)).
Proof.
  intros (E & Hid & Hn & F & I) Hk Es Hs. unfold r_begin_arr. rewrite E, split_at_mid by assumption. rewrite Es.
  rewrite begin_read_ok by (try assumption; unfold vt_array_subsection; lia). cbn [bind].
  rewrite large_block_head in *. rewrite app_nil_r in *. cbn [app].
  rewrite rs_at_pos, len_app, len_large_head.
  destruct (N.eqb_spec (len pre + (10 + len key)) 0); [lia|]. rewrite N.eqb_refl.
  unfold end_read_empty, end_read. rewrite rs_at_pos, len_app, len_large_head, N.eqb_refl. reflexivity.
Qed.

Lemma r_begin_arr_ok e h key no n ix dix es st above f pre post fl :
  rready h above f st -> len key <= 40 -> n < two64 ->
  (match ix with Some l => ix_ok l /\ len l * 4 <= e_lim e | None => True end) ->
  (match ix, dix with Some _, Some _ | None, None => True | _, _ => False end) ->
  let payload := meta_bytes fl 0 n ix ++ es in
  let blk := large_block fl vt_array_subsection key payload in
  r_stream st = rs_at pre (blk ++ post) fl -> len pre + len blk + len post < two64 ->
  r_begin_arr e h key no dix st = Done (Some (r_next st), n, true, ix,
    RSt (rs_at (pre ++ large_head fl vt_array_subsection key (len payload) ++ meta_bytes fl 0 n ix) (es ++ post) fl)
        ((above ++ [RF h (rf_end f) n ones 0]) ++ [rf_new (r_next st) (len pre + len blk)]) (r_next st + 1)).
Proof.
  intros (E & Hid & Hn & F & (I1 & I2 & I3)) Hk Hnn Hix Hd payload blk Es Hs.
  unfold r_begin_arr. rewrite E, split_at_mid by assumption. rewrite Es. unfold blk.
  rewrite begin_read_ok by (try assumption; unfold vt_array_subsection; lia). cbn [bind].
  rewrite rs_at_pos, len_app, len_large_head. unfold blk in Hs. rewrite len_large_block in *.
  assert (Hp : len payload = meta_len ix + len es) by (unfold payload; rewrite len_app, len_meta_bytes; reflexivity).
  assert (10 <= meta_len ix) by (unfold meta_len; lia).
  destruct (N.eqb_spec (len pre + (10 + len key + len payload)) 0); [lia|].
  destruct (N.eqb_spec (len pre + (10 + len key + len payload)) (len pre + (10 + len key))); [lia|].
  replace (payload ++ post) with (meta_bytes fl 0 n ix ++ es ++ post) by (unfold payload; rewrite <- app_assoc; reflexivity).
  rewrite read_meta_ok; try assumption; try lia.
  - cbn [bind negb]. rewrite app2, Hid, I3, <- app_assoc. reflexivity.
  - rewrite !len_app, len_large_head. lia.
  - rewrite len_app, len_large_head. lia.
Qed.

Lemma r_end_ok h st above f c pre post fl :
  r_chain st = (above ++ [f]) ++ [c] -> rf_id f = h -> ~ In h (map rf_id above) -> ridle f ->
  r_stream st = rs_at pre post fl -> rf_end c = len pre ->
  r_end h (Some (rf_id c)) st = Done (true, RSt (r_stream st) (above ++ [f]) (r_next st)).
Proof.
  intros E Hid Hn I Es He. unfold r_end. rewrite E, <- app_assoc. cbn [app]. rewrite split_at_mid by assumption.
  cbn [head_id hdl_eqb]. rewrite N.eqb_refl. cbn [negb]. rewrite Es. unfold end_read. rewrite rs_at_pos, He, N.eqb_refl.
  rewrite Hid. destruct I as (I1 & I2 & I3). rewrite I1, I2, (ridle_frame f h Hid) by (repeat split; assumption). reflexivity.
Qed.
Lemma r_end_arr_ok h st above f c pre post fl :
  r_chain st = (above ++ [f]) ++ [c] -> rf_id f = h -> ~ In h (map rf_id above) ->
  add64 (rf_index f) 1 = rf_size f ->
  r_stream st = rs_at pre post fl -> rf_end c = len pre ->
  r_end_arr h (Some (rf_id c)) st = Done (true, RSt (r_stream st) (above ++ [RF h (rf_end f) 0 ones 0]) (r_next st)).
Proof.
  intros E Hid Hn I Es He. unfold r_end_arr. rewrite E, <- app_assoc. cbn [app]. rewrite split_at_mid by assumption.
  cbn [head_id hdl_eqb]. rewrite N.eqb_refl, I, N.eqb_refl. cbn [negb]. rewrite Es. unfold end_read. rewrite rs_at_pos, He, N.eqb_refl, Hid.
  reflexivity.
Qed.

Definition rspec_node (w : node) : Prop := forall r e h above f st pre post fl,
  node_mirrors w r -> node_ok w -> rready h above f st ->
  r_stream st = rs_at pre (node_bytes fl w ++ post) fl ->
  4 * len (node_bytes fl w) <= e_lim e -> len pre + len (node_bytes fl w) + len post < two64 ->
  exists st', read_node e h r st = Done (true, node_seen w, st') /\ rpost st st' (rs_at (pre ++ node_bytes fl w) post fl).
Definition rspec_nodes (w : nodes) : Prop := forall r e h above f st pre post fl,
  nodes_mirror w r -> nodes_ok w -> rready h above f st ->
  r_stream st = rs_at pre (nodes_bytes fl w ++ post) fl ->
  4 * len (nodes_bytes fl w) <= e_lim e -> len pre + len (nodes_bytes fl w) + len post < two64 ->
  exists st', read_nodes e h r st = Done (true, nodes_seen w, st') /\ rpost st st' (rs_at (pre ++ nodes_bytes fl w) post fl).
Definition rspec_elems (w : sections) : Prop := forall r e h above f ch i st pre post fl,
  elems_mirror w r -> elems_ok w ->
  r_chain st = (above ++ [f]) ++ [ch] -> rf_id f = h -> ridle ch ->
  ~ In h (map rf_id above) -> ~ In (rf_id ch) (map rf_id (above ++ [f])) ->
  Forall (fun g => rf_id g < r_next st) (r_chain st) ->
  add64 (rf_index f) 1 = i -> i + slen w <= rf_size f -> rf_size f < ones ->
  r_stream st = rs_at pre (elems_bytes fl w ++ post) fl ->
  4 * len (elems_bytes fl w) <= e_lim e -> len pre + len (elems_bytes fl w) + len post < two64 ->
  exists st' f', read_elems e h (rf_id ch) i r st = Done (true, elems_seen w, st') /\
    r_stream st' = rs_at (pre ++ elems_bytes fl w) post fl /\
    r_chain st' = (above ++ [f']) ++ [ch] /\ rf_id f' = h /\ rf_end f' = rf_end f /\ rf_size f' = rf_size f /\
    add64 (rf_index f') 1 = i + slen w /\ r_next st <= r_next st'.

Lemma encode_nonempty fl t k v : encode fl t k v <> [].
Proof.
  destruct v; cbn [encode]; unfold single_block, array_block, small_block, large_block; try destruct (dshape t); discriminate.
Qed.
Lemma node_bytes_nonempty fl n : node_bytes fl n <> [].
Proof. destruct n; try discriminate. apply encode_nonempty. Qed.
Lemma nodes_bytes_nonempty fl b : b <> Nil -> nodes_bytes fl b <> [].
Proof.
  destruct b as [|n b]; [congruence|]. intros _. cbn [nodes_bytes]. pose proof (node_bytes_nonempty fl n).
  destruct (node_bytes fl n); [congruence|discriminate].
Qed.
Lemma slen_mirror w : forall r, elems_mirror w r -> slen r = slen w.
Proof. induction w as [|b w IH]; intros [|b' r] H; cbn in *; try contradiction; [reflexivity|]. rewrite IH by tauto. reflexivity. Qed.

Lemma nodes_mirror_nonnil w r : w <> Nil -> match w with Nil => True | _ => nodes_mirror w r end -> nodes_mirror w r.
Proof. destruct w; [congruence|auto]. Qed.
Lemma nodes_eq_nil (b : nodes) : b = Nil \/ b <> Nil.
Proof. destruct b; [left|right]; congruence. Qed.
Lemma node_seen_section key b : b <> Nil -> node_seen (NSection key b) = NSection key (nodes_seen b).
Proof. destruct b; [congruence|reflexivity]. Qed.

Lemma read_doc_ok : (forall n, rspec_node n) /\ (forall l, rspec_nodes l) /\ (forall l, rspec_elems l).
Proof.
  apply doc_mind.
  - (* item *)
    intros i r e h above f st pre post fl M (Hv & Hk) R Es Hal Hs. destruct r as [j| | | |]; try contradiction M.
    destruct M as ((M1 & M2 & M3 & M4) & Hr). cbn [node_bytes] in *.
    destruct R as (E & Hid & Hn & F & I). cbn [read_node node_seen]. unfold r_read. rewrite E, split_at_mid by assumption.
    rewrite Es, M1, M2, er_read_delivered by (try assumption; congruence). cbn [bind].
    rewrite replaced_delivered by (rewrite ?M1 in Hr; assumption).
    eexists. split; [destruct i; reflexivity|]. split; [reflexivity|]. split; [cbn; congruence|cbn; lia].
  - (* section *)
    intros key body IH r e h above f st pre post fl M (Hk & Hok) R Es Hal Hs.
    change (node_bytes fl (NSection key body)) with (large_block fl vt_subsection key (nodes_bytes fl body)) in *.
    destruct (nodes_eq_nil body) as [->|Hb].
    + cbn [nodes_bytes node_seen] in *.
      assert (Eb := r_begin_empty e h key st above f pre post fl R Hk Es Hs).
      destruct r as [|k' b'|k'| |]; try contradiction M; destruct M as (<- & _); cbn [read_node]; rewrite Eb; cbn [bind];
        (eexists; split; [reflexivity|]; split; [reflexivity|]; split; [reflexivity|cbn; lia]).
    + destruct r as [|k' b'|k'| |]; try contradiction M.
      2:{ destruct M as (_ & M). contradiction. }
      destruct M as (<- & M). apply nodes_mirror_nonnil in M; [|exact Hb].
      assert (Hne := nodes_bytes_nonempty fl body Hb).
      cbn [read_node]. rewrite (r_begin_ok e h key true _ st above f pre post fl R Hne Hk Es Hs). cbn [bind].
      pose proof (rready_child h above f st (rs_at (pre ++ large_head fl vt_subsection key (len (nodes_bytes fl body))) (nodes_bytes fl body ++ post) fl)
        (len pre + len (large_block fl vt_subsection key (nodes_bytes fl body))) R) as R1. cbn zeta in R1.
      rewrite len_large_block in *.
      destruct (IH b' e _ _ _ _ _ post fl M Hok R1 eq_refl) as (st2 & E2 & (S2 & C2 & N2)); [lia|rewrite len_app, len_large_head; lia|].
      rewrite E2. cbn [bind negb r_chain r_next r_stream] in *. rewrite <- app_assoc in S2.
      destruct R as (E & Hid & Hn & F & I).
      pose proof (r_end_ok h st2 above f _ _ post fl C2 Hid Hn I S2) as Q. cbn [rf_new rf_id rf_end] in Q. rewrite Q.
      * cbn [bind]. rewrite node_seen_section by exact Hb. eexists. split; [reflexivity|]. split; [|split; [cbn; congruence|cbn; lia]].
        cbn [r_stream]. rewrite S2, large_block_head. reflexivity.
      * rewrite !len_app, len_large_head. lia.
  - (* null section *)
    intros key r e h above f st pre post fl M Hk R Es Hal Hs. cbn [node_ok] in Hk.
    change (node_bytes fl (NNullSection key)) with (large_block fl vt_subsection key []) in *.
    assert (Eb := r_begin_empty e h key st above f pre post fl R Hk Es Hs).
    destruct r as [|k' b'|k'| |]; try contradiction M; cbn in M; subst k'; cbn [read_node]; rewrite Eb; cbn [bind];
        (eexists; split; [reflexivity|]; split; [reflexivity|]; split; [reflexivity|cbn; lia]).
  - (* array *)
    intros key ix elems IH r e h above f st pre post fl M (Hk & Hix & Hok) R Es Hal Hs. rewrite node_bytes_array in *.
    destruct r as [| | |k' ix' elems'|]; try contradiction M. destruct M as (<- & Mix & M).
    pose proof (elems_bytes_bound fl elems) as Hb.
    assert (Hlen := len_large_block fl vt_array_subsection key (meta_bytes fl 0 (slen elems) ix ++ elems_bytes fl elems)).
    rewrite len_app, len_meta_bytes in Hlen.
    assert (Hn1 : slen elems < ones) by (unfold ones, two64 in *; lia).
    cbn [read_node]. rewrite (slen_mirror _ _ M).
    assert (Hml : match ix with Some l => len l * 4 <= meta_len ix | None => True end) by (unfold meta_len; destruct ix; [lia|exact I]).
    rewrite (r_begin_arr_ok e h key true (slen elems) ix _ (elems_bytes fl elems) st above f pre post fl R Hk); try assumption.
    2: unfold ones, two64 in *; lia.
    2: destruct ix; [split; [exact Hix|lia]|exact I].
    2: destruct ix, ix'; try contradiction Mix; exact I.
    cbn [bind]. rewrite N.eqb_refl. cbn [negb].
    set (pl := meta_bytes fl 0 (slen elems) ix ++ elems_bytes fl elems) in *.
    set (pos := len pre + len (large_block fl vt_array_subsection key pl)).
    pose proof (rready_child h above f st (r_stream st) pos R) as R1. cbn zeta in R1.
    destruct R as (E & Hid & Hn & F & I).
    destruct (IH elems' e h above (RF h (rf_end f) (slen elems) ones 0) (rf_new (r_next st) pos) 0
       (RSt (rs_at (pre ++ large_head fl vt_array_subsection key (len pl) ++ meta_bytes fl 0 (slen elems) ix) (elems_bytes fl elems ++ post) fl)
          ((above ++ [RF h (rf_end f) (slen elems) ones 0]) ++ [rf_new (r_next st) pos]) (r_next st + 1))
       (pre ++ large_head fl vt_array_subsection key (len pl) ++ meta_bytes fl 0 (slen elems) ix) post fl)
      as (st2 & f' & E2 & S2 & C2 & I2 & X2 & Z2 & Y2 & N2); try assumption; try reflexivity.
    + repeat split; reflexivity.
    + destruct R1 as (_ & _ & Q & _). rewrite map_app in Q. cbn [map] in Q. rewrite Hid in Q. rewrite map_app. exact Q.
    + destruct R1 as (_ & _ & _ & Q & _). cbn [r_chain r_next] in *. rewrite !Forall_app in *.
      destruct Q as ((Q1 & Q2) & Q3). split; [|exact Q3]. split; [exact Q1|]. constructor; [|constructor]. cbn.
      inversion Q2; subst. assumption.
    + cbn. lia.
    + rewrite !len_app, len_large_head, len_meta_bytes. lia.
    + change (rf_id (rf_new (r_next st) pos)) with (r_next st) in E2. rewrite E2. cbn [bind negb r_chain r_next r_stream rf_end rf_size] in *.
      assert (Hend : add64 (rf_index f') 1 = rf_size f') by (rewrite Y2, Z2; lia).
      pose proof (r_end_arr_ok h st2 above f' _ _ post fl C2 I2 Hn Hend S2) as Q. cbn [rf_new rf_id rf_end] in Q. rewrite Q.
      * cbn [bind node_seen]. eexists. split; [reflexivity|]. split; [|split; [|cbn; lia]].
        -- cbn [r_stream]. rewrite S2, large_block_head. unfold pl. rewrite <- !app_assoc. reflexivity.
        -- cbn [r_chain]. rewrite X2, (ridle_frame f h Hid I). congruence.
      * unfold pos. rewrite Hlen, !len_app, len_large_head, len_meta_bytes. lia.
  - (* null array *)
    intros key r e h above f st pre post fl M Hk R Es Hal Hs. cbn [node_ok] in Hk.
    change (node_bytes fl (NNullArray key)) with (large_block fl vt_array_subsection key []) in *.
    assert (Eb := fun ix => r_begin_arr_empty e h key ix st above f pre post fl R Hk Es Hs).
    destruct r as [| | |k' ix' b'|k']; try contradiction M; cbn in M; subst k'; cbn [read_node]; rewrite Eb; cbn [bind];
        (eexists; split; [reflexivity|]; split; [reflexivity|]; split; [reflexivity|cbn; lia]).
  - (* no nodes *)
    intros r e h above f st pre post fl M Hok R Es Hal Hs. destruct r; [|contradiction M].
    exists st. cbn [nodes_bytes read_nodes nodes_seen] in *. rewrite app_nil_r. split; [reflexivity|].
    split; [exact Es|]. split; [reflexivity|lia].
  - (* node, nodes *)
    intros n IHn l IHl r e h above f st pre post fl M (Hok1 & Hok2) R Es Hal Hs. destruct r as [|n' r]; [contradiction M|].
    destruct M as (M1 & M2). cbn [nodes_bytes read_nodes nodes_seen] in *. rewrite len_app in Hal, Hs. rewrite <- app_assoc in Es.
    destruct (IHn n' e h above f st pre _ fl M1 Hok1 R Es) as (st1 & E1 & (S1 & C1 & N1)); [lia|rewrite len_app; lia|].
    rewrite E1. cbn [bind negb].
    destruct (IHl r e h above f st1 (pre ++ node_bytes fl n) post fl M2 Hok2) as (st2 & E2 & (S2 & C2 & N2));
      [| exact S1 | lia | rewrite len_app; lia |].
    + destruct R as (E & Hid & Hn & F & I). repeat split; try assumption; try congruence; try apply I.
      rewrite C1. eapply Forall_impl; [|exact F]. cbn. intros; lia.
    + rewrite E2. cbn [bind]. exists st2. split; [reflexivity|]. rewrite app_assoc. split; [exact S2|]. split; [congruence|lia].
  - (* no elements *)
    intros r e h above f ch i st pre post fl M Hok HC Hid Hch Hn1 Hn2 F Hix Hsz Hs1 Es Hal Hs. destruct r; [|contradiction M].
    exists st, f. cbn [elems_bytes read_elems slen elems_seen] in *. rewrite app_nil_r, N.add_0_r.
    split; [reflexivity|]. split; [exact Es|]. repeat split; try assumption; lia.
  - (* element, elements *)
    intros body IHb l IHl r e h above f ch i st pre post fl M (Hok1 & Hok2) HC Hid Hch Hn1 Hn2 F Hix Hsz Hs1 Es Hal Hs.
    destruct r as [|b' r]; [contradiction M|]. destruct M as (M1 & M2).
    cbn [elems_bytes read_elems slen elems_seen] in *. rewrite !len_app, len_num in Hal, Hs. cbn [wbytes] in Hal, Hs.
    rewrite <- !app_assoc in Es.
    unfold r_begin_in at 1. rewrite HC, <- app_assoc. cbn [app]. rewrite split_at_mid by assumption.
    cbn [head_id hdl_eqb]. rewrite N.eqb_refl, Hix, N.eqb_refl. cbn [negb].
    destruct (N.leb_spec (rf_size f) i) as [X|_]; [lia|].
    rewrite Es. rewrite rs_u64n; [|lia|rewrite !len_app; lia]. cbn [bind].
    rewrite rs_at_pos, len_app, len_num. cbn [wbytes]. rewrite add64_small by lia.
    set (f1 := RF (rf_id f) (rf_end f) (rf_size f) i (len pre + 8 + len (nodes_bytes fl body))).
    set (s1 := rs_at (pre ++ num W64 fl (len (nodes_bytes fl body))) (nodes_bytes fl body ++ elems_bytes fl l ++ post) fl).
    set (st1 := RSt s1 (above ++ f1 :: [ch]) (r_next st)).
    assert (B : exists st2, (if negb (len (nodes_bytes fl body) =? 0) : bool then read_nodes e (rf_id ch) b' st1 else Done (true, Nil, st1))
                 = Done (true, nodes_seen body, st2) /\
               rpost st1 st2 (rs_at ((pre ++ num W64 fl (len (nodes_bytes fl body))) ++ nodes_bytes fl body) (elems_bytes fl l ++ post) fl)).
    { destruct (nodes_eq_nil body) as [->|Hb].
      - cbn [nodes_bytes nodes_seen]. exists st1. split; [reflexivity|]. rewrite app_nil_r. split; [reflexivity|]. split; [reflexivity|lia].
      - assert (Hne := nodes_bytes_nonempty fl body Hb).
        destruct (N.eqb_spec (len (nodes_bytes fl body)) 0) as [X|_]; [apply len_0 in X; contradiction|]. cbn [negb].
        apply nodes_mirror_nonnil in M1; [|exact Hb].
        apply (IHb b' e (rf_id ch) (above ++ [f1]) ch st1); try assumption; try reflexivity.
        + unfold st1. repeat split; cbn [r_chain r_next]; try assumption; try apply Hch.
          * rewrite <- app_assoc. reflexivity.
          * rewrite map_app in *. exact Hn2.
          * rewrite HC in F. rewrite !Forall_app in F. destruct F as ((F1 & F2) & F3). rewrite Forall_app. split; [exact F1|].
            constructor; [inversion F2; assumption|exact F3].
        + lia.
        + rewrite !len_app, len_num. cbn [wbytes]. lia. }
    destruct B as (st2 & E2 & (S2 & C2 & N2)). rewrite E2. cbn [bind negb].
    unfold st1 in C2, N2. cbn [r_chain r_next] in C2, N2.
    unfold r_end_in at 1. rewrite C2. rewrite split_at_mid by (try assumption; exact Hid).
    cbn [head_id hdl_eqb negb]. rewrite N.eqb_refl. cbn [negb orb rf_index f1]. rewrite N.eqb_refl. cbn [negb rf_end_pos f1].
    rewrite S2, rs_at_pos, !len_app, len_num. cbn [wbytes bind]. rewrite N.eqb_refl. cbn [negb].
    destruct (IHl r e h above f1 ch (i + 1) st2
       ((pre ++ num W64 fl (len (nodes_bytes fl body))) ++ nodes_bytes fl body) post fl) as (st6 & f' & Q1 & Q2 & Q3 & Q4 & Q5 & Q6 & Q7 & Q8); try assumption.
    + rewrite C2, <- app_assoc. reflexivity.
    + rewrite map_app in *. exact Hn2.
    + rewrite C2. rewrite HC in F. rewrite !Forall_app in F. destruct F as ((F1 & F2) & F3). rewrite Forall_app.
      split; [eapply Forall_impl; [|exact F1]; cbn; intros; lia|].
      constructor; [inversion F2; subst; cbn; lia|]. inversion F3; subst. constructor; [lia|constructor].
    + cbn. apply add64_small. unfold ones, two64 in *. lia.
    + cbn. lia.
    + lia.
    + rewrite !len_app, len_num. cbn [wbytes]. lia.
    + cbn [f1 rf_end rf_size] in *.
      rewrite Q1. cbn [bind].
      exists st6, f'. split; [reflexivity|]. split; [|split; [exact Q3|split; [exact Q4|split; [exact Q5|split; [exact Q6|split; [rewrite Q7; lia|lia]]]]]].
      rewrite Q2, <- !app_assoc. reflexivity.
Qed.
