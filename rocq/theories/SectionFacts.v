(** * Facts about the section calls and documents. *)
From Verif Require Import Base Bytes BytesFacts Values Streams FileSpec ReadSpec StreamFacts StreamProps Types Format
  Accept EntityWriter EntityReader EntityWriterFacts PackFacts ArrayWriterFacts EntityReaderFacts EntitySafety ArraySafety
  ReadTotal Items ItemSpec EntityProps Sections Documents DocSpec.
Open Scope N_scope.

Scheme node_mind := Induction for node Sort Prop
  with nodes_mind := Induction for nodes Sort Prop
  with sections_mind := Induction for sections Sort Prop.
Combined Scheme doc_mind from node_mind, nodes_mind, sections_mind.

Lemma split_at_mid {A} (id : A -> N) h above f b :
  id f = h -> ~ In h (map id above) -> split_at id h (above ++ f :: b) = Some (above, f, b).
Proof.
  intros Hf. induction above as [|x above IH]; intros Hn; cbn [app split_at].
  - rewrite Hf, N.eqb_refl. reflexivity.
  - cbn [map] in Hn. destruct (N.eqb_spec (id x) h) as [E|_]; [exfalso; apply Hn; left; exact E|].
    rewrite IH; [reflexivity|]. intros X. apply Hn. right. exact X.
Qed.

Lemma split_at_app {A} (id : A -> N) h l a f b :
  split_at id h l = Some (a, f, b) -> l = a ++ f :: b /\ id f = h /\ ~ In h (map id a).
Proof.
  revert a f b. induction l as [|x l IH]; intros a f b H; cbn [split_at] in H; [discriminate|].
  destruct (N.eqb_spec (id x) h) as [E|E].
  - injection H as <- <- <-. cbn. auto.
  - destruct (split_at id h l) as [[[a' g] b']|]; [|discriminate]. injection H as <- <- <-.
    destruct (IH _ _ _ eq_refl) as (-> & <- & N0). split; [reflexivity|]. split; [reflexivity|].
    cbn [map]. intros [X|X]; [congruence|exact (N0 X)].
Qed.

(** Writing *)
Definition widle (f : wframe) : Prop := wf_size f = 0 /\ wf_index f = ones /\ wf_arr_start f = 0.
Definition wready (h : N) (above : list wframe) (f : wframe) (st : wstate) : Prop :=
  w_chain st = above ++ [f] /\ wf_id f = h /\ ~ In h (map wf_id above) /\
  Forall (fun g => wf_id g < w_next st) (w_chain st) /\ widle f.

Lemma hdl_refl h : hdl_eqb h h = true.
Proof. destruct h; [apply N.eqb_refl|reflexivity]. Qed.

Lemma sub64_8 a b : b < two64 -> a + 8 <= b -> sub64 (sub64 b a) 8 = b - a - 8.
Proof.
  intros H1 H2. unfold sub64, w64.
  replace (b + two64 - a) with ((b - a) + 1 * two64) by lia. rewrite N.mod_add by (unfold two64; lia).
  rewrite (N.mod_small (b - a)) by lia.
  replace (b - a + two64 - 8) with ((b - a - 8) + 1 * two64) by lia. rewrite N.mod_add by (unfold two64; lia).
  apply N.mod_small. lia.
Qed.
Lemma add64_small a b : a + b < two64 -> add64 a b = a + b.
Proof. intros H. unfold add64, w64. apply N.mod_small. exact H. Qed.
Lemma add64_ones : add64 ones 1 = 0.
Proof. reflexivity. Qed.

Lemma wready_last_fresh h above f st : wready h above f st -> ~ In (w_next st) (map wf_id (above ++ [f])).
Proof.
  intros (E & _ & _ & F & _) X. rewrite E in F. apply in_map_iff in X. destruct X as (g & Eg & Hg).
  rewrite Forall_forall in F. specialize (F g Hg). lia.
Qed.

Lemma elems_bytes_bound fl l : 8 * slen l <= len (elems_bytes fl l).
Proof.
  induction l as [|b l IH]; cbn [slen elems_bytes]; [lia|].
  rewrite !len_app, len_num. cbn [wbytes]. lia.
Qed.

(** begin of a section or array: the child is the last of the chain *)
Lemma wready_child h above f st s1 start :
  wready h above f st ->
  let c := WF (w_next st) start 0 ones 0 in
  wready (w_next st) (above ++ [f]) c (WSt s1 ((above ++ [f]) ++ [c]) (w_next st + 1)).
Proof.
  intros H c. pose proof (wready_last_fresh _ _ _ _ H) as Hf. destruct H as (E & Hid & Hn & F & I).
  split; [reflexivity|]. split; [reflexivity|]. split; [exact Hf|]. cbn [w_chain w_next]. split.
  - apply Forall_app. split; [|repeat constructor; cbn; lia]. rewrite <- E. eapply Forall_impl; [|exact F]. cbn. intros; lia.
  - repeat split; reflexivity.
Qed.

Lemma app2 {A} (l : list A) a b : l ++ [a; b] = (l ++ [a]) ++ [b].
Proof. rewrite <- app_assoc. reflexivity. Qed.
Lemma app2c {A} (l : list A) a b : l ++ a :: [b] = (l ++ [a]) ++ [b].
Proof. rewrite <- app_assoc. reflexivity. Qed.

Definition wpost (st st' : wstate) (c : list byte) (fl : bool) (lim : N) : Prop :=
  ws_at (w_stream st') c fl lim /\ w_chain st' = w_chain st /\ w_next st <= w_next st'.

Lemma begin_section_at h key st above f c fl lim :
  wready h above f st -> ws_at (w_stream st) c fl lim -> len key <= 40 -> 2 * (len c + 10 + len key) <= lim ->
  exists s1, w_begin h key st = Done (Some (w_next st),
      WSt s1 ((above ++ [f]) ++ [WF (w_next st) (len c) 0 ones 0]) (w_next st + 1)) /\
    ws_at s1 (c ++ large_open fl vt_subsection key) fl lim.
Proof.
  intros (E & Hid & Hn & F & I) H Hk Hlim. unfold w_begin. rewrite E, split_at_mid by assumption.
  destruct (begin_write_at vt_subsection key _ c fl lim H) as (s1 & E1 & H1); [lia|lia|]. rewrite E1. cbn [bind].
  exists s1. split; [|exact H1]. unfold wf_new. rewrite (ws_at_pos _ _ _ _ H), app2. reflexivity.
Qed.

Lemma end_section_at h key payload st above f hc start sz ixx ars rest c fl lim :
  w_chain st = (above ++ [f]) ++ WF hc start sz ixx ars :: rest -> wf_id f = h -> ~ In h (map wf_id above) ->
  start = len c -> ws_at (w_stream st) (c ++ large_open fl vt_subsection key ++ payload) fl lim ->
  len key <= 40 -> 2 * (len c + 10 + len key + len payload) <= lim ->
  exists s1, w_end h (Some hc) st = Done (true, WSt s1 (above ++ [f]) (w_next st)) /\
    ws_at s1 (c ++ large_block fl vt_subsection key payload) fl lim.
Proof.
  intros E Hid Hn -> H Hk Hlim. unfold w_end. rewrite E, <- app_assoc. cbn [app]. rewrite split_at_mid by assumption.
  cbn [head_id wf_id hdl_eqb]. rewrite N.eqb_refl. cbn [negb wf_start].
  destruct (end_write_at fl vt_subsection key payload _ c lim H) as (s1 & E1 & H1); [lia|lia|]. rewrite E1. cbn [bind].
  exists s1. auto.
Qed.

Lemma begin_arr_at h key n ix st above f c fl lim :
  wready h above f st -> ws_at (w_stream st) c fl lim -> len key <= 40 -> n < ones ->
  (match ix with Some l => ix_ok l | None => True end) -> 2 * (len c + 10 + len key + meta_len ix) <= lim ->
  exists s1, w_begin_arr h key n ix st = Done (Some (w_next st),
      WSt s1 ((above ++ [WF h (wf_start f) n ones 0]) ++ [WF (w_next st) (len c) 0 ones 0]) (w_next st + 1)) /\
    ws_at s1 (c ++ large_open fl vt_array_subsection key ++ meta_bytes fl 0 n ix) fl lim.
Proof.
  intros (E & Hid & Hn & F & I) H Hk Hnn Hix Hlim. unfold w_begin_arr. rewrite E, split_at_mid by assumption.
  destruct (begin_write_at vt_array_subsection key _ c fl lim H) as (s1 & E1 & H1); [lia|lia|]. rewrite E1. cbn [bind negb].
  destruct (N.eqb_spec n ones) as [X|_]; [lia|].
  destruct (write_meta_at 0 n ix s1 _ fl lim H1) as (s2 & E2 & H2); [lia|exact Hix|rewrite len_app, len_large_open; lia|].
  rewrite E2. cbn [bind negb]. exists s2. rewrite app_assoc. split; [|exact H2].
  unfold wf_new. rewrite (ws_at_pos _ _ _ _ H), app2, Hid. reflexivity.
Qed.

Lemma null_arr_at h key st above f c fl lim :
  wready h above f st -> ws_at (w_stream st) c fl lim -> len key <= 40 -> 2 * (len c + 10 + len key) <= lim ->
  exists s1, w_begin_arr h key ones None st = Done (Some (w_next st),
      WSt s1 ((above ++ [f]) ++ [WF (w_next st) (len c) 0 ones 0]) (w_next st + 1)) /\
    ws_at s1 (c ++ large_open fl vt_array_subsection key) fl lim.
Proof.
  intros (E & Hid & Hn & F & (I1 & I2 & I3)) H Hk Hlim. unfold w_begin_arr. rewrite E, split_at_mid by assumption.
  destruct (begin_write_at vt_array_subsection key _ c fl lim H) as (s1 & E1 & H1); [lia|lia|]. rewrite E1. cbn [bind negb].
  rewrite N.eqb_refl. exists s1. split; [|exact H1].
  unfold wf_new. rewrite (ws_at_pos _ _ _ _ H), app2. destruct f; cbn in *. subst. reflexivity.
Qed.

Lemma end_arr_at h key payload st above f hc start rest c fl lim :
  w_chain st = (above ++ [f]) ++ WF hc start 0 ones 0 :: rest -> wf_id f = h -> ~ In h (map wf_id above) ->
  add64 (wf_index f) 1 = wf_size f ->
  start = len c -> ws_at (w_stream st) (c ++ large_open fl vt_array_subsection key ++ payload) fl lim ->
  len key <= 40 -> 2 * (len c + 10 + len key + len payload) <= lim ->
  exists s1, w_end_arr h (Some hc) st = Done (true, WSt s1 (above ++ [WF h (wf_start f) 0 ones 0]) (w_next st)) /\
    ws_at s1 (c ++ large_block fl vt_array_subsection key payload) fl lim.
Proof.
  intros E Hid Hn Hix -> H Hk Hlim. unfold w_end_arr. rewrite E, <- app_assoc. cbn [app]. rewrite split_at_mid by assumption.
  cbn [head_id wf_id hdl_eqb]. rewrite N.eqb_refl, Hix, N.eqb_refl. cbn [negb wf_start].
  destruct (end_write_at fl vt_array_subsection key payload _ c lim H) as (s1 & E1 & H1); [lia|lia|]. rewrite E1. cbn [bind].
  exists s1. rewrite Hid. auto.
Qed.

Lemma idle_frame f h : wf_id f = h -> widle f -> WF h (wf_start f) 0 ones 0 = f.
Proof. destruct f; unfold widle; cbn. intros <- (-> & -> & ->). reflexivity. Qed.

Definition wspec_node (n : node) : Prop := forall h above f st c fl lim,
  wready h above f st -> ws_at (w_stream st) c fl lim -> node_ok n -> 2 * (len c + len (node_bytes fl n)) <= lim ->
  exists st', write_node h n st = Done (true, st') /\ wpost st st' (c ++ node_bytes fl n) fl lim.
Definition wspec_nodes (l : nodes) : Prop := forall h above f st c fl lim,
  wready h above f st -> ws_at (w_stream st) c fl lim -> nodes_ok l -> 2 * (len c + len (nodes_bytes fl l)) <= lim ->
  exists st', write_nodes h l st = Done (true, st') /\ wpost st st' (c ++ nodes_bytes fl l) fl lim.
Definition wspec_elems (l : sections) : Prop := forall h hc above f ch i st c fl lim,
  w_chain st = (above ++ [f]) ++ [ch] -> wf_id f = h -> wf_id ch = hc -> widle ch ->
  ~ In h (map wf_id above) -> ~ In hc (map wf_id (above ++ [f])) ->
  Forall (fun g => wf_id g < w_next st) (w_chain st) ->
  add64 (wf_index f) 1 = i -> i + slen l <= wf_size f -> wf_size f < ones ->
  ws_at (w_stream st) c fl lim -> elems_ok l -> 2 * (len c + len (elems_bytes fl l)) <= lim ->
  exists st' f', write_elems h hc i l st = Done (true, st') /\ ws_at (w_stream st') (c ++ elems_bytes fl l) fl lim /\
    w_chain st' = (above ++ [f']) ++ [ch] /\ wf_id f' = h /\ wf_start f' = wf_start f /\ wf_size f' = wf_size f /\
    add64 (wf_index f') 1 = i + slen l /\ w_next st <= w_next st'.

Lemma node_bytes_array fl key ix elems :
  node_bytes fl (NArray key ix elems)
  = large_block fl vt_array_subsection key (meta_bytes fl 0 (slen elems) ix ++ elems_bytes fl elems).
Proof. cbn [node_bytes]. unfold meta_bytes. rewrite <- !app_assoc. reflexivity. Qed.

Lemma write_doc_at : (forall n, wspec_node n) /\ (forall l, wspec_nodes l) /\ (forall l, wspec_elems l).
Proof.
  apply doc_mind.
  - (* item *)
    intros i h above f st c fl lim R H (Hv & Hk) Hlim. cbn [node_bytes] in *.
    destruct R as (E & Hid & Hn & F & I). cbn [write_node]. unfold w_write. rewrite E, split_at_mid by assumption.
    destruct (ew_write_at (i_type i) (i_key i) (i_val i) _ c fl lim H Hk Hv) as (s1 & E1 & H1); [lia|].
    rewrite E1. cbn [bind]. eexists. split; [reflexivity|]. split; [exact H1|]. cbn. split; [congruence|lia].
  - (* section *)
    intros key body IH h above f st c fl lim R H (Hk & Hok) Hlim.
    change (node_bytes fl (NSection key body)) with (large_block fl vt_subsection key (nodes_bytes fl body)) in *.
    rewrite len_large_block in Hlim. cbn [write_node].
    destruct (begin_section_at h key st above f c fl lim R H Hk) as (s1 & E1 & H1); [lia|]. rewrite E1. cbn [bind].
    pose proof (wready_child h above f st s1 (len c) R) as R1. cbn zeta in R1.
    destruct (IH _ _ _ _ _ fl lim R1 H1 Hok) as (st2 & E2 & (H2 & C2 & N2)); [rewrite len_app, len_large_open; lia|].
    rewrite E2. cbn [bind w_chain w_next] in *. rewrite <- app_assoc in H2.
    destruct R as (E & Hid & Hn & F & I).
    destruct (end_section_at h key (nodes_bytes fl body) st2 above f (w_next st) (len c) 0 ones 0 [] c fl lim C2 Hid Hn eq_refl H2 Hk)
      as (s3 & E3 & H3); [lia|].
    rewrite E3. eexists. split; [reflexivity|]. split; [exact H3|]. cbn. split; [congruence|lia].
  - (* null section *)
    intros key h above f st c fl lim R H Hk Hlim. cbn [node_ok] in Hk.
    change (node_bytes fl (NNullSection key)) with (large_block fl vt_subsection key []) in *.
    rewrite len_large_block, len_nil in Hlim. cbn [write_node]. unfold w_null.
    destruct (begin_section_at h key st above f c fl lim R H Hk) as (s1 & E1 & H1); [lia|]. rewrite E1. cbn [bind].
    destruct R as (E & Hid & Hn & F & I). rewrite <- (app_nil_r (large_open _ _ _)) in H1.
    destruct (end_section_at h key [] (WSt s1 ((above ++ [f]) ++ [WF (w_next st) (len c) 0 ones 0]) (w_next st + 1))
       above f (w_next st) (len c) 0 ones 0 [] c fl lim eq_refl Hid Hn eq_refl H1 Hk) as (s3 & E3 & H3); [rewrite len_nil; lia|].
    rewrite E3. eexists. split; [reflexivity|]. split; [exact H3|]. cbn. split; [congruence|lia].
  - (* array *)
    intros key ix elems IH h above f st c fl lim R H (Hk & Hix & Hok) Hlim. rewrite node_bytes_array in *.
    rewrite len_large_block, len_app, len_meta_bytes in Hlim. cbn [write_node].
    pose proof (elems_bytes_bound fl elems) as Hb. pose proof (ws_at_lim _ _ _ _ H) as Hl64.
    assert (Hn1 : slen elems < ones) by (unfold ones, two64 in *; lia).
    destruct (begin_arr_at h key (slen elems) ix st above f c fl lim R H Hk Hn1 Hix) as (s1 & E1 & H1); [lia|].
    rewrite E1. cbn [bind].
    pose proof (wready_child h above f st s1 (len c) R) as R1. cbn zeta in R1.
    destruct R as (E & Hid & Hn & F & I).
    destruct (IH h (w_next st) above (WF h (wf_start f) (slen elems) ones 0) (WF (w_next st) (len c) 0 ones 0) 0
       (WSt s1 ((above ++ [WF h (wf_start f) (slen elems) ones 0]) ++ [WF (w_next st) (len c) 0 ones 0]) (w_next st + 1))
       (c ++ large_open fl vt_array_subsection key ++ meta_bytes fl 0 (slen elems) ix) fl lim eq_refl eq_refl eq_refl) as (st2 & f' & E2 & H2 & C2 & I2 & S2 & Z2 & X2 & N2); try assumption.
    + repeat split; reflexivity.
    + destruct R1 as (_ & _ & Q & _). rewrite map_app in Q. cbn [map] in Q. rewrite Hid in Q. rewrite map_app. exact Q.
    + destruct R1 as (_ & _ & _ & Q & _). cbn [w_chain w_next] in *. rewrite !Forall_app in *.
      destruct Q as ((Q1 & Q2) & Q3). split; [|exact Q3]. split; [exact Q1|]. constructor; [|constructor]. cbn.
      inversion Q2; subst. assumption.
    + reflexivity.
    + cbn. lia.
    + rewrite !len_app, len_large_open, len_meta_bytes. lia.
    + rewrite E2. cbn [bind w_chain w_next wf_size wf_start] in *.
      assert (Hend : add64 (wf_index f') 1 = wf_size f') by (rewrite X2, Z2; lia).
      replace ((c ++ large_open fl vt_array_subsection key ++ meta_bytes fl 0 (slen elems) ix) ++ elems_bytes fl elems)
        with (c ++ large_open fl vt_array_subsection key ++ (meta_bytes fl 0 (slen elems) ix ++ elems_bytes fl elems)) in H2
        by (rewrite <- !app_assoc; reflexivity).
      destruct (end_arr_at h key _ st2 above f' (w_next st) (len c) [] c fl lim C2 I2 Hn Hend eq_refl H2 Hk) as (s3 & E3 & H3);
        [rewrite len_app, len_meta_bytes; lia|].
      rewrite E3. eexists. split; [reflexivity|]. split; [exact H3|]. cbn.
      rewrite S2, (idle_frame f h Hid I). split; [congruence|lia].
  - (* null array *)
    intros key h above f st c fl lim R H Hk Hlim. cbn [node_ok] in Hk.
    change (node_bytes fl (NNullArray key)) with (large_block fl vt_array_subsection key []) in *.
    rewrite len_large_block, len_nil in Hlim. cbn [write_node]. unfold w_null_arr.
    destruct (null_arr_at h key st above f c fl lim R H Hk) as (s1 & E1 & H1); [lia|]. rewrite E1. cbn [bind].
    destruct R as (E & Hid & Hn & F & I). rewrite <- (app_nil_r (large_open _ _ _)) in H1.
    assert (Hend : add64 (wf_index f) 1 = wf_size f) by (destruct I as (-> & -> & _); reflexivity).
    destruct (end_arr_at h key [] (WSt s1 ((above ++ [f]) ++ [WF (w_next st) (len c) 0 ones 0]) (w_next st + 1))
       above f (w_next st) (len c) [] c fl lim eq_refl Hid Hn Hend eq_refl H1 Hk) as (s3 & E3 & H3); [rewrite len_nil; lia|].
    rewrite E3. eexists. split; [reflexivity|]. split; [exact H3|]. cbn. rewrite (idle_frame f h Hid I). split; [congruence|lia].
  - (* no nodes *)
    intros h above f st c fl lim R H Hok Hlim. exists st. cbn [nodes_bytes write_nodes]. rewrite app_nil_r.
    split; [reflexivity|]. split; [exact H|]. split; [reflexivity|lia].
  - (* node, nodes *)
    intros n IHn l IHl h above f st c fl lim R H (Hok1 & Hok2) Hlim. cbn [nodes_bytes write_nodes] in *. rewrite len_app in Hlim.
    destruct (IHn h above f st c fl lim R H Hok1) as (st1 & E1 & (H1 & C1 & N1)); [lia|]. rewrite E1. cbn [bind].
    destruct (IHl h above f st1 (c ++ node_bytes fl n) fl lim) as (st2 & E2 & (H2 & C2 & N2)); [| exact H1 | exact Hok2 | rewrite len_app; lia |].
    + destruct R as (E & Hid & Hn & F & I). repeat split; try assumption; try congruence; try apply I.
      rewrite C1. eapply Forall_impl; [|exact F]. cbn. intros; lia.
    + exists st2. split; [exact E2|]. rewrite app_assoc. split; [exact H2|]. split; [congruence|lia].
  - (* no elements *)
    intros h hc above f ch i st c fl lim HC Hid Hidc Hch Hn1 Hn2 F Hix Hsz Hs1 H Hok Hlim.
    exists st, f. cbn [elems_bytes write_elems slen] in *. rewrite app_nil_r, N.add_0_r.
    split; [reflexivity|]. split; [exact H|]. repeat split; try assumption; lia.
  - (* element, elements *)
    intros body IHb l IHl h hc above f ch i st c fl lim HC Hid Hidc Hch Hn1 Hn2 F Hix Hsz Hs1 H (Hok1 & Hok2) Hlim.
    cbn [elems_bytes write_elems slen] in *. rewrite !len_app, len_num in Hlim. cbn [wbytes] in Hlim.
    pose proof (ws_at_lim _ _ _ _ H) as Hl64. pose proof (ws_at_pos _ _ _ _ H) as Hp.
    unfold w_begin_in at 1. rewrite HC, <- app_assoc. cbn [app]. rewrite split_at_mid by assumption.
    cbn [head_id hdl_eqb]. rewrite Hidc, N.eqb_refl, Hix, N.eqb_refl. cbn [negb].
    destruct (N.leb_spec (wf_size f) i) as [X|_]; [lia|].
    destruct (ws_u64_at maxint64 _ c fl lim H) as (s1 & E1 & H1); [lia|]. rewrite E1. cbn [bind].
    rewrite (ws_at_pos _ _ _ _ H1), Hp, len_app, len_enc. cbn [wbytes]. rewrite add64_small, N.eqb_refl by (unfold two64 in *; lia).
    cbn [negb].
    set (f1 := WF (wf_id f) (wf_start f) (wf_size f) i (len c)).
    set (st1 := WSt s1 (above ++ f1 :: [ch]) (w_next st)).
    destruct (IHb hc (above ++ [f1]) ch st1 (c ++ enc W64 fl maxint64) fl lim) as (st2 & E2 & (H2 & C2 & N2)); [| exact H1 | exact Hok1 | rewrite len_app, len_enc; cbn [wbytes]; lia |].
    { unfold st1. repeat split; cbn [w_chain w_next]; try assumption; try apply Hch.
      - rewrite <- app_assoc. reflexivity.
      - rewrite map_app in *. exact Hn2.
      - rewrite HC in F. rewrite !Forall_app in F. destruct F as ((F1 & F2) & F3). rewrite Forall_app. split; [exact F1|].
        constructor; [inversion F2; assumption|exact F3]. }
    rewrite E2. cbn [bind]. unfold st1 in C2, N2. cbn [w_chain w_next] in C2, N2.
    unfold w_end_in at 1. rewrite C2. rewrite split_at_mid by (try assumption; exact Hid).
    cbn [head_id hdl_eqb negb]. rewrite Hidc, N.eqb_refl. cbn [negb orb wf_index f1]. rewrite N.eqb_refl. cbn [negb wf_arr_start f1].
    pose proof (ws_at_pos _ _ _ _ H2) as Hp2. rewrite Hp2.
    rewrite <- app_assoc in H2.
    destruct (ws_patch_at (len c) (len (nodes_bytes fl body)) (w_stream st2) c (enc W64 fl maxint64) (nodes_bytes fl body) fl lim H2 eq_refl)
      as (s3 & s4 & s5 & P1 & P2 & P3 & P4).
    { apply len_enc. }
    { rewrite !len_app, len_enc. cbn [wbytes]. lia. }
    rewrite <- app_assoc. rewrite sub64_8; [|rewrite !len_app, len_enc; cbn [wbytes]; unfold two64 in *; lia
                              |rewrite !len_app, len_enc; cbn [wbytes]; lia].
    replace (len (c ++ enc W64 fl maxint64 ++ nodes_bytes fl body) - len c - 8) with (len (nodes_bytes fl body))
      by (rewrite !len_app, len_enc; cbn [wbytes]; lia).
    rewrite P1. cbn [thrown bind]. rewrite P2. cbn [bind]. rewrite P3. cbn [thrown bind].
    destruct (N.ltb_spec (len c) (len (c ++ enc W64 fl maxint64 ++ nodes_bytes fl body))) as [_|X];
      [|rewrite !len_app, len_enc in X; cbn [wbytes] in X; lia].
    destruct (IHl h hc above f1 ch (i + 1) (WSt s5 (above ++ f1 :: [ch]) (w_next st2))
       (c ++ enc W64 fl (len (nodes_bytes fl body)) ++ nodes_bytes fl body) fl lim) as (st6 & f' & Q1 & Q2 & Q3 & Q4 & Q5 & Q6 & Q7 & Q8).
    + cbn [w_chain]. rewrite <- app_assoc. reflexivity.
    + exact Hid.
    + exact Hidc.
    + exact Hch.
    + exact Hn1.
    + rewrite map_app in *. exact Hn2.
    + cbn [w_chain w_next]. rewrite HC in F. rewrite !Forall_app in F. destruct F as ((F1 & F2) & F3). rewrite Forall_app.
      split; [eapply Forall_impl; [|exact F1]; cbn; intros; lia|].
      constructor; [inversion F2; subst; cbn; lia|]. inversion F3; subst. constructor; [lia|constructor].
    + cbn. apply add64_small. unfold ones, two64 in *. lia.
    + cbn. lia.
    + cbn. exact Hs1.
    + cbn [w_stream]. exact P4.
    + exact Hok2.
    + rewrite !len_app, len_enc. cbn [wbytes]. lia.
    + cbn [w_stream w_chain w_next f1 wf_start wf_size] in *.
      exists st6, f'. split; [exact Q1|]. split; [|split; [exact Q3|split; [exact Q4|split; [exact Q5|split; [exact Q6|split; [rewrite Q7; lia|lia]]]]]].
      replace (c ++ num W64 fl (len (nodes_bytes fl body)) ++ nodes_bytes fl body ++ elems_bytes fl l)
        with ((c ++ enc W64 fl (len (nodes_bytes fl body)) ++ nodes_bytes fl body) ++ elems_bytes fl l)
        by (rewrite <- !app_assoc; reflexivity). exact Q2.
Qed.
