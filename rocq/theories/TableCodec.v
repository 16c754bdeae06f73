(** * EntityTable: serialization. Proofs. *)
From Verif Require Import Base Bytes BytesFacts Values Streams FileSpec ReadSpec StreamFacts StreamProps Types Format
  Accept EntityWriter EntityReader EntityWriterFacts PackFacts ArrayWriterFacts EntityReaderFacts EntitySafety ArraySafety
  ReadTotal Items ItemSpec EntityProps Sections Documents DocSpec SectionFacts SectionReadFacts SectionTheorems CodecFacts
  Keys KeySpec Classes Table TableSpec TableFacts.
From Verif Require GraphSets.
Local Open Scope N_scope.

Section S.
Context {K T : Type} (Ko : keyops K) (KL : key_laws Ko) (U : umap_impl K) (M : mf T) (doc : T -> nodes) (R : T -> T -> Prop).
Notation tb := (table K T).
Notation el := (list (K * option T)).

(** The written form of an entry. *)
Definition edoc (o : option T) : nodes := match o with Some x => doc x | None => Nil end.
Definition eelems (m : el) : sections := elems_of (map (fun p => edoc (snd p)) m).
Lemma slen_eelems m : slen (eelems m) = len m.
Proof. induction m as [|p m IH]; [reflexivity|]. unfold eelems in *. cbn [map elems_of slen]. rewrite IH, len_cons. lia. Qed.
Lemma eelems_cons p m fl : elems_bytes fl (eelems (p :: m)) =
  num W64 fl (len (nodes_bytes fl (edoc (snd p)))) ++ nodes_bytes fl (edoc (snd p)) ++ elems_bytes fl (eelems m).
Proof. reflexivity. Qed.

Definition ewrites (x : T) : Prop := writes (fun h st => m_write M h x st) (fun fl => nodes_bytes fl (doc x)).
Definition ereads (x : T) : Prop := doc x <> Nil /\ readsP (fun e h st => m_read M e h (m_new M) st) (fun fl => nodes_bytes fl (doc x)) (fun y => R y x).

Lemma entries_tail (P : T -> Prop) p m : entries P (p :: m) -> entries P (m : el).
Proof. intros H k x Hx. apply (H k). right; auto. Qed.

Lemma write_entries_at (m : el) : entries ewrites m -> forall h above f ch i st c fl lim,
  w_chain st = (above ++ [f]) ++ [ch] -> wf_id f = h -> widle ch ->
  ~ In h (map wf_id above) -> ~ In (wf_id ch) (map wf_id (above ++ [f])) ->
  Forall (fun g => wf_id g < w_next st) (w_chain st) ->
  add64 (wf_index f) 1 = i -> i + len m <= wf_size f -> wf_size f < ones ->
  ws_at (w_stream st) c fl lim -> 2 * (len c + len (elems_bytes fl (eelems m))) <= lim ->
  exists st' f', t_write_entries M h (Some (wf_id ch)) i m st = Done (true, st') /\ ws_at (w_stream st') (c ++ elems_bytes fl (eelems m)) fl lim /\
    w_chain st' = (above ++ [f']) ++ [ch] /\ wf_id f' = h /\ wf_start f' = wf_start f /\ wf_size f' = wf_size f /\
    add64 (wf_index f') 1 = i + len m /\ w_next st <= w_next st'.
Proof.
  induction m as [|[k o] m IHm]; intros HW h above f ch i st c fl lim HC Hid Hch Hn1 Hn2 F Hix Hsz Hs1 H Hlim.
  - exists st, f. cbn [t_write_entries elems_bytes eelems map elems_of] in *. rewrite app_nil_r, len_nil, N.add_0_r.
    split; [reflexivity|]. split; [exact H|]. repeat split; try assumption; lia.
  - pose proof (IHm (entries_tail _ _ _ HW)) as IHl. clear IHm. rewrite eelems_cons in *. cbn [snd] in *.
    cbn [t_write_entries]. rewrite len_cons in *. rewrite !len_app, len_num in Hlim. cbn [wbytes] in Hlim.
    set (body := edoc o) in *.
    pose proof (ws_at_lim _ _ _ _ H) as Hl64. pose proof (ws_at_pos _ _ _ _ H) as Hp.
    unfold w_begin_in at 1. rewrite HC, <- app_assoc. cbn [app]. rewrite split_at_mid by assumption.
    cbn [head_id hdl_eqb]. rewrite N.eqb_refl, Hix, N.eqb_refl. cbn [negb].
    destruct (N.leb_spec (wf_size f) i) as [X|_]; [lia|].
    destruct (ws_u64_at maxint64 _ c fl lim H) as (s1 & E1 & H1); [lia|]. rewrite E1. cbn [bind].
    rewrite (ws_at_pos _ _ _ _ H1), Hp, len_app, len_enc. cbn [wbytes]. rewrite add64_small, N.eqb_refl by (unfold two64 in *; lia).
    cbn [negb].
    set (f1 := WF (wf_id f) (wf_start f) (wf_size f) i (len c)).
    set (st1 := WSt s1 (above ++ f1 :: [ch]) (w_next st)).
    assert (B : exists st2, (match o with None => Done (true, st1) | Some x => m_write M (wf_id ch) x st1 end) = Done (true, st2) /\
       wpost st1 st2 ((c ++ enc W64 fl maxint64) ++ nodes_bytes fl body) fl lim).
    { destruct o as [x|].
      - apply (HW k x (or_introl eq_refl) (wf_id ch) (above ++ [f1]) ch st1); [|exact H1|rewrite len_app, len_enc; cbn [wbytes edoc] in *; unfold body in *; lia].
        unfold st1. repeat split; cbn [w_chain w_next]; try assumption; try apply Hch.
        + rewrite <- app_assoc. reflexivity.
        + rewrite map_app in *. exact Hn2.
        + rewrite HC in F. rewrite !Forall_app in F. destruct F as ((F1 & F2) & F3). rewrite Forall_app. split; [exact F1|].
          constructor; [inversion F2; assumption|exact F3].
      - exists st1. cbn [body edoc nodes_bytes]. rewrite app_nil_r. split; auto. split; [exact H1|]. split; [auto|lia]. }
    destruct B as (st2 & E2 & (H2 & C2 & N2)).
    rewrite E2. cbn [bind]. unfold st1 in C2, N2. cbn [w_chain w_next] in C2, N2. cbn [negb].
    unfold w_end_in at 1. rewrite C2. rewrite split_at_mid by (try assumption; exact Hid).
    cbn [head_id hdl_eqb negb]. rewrite N.eqb_refl. cbn [negb orb wf_index f1]. rewrite N.eqb_refl. cbn [negb wf_arr_start f1].
    pose proof (ws_at_pos _ _ _ _ H2) as Hp2. rewrite Hp2.
    rewrite <- app_assoc in H2.
    destruct (ws_patch_at (len c) (len (nodes_bytes fl body)) (w_stream st2) c (enc W64 fl maxint64) (nodes_bytes fl body) fl lim H2 eq_refl)
      as (s3 & s4 & s5 & P1 & P2 & P3 & P4).
    { apply len_enc. }
    { rewrite !len_app, len_enc. cbn [wbytes]. lia. }
    rewrite <- app_assoc. rewrite sub64_8; [|rewrite !len_app, len_enc; cbn [wbytes]; unfold two64 in *; lia
                              |rewrite !len_app, len_enc; cbn [wbytes]; lia].
    replace (len (c ++ enc W64 fl maxint64 ++ nodes_bytes fl body) - len c - 8) with (len (nodes_bytes fl body))
      by (rewrite !len_app, len_enc; cbn [wbytes]; lia).
    rewrite P1. cbn [thrown bind]. rewrite P2. cbn [bind]. rewrite P3. cbn [thrown bind].
    destruct (N.ltb_spec (len c) (len (c ++ enc W64 fl maxint64 ++ nodes_bytes fl body))) as [_|X];
      [|rewrite !len_app, len_enc in X; cbn [wbytes] in X; lia].
    cbn [negb].
    destruct (IHl h above f1 ch (i + 1) (WSt s5 (above ++ f1 :: [ch]) (w_next st2))
       (c ++ enc W64 fl (len (nodes_bytes fl body)) ++ nodes_bytes fl body) fl lim) as (st6 & f' & Q1 & Q2 & Q3 & Q4 & Q5 & Q6 & Q7 & Q8).
    + cbn [w_chain]. rewrite <- app_assoc. reflexivity.
    + exact Hid.
    + exact Hch.
    + exact Hn1.
    + rewrite map_app in *. exact Hn2.
    + cbn [w_chain w_next]. rewrite HC in F. rewrite !Forall_app in F. destruct F as ((F1 & F2) & F3). rewrite Forall_app.
      split; [eapply Forall_impl; [|exact F1]; cbn; intros; lia|].
      constructor; [inversion F2; subst; cbn; lia|]. inversion F3; subst. constructor; [lia|constructor].
    + cbn. apply add64_small. unfold ones, two64 in *. lia.
    + cbn. lia.
    + cbn. exact Hs1.
    + cbn [w_stream]. exact P4.
    + rewrite !len_app, len_enc. cbn [wbytes]. lia.
    + cbn [w_stream w_chain w_next f1 wf_start wf_size] in *.
      exists st6, f'. split; [exact Q1|]. split; [|split; [exact Q3|split; [exact Q4|split; [exact Q5|split; [exact Q6|split; [rewrite Q7; lia|lia]]]]]].
      replace (c ++ num W64 fl (len (nodes_bytes fl body)) ++ nodes_bytes fl body ++ elems_bytes fl (eelems m))
        with ((c ++ enc W64 fl (len (nodes_bytes fl body)) ++ nodes_bytes fl body) ++ elems_bytes fl (eelems m))
        by (rewrite <- !app_assoc; reflexivity). exact Q2.
Qed.

Lemma read_entries_at e (m : el) : entries ereads m -> forall (d : tb) h above f ch i st pre post fl,
  NoDup (map fst m) -> is_table d -> (forall k, In k (map fst m) -> t_find Ko k d = None) ->
  r_chain st = (above ++ [f]) ++ [ch] -> rf_id f = h -> ridle ch ->
  ~ In h (map rf_id above) -> ~ In (rf_id ch) (map rf_id (above ++ [f])) ->
  Forall (fun g => rf_id g < r_next st) (r_chain st) ->
  add64 (rf_index f) 1 = i -> i + len m <= rf_size f -> rf_size f < ones ->
  r_stream st = rs_at pre (elems_bytes fl (eelems m) ++ post) fl ->
  4 * len (elems_bytes fl (eelems m)) <= e_lim e -> len pre + len (elems_bytes fl (eelems m)) + len post < two64 ->
  exists m' st' f', t_read_entries Ko U M e h (Some (rf_id ch)) i (map fst m) d st = Done (true, m', st') /\
    (is_table m' /\ forall k, match lookup Ko k m with
              | Some o => exists o', t_find Ko k m' = Some o' /\ orel R o' o
              | None => t_find Ko k m' = t_find Ko k d
              end) /\
    r_stream st' = rs_at (pre ++ elems_bytes fl (eelems m)) post fl /\
    r_chain st' = (above ++ [f']) ++ [ch] /\ rf_id f' = h /\ rf_end f' = rf_end f /\ rf_size f' = rf_size f /\
    add64 (rf_index f') 1 = i + len m /\ r_next st <= r_next st'.
Proof.
  induction m as [|[k o] m IHm]; intros HR d h above f ch i st pre post fl Nm Sd Dis HC Hid Hch Hn1 Hn2 F Hix Hsz Hs1 Es Hal Hs.
  - exists d, st, f. cbn [t_read_entries elems_bytes eelems map elems_of] in *. rewrite !app_nil_r, len_nil, N.add_0_r.
    split; [reflexivity|]. split; [split; [exact Sd|intros; reflexivity]|]. split; [exact Es|]. repeat split; try assumption; lia.
  - pose proof (IHm (entries_tail _ _ _ HR)) as IHl. clear IHm. rewrite eelems_cons in *. cbn [snd] in *.
    cbn [map fst] in Nm, Dis. inversion Nm as [|? ? Nk Nm']; subst.
    cbn [map fst t_read_entries]. rewrite len_cons in *. rewrite !len_app, len_num in Hal, Hs. cbn [wbytes] in Hal, Hs.
    rewrite <- !app_assoc in Es. set (body := edoc o) in *. set (i := add64 (rf_index f) 1) in *. set (h := rf_id f) in *.
    unfold r_begin_in at 1. rewrite HC, <- app_assoc. cbn [app]. rewrite split_at_mid by (reflexivity || assumption).
    cbn [head_id hdl_eqb]. rewrite N.eqb_refl. fold i. rewrite N.eqb_refl. cbn [negb].
    destruct (N.leb_spec (rf_size f) i) as [X|_]; [lia|].
    rewrite Es. rewrite rs_u64n; [|lia|rewrite !len_app; lia]. cbn [bind].
    rewrite rs_at_pos, len_app, len_num. cbn [wbytes]. rewrite add64_small by lia.
    set (f1 := RF (rf_id f) (rf_end f) (rf_size f) i (len pre + 8 + len (nodes_bytes fl body))).
    set (s1 := rs_at (pre ++ num W64 fl (len (nodes_bytes fl body))) (nodes_bytes fl body ++ elems_bytes fl (eelems m) ++ post) fl).
    set (st1 := RSt s1 (above ++ f1 :: [ch]) (r_next st)). cbn [negb].
    set (hd := negb (len (nodes_bytes fl body) =? 0)). 
    pose proof (emplace_spec Ko KL U k (if hd then Some (m_new M) else None) d Sd) as Em. rewrite (Dis k (or_introl eq_refl)) in Em.
    destruct Em as (d1 & Em & Sd1 & _ & Fd1). 
    match goal with |- context [t_emplace Ko U k ?v d] => change v with (if hd then Some (m_new M) else None) end.
    rewrite Em. cbn [negb]. cbv beta iota.
    assert (B : exists d2 o' st2, (if hd then do q <- m_read M e (rf_id ch) (m_new M) st1; let '(ok2, x, st2) := q in
                     Done (ok2, t_assign Ko k (Some x) d1, st2)
               else Done (true, d1, st1)) = Done (true, d2, st2) /\
               (is_table d2 /\ orel R o' o /\ forall x, t_find Ko x d2 = if k_eq Ko x k then Some o' else t_find Ko x d) /\
               rpost st1 st2 (rs_at ((pre ++ num W64 fl (len (nodes_bytes fl body))) ++ nodes_bytes fl body) (elems_bytes fl (eelems m) ++ post) fl)).
    { destruct o as [x|].
      - destruct (HR k x (or_introl eq_refl)) as [Hb Hrd].
        assert (Hne := nodes_bytes_nonempty fl body Hb). unfold hd in *.
        destruct (N.eqb_spec (len (nodes_bytes fl body)) 0) as [X|_]; [apply len_0 in X; contradiction|]. cbn [negb] in *.
        destruct (Hrd e (rf_id ch) (above ++ [f1]) ch st1 (pre ++ num W64 fl (len (nodes_bytes fl body))) (elems_bytes fl (eelems m) ++ post) fl) as (y & st2 & E2 & Ry & P2).
        + unfold st1. repeat split; cbn [r_chain r_next]; try assumption; try apply Hch.
          * rewrite <- app_assoc. reflexivity.
          * rewrite map_app in *. exact Hn2.
          * rewrite HC in F. rewrite !Forall_app in F. destruct F as ((F1 & F2) & F3). rewrite Forall_app. split; [exact F1|].
            constructor; [inversion F2; assumption|exact F3].
        + reflexivity.
        + change (edoc (Some x)) with (doc x) in body. subst body. lia.
        + change (edoc (Some x)) with (doc x) in body. subst body. rewrite !len_app, len_num. cbn [wbytes]. lia.
        + exists (t_assign Ko k (Some y) d1), (Some y), st2. rewrite E2. cbn [bind]. split; [reflexivity|]. split; [|exact P2].
          split; [apply assign_ok; exact Sd1|]. split; [exact Ry|]. intros z. rewrite (find_assign Ko KL), !Fd1, (eqk_refl Ko KL). destruct (k_eq Ko z k); reflexivity.
      - exists d1, None, st1. unfold hd in *. cbn [body edoc nodes_bytes] in *. change (len (@nil byte) =? 0) with true in *. cbn [negb] in *.
        split; [reflexivity|]. split; [|rewrite app_nil_r; split; [reflexivity|]; split; [auto|lia]].
        split; [exact Sd1|]. split; [exact I|exact Fd1]. }
    destruct B as (d2 & o' & st2 & E2 & (Sd2 & Ro & Fd2) & (S2 & C2 & N2)).
    match type of E2 with ?l = _ => match goal with |- context [bind ?t _] => change t with l end end.
    rewrite E2. cbn [bind negb].
    unfold st1 in C2, N2. cbn [r_chain r_next] in C2, N2.
    unfold r_end_in at 1. rewrite C2. rewrite split_at_mid by (try assumption; reflexivity).
    cbn [head_id hdl_eqb negb]. rewrite N.eqb_refl. cbn [negb orb rf_index f1]. rewrite N.eqb_refl. cbn [negb rf_end_pos f1].
    rewrite S2, rs_at_pos, !len_app, len_num. cbn [wbytes bind]. rewrite N.eqb_refl. cbn [negb].
    destruct (IHl d2 h above f1 ch (i + 1) st2
       ((pre ++ num W64 fl (len (nodes_bytes fl body))) ++ nodes_bytes fl body) post fl) as (m' & st6 & f' & Q1 & (Q0 & Qf) & Q2 & Q3 & Q4 & Q5 & Q6 & Q7 & Q8); try assumption; try reflexivity.
    + intros k' Hk'. rewrite Fd2, (eqk_neq Ko KL) by (intros ->; contradiction). apply Dis. right; auto.
    + rewrite C2, <- app_assoc. reflexivity.
    + rewrite map_app in *. exact Hn2.
    + rewrite C2. rewrite HC in F. rewrite !Forall_app in F. destruct F as ((F1 & F2) & F3). rewrite Forall_app.
      split; [eapply Forall_impl; [|exact F1]; cbn; intros; lia|].
      constructor; [inversion F2; subst; cbn; lia|]. inversion F3; subst. constructor; [lia|constructor].
    + cbn. apply add64_small. unfold ones, two64 in *. lia.
    + cbn. lia.
    + lia.
    + rewrite !len_app, len_num. cbn [wbytes]. lia.
    + cbn [f1 rf_end rf_size] in *.
      rewrite Q1.
      exists m', st6, f'. split; [reflexivity|]. split; [|split; [|split; [exact Q3|split; [exact Q4|split; [exact Q5|split; [exact Q6|split; [rewrite Q7; lia|lia]]]]]]].
      * split; [exact Q0|]. intros x. specialize (Qf x). rewrite (lookup_cons Ko). cbn [fst snd]. destruct (k_eq Ko x k) eqn:Ex.
        -- apply (eqk_spec Ko KL) in Ex. subst x. rewrite (proj2 (lookup_none Ko KL k m) Nk) in Qf. rewrite Fd2, (eqk_refl Ko KL) in Qf. eauto.
        -- destruct (lookup Ko x m); [exact Qf|]. rewrite Qf, Fd2, Ex. reflexivity.
      * rewrite Q2, <- !app_assoc. reflexivity.
Qed.

Lemma keys_back (m : el) : map (k_of Ko) (map (fun p => k_val Ko (fst p)) m) = map fst m.
Proof. rewrite map_map. apply map_ext. intros. apply KL. Qed.
Lemma ids_ok (m : el) : len m < 2^63 -> item_ok (Item (k_type Ko) key_ids (CVec (map (fun p => k_val Ko (fst p)) m))).
Proof.
  intros H. split; [|vm_compute; discriminate]. split; [apply Forall_map, Forall_forall; intros; apply KL|]. unfold len in *. rewrite map_length. exact H.
Qed.
Lemma table_bytes (m : tb) fl : nodes_bytes fl (table_doc Ko doc m) =
  encode fl (k_type Ko) key_ids (CVec (map (fun p => k_val Ko (fst p)) (t_list m))) ++
  large_block fl vt_array_subsection key_entities (meta_bytes fl 0 (len (t_list m)) None ++ elems_bytes fl (eelems (t_list m))).
Proof.
  unfold table_doc. cbn [nodes_bytes]. rewrite node_bytes_array, app_nil_r. rewrite <- slen_eelems. reflexivity.
Qed.

Lemma writes_entities (m : el) : entries ewrites m ->
  writes (fun h st => do r2 <- w_begin_arr h key_entities (len m) None st; let '(c, st2) := r2 in
    match c with
    | None => Done (false, st2)
    | Some hc =>
      do r3 <- t_write_entries M h (Some hc) 0 m st2; let '(ok3, st3) := r3 in
      if negb ok3 then Done (false, st3) else w_end_arr h (Some hc) st3
    end) (fun fl => large_block fl vt_array_subsection key_entities (meta_bytes fl 0 (len m) None ++ elems_bytes fl (eelems m))).
Proof.
  intros HW h above f st c fl lim Rw H Hlim.
  assert (Hk : len key_entities <= 40) by (vm_compute; discriminate).
  rewrite len_large_block, len_app, len_meta_bytes in Hlim.
  pose proof (elems_bytes_bound fl (eelems m)) as Hb. rewrite slen_eelems in Hb. pose proof (ws_at_lim _ _ _ _ H) as Hl64.
  assert (Hn1 : len m < ones) by (unfold ones, two64 in *; lia).
  destruct (begin_arr_at h key_entities (len m) None st above f c fl lim Rw H Hk Hn1 I) as (s1 & E1 & H1); [lia|].
  rewrite E1. cbn [bind].
  pose proof (wready_child h above f st s1 (len c) Rw) as R1. cbn zeta in R1.
  destruct Rw as (E & Hid & Hn & F & I).
  destruct (write_entries_at m HW h above (WF h (wf_start f) (len m) ones 0) (WF (w_next st) (len c) 0 ones 0) 0
     (WSt s1 ((above ++ [WF h (wf_start f) (len m) ones 0]) ++ [WF (w_next st) (len c) 0 ones 0]) (w_next st + 1))
     (c ++ large_open fl vt_array_subsection key_entities ++ meta_bytes fl 0 (len m) None) fl lim eq_refl eq_refl) as (st2 & f' & E2 & H2 & C2 & I2 & S2 & Z2 & X2 & N2); try assumption.
  + repeat split; reflexivity.
  + destruct R1 as (_ & _ & Q & _). rewrite map_app in Q. cbn [map] in Q. rewrite Hid in Q. rewrite map_app. exact Q.
  + destruct R1 as (_ & _ & _ & Q & _). cbn [w_chain w_next] in *. rewrite !Forall_app in *.
    destruct Q as ((Q1 & Q2) & Q3). split; [|exact Q3]. split; [exact Q1|]. constructor; [|constructor]. cbn.
    inversion Q2; subst. assumption.
  + reflexivity.
  + cbn. lia.
  + rewrite !len_app, len_large_open, len_meta_bytes. lia.
  + cbn [wf_id] in E2. rewrite E2. cbn [bind w_chain w_next wf_size wf_start negb] in *.
    assert (Hend : add64 (wf_index f') 1 = wf_size f') by (rewrite X2, Z2; lia).
    replace ((c ++ large_open fl vt_array_subsection key_entities ++ meta_bytes fl 0 (len m) None) ++ elems_bytes fl (eelems m))
      with (c ++ large_open fl vt_array_subsection key_entities ++ (meta_bytes fl 0 (len m) None ++ elems_bytes fl (eelems m))) in H2
      by (rewrite <- !app_assoc; reflexivity).
    destruct (end_arr_at h key_entities _ st2 above f' (w_next st) (len c) [] c fl lim C2 I2 Hn Hend eq_refl H2 Hk) as (s3 & E3 & H3);
      [rewrite len_app, len_meta_bytes; lia|].
    rewrite E3. eexists. split; [reflexivity|]. split; [exact H3|]. cbn.
    rewrite S2, (idle_frame f h Hid I). split; [congruence|lia].
Qed.

Lemma t_writes (m : tb) : len (t_list m) < 2^63 -> entries ewrites (t_list m) -> writes (fun h st => t_write Ko M h m st) (fun fl => nodes_bytes fl (table_doc Ko doc m)).
Proof.
  intros HL HW. eapply writes_ext; [exact (writes_seq _ _ _ _ (writes_item _ _ _ (ids_ok _ HL)) (writes_entities _ HW))| |intros fl; apply table_bytes].
  intros h st. unfold t_write. destruct (w_write h (k_type Ko) key_ids _ st) as [[[] st1]| |]; reflexivity.
Qed.

Lemma reads_entities (m : el) (d : tb) : NoDup (map fst m) -> entries ereads m ->
  readsP (fun e h st =>
  do r2 <- r_begin_arr e h key_entities false None st; let '(c, map_size, ok2, _, st2) := r2 in
  if negb ok2 then Done (false, d, st2) else
  if negb (map_size =? len (map fst m)) then Done (false, d, st2) else
  do r3 <- t_read_entries Ko U M e h c 0 (map fst m) (t_clear U d) st2; let '(ok3, m3, st3) := r3 in
  if negb ok3 then Done (false, m3, st3) else
  do r4 <- r_end_arr h c st3; let '(ok4, st4) := r4 in Done (ok4, m3, st4))
   (fun fl => large_block fl vt_array_subsection key_entities (meta_bytes fl 0 (len m) None ++ elems_bytes fl (eelems m)))
   (fun m' => is_table m' /\ forall k, match lookup Ko k m with
              | Some o => exists o', t_find Ko k m' = Some o' /\ orel R o' o
              | None => t_find Ko k m' = None
              end).
Proof.
  intros Sm HR e h above f st pre post fl Rr Es Hal Hs. cbv beta in Es, Hal, Hs.
  assert (Hk : len key_entities <= 40) by (vm_compute; discriminate).
  pose proof (elems_bytes_bound fl (eelems m)) as Hb. rewrite slen_eelems in Hb.
  assert (Hlen := len_large_block fl vt_array_subsection key_entities (meta_bytes fl 0 (len m) None ++ elems_bytes fl (eelems m))).
  rewrite len_app, len_meta_bytes in Hlen.
  assert (Hn1 : len m < ones) by (unfold ones, two64 in *; lia).
  rewrite (r_begin_arr_ok e h key_entities false (len m) None None (elems_bytes fl (eelems m)) st above f pre post fl Rr Hk); try assumption; try exact I.
  2: unfold ones, two64 in *; lia.
  cbn [bind]. replace (len (map fst m)) with (len m) by (unfold len; rewrite map_length; auto). rewrite N.eqb_refl. cbn [negb].
  set (pl := meta_bytes fl 0 (len m) None ++ elems_bytes fl (eelems m)) in *.
  set (pos := len pre + len (large_block fl vt_array_subsection key_entities pl)).
  pose proof (rready_child h above f st (r_stream st) pos Rr) as R1. cbn zeta in R1.
  destruct Rr as (E & Hid & Hn & F & I).
  destruct (read_entries_at e m HR (t_clear U d) h above (RF h (rf_end f) (len m) ones 0) (rf_new (r_next st) pos) 0
     (RSt (rs_at (pre ++ large_head fl vt_array_subsection key_entities (len pl) ++ meta_bytes fl 0 (len m) None) (elems_bytes fl (eelems m) ++ post) fl)
        ((above ++ [RF h (rf_end f) (len m) ones 0]) ++ [rf_new (r_next st) pos]) (r_next st + 1))
     (pre ++ large_head fl vt_array_subsection key_entities (len pl) ++ meta_bytes fl 0 (len m) None) post fl Sm (clear_ok U d) (fun _ _ => eq_refl))
    as (m' & st2 & f' & E2 & (Sm' & Fm') & S2 & C2 & I2 & X2 & Z2 & Y2 & N2); try assumption; try reflexivity.
  + repeat split; reflexivity.
  + destruct R1 as (_ & _ & Q & _). rewrite map_app in Q. cbn [map] in Q. rewrite Hid in Q. rewrite map_app. exact Q.
  + destruct R1 as (_ & _ & _ & Q & _). cbn [r_chain r_next] in *. rewrite !Forall_app in *.
    destruct Q as ((Q1 & Q2) & Q3). split; [|exact Q3]. split; [exact Q1|]. constructor; [|constructor]. cbn.
    inversion Q2; subst. assumption.
  + lia.
  + rewrite !len_app, len_large_head, len_meta_bytes. lia.
  + change (rf_id (rf_new (r_next st) pos)) with (r_next st) in E2. rewrite E2. cbn [app bind negb r_chain r_next r_stream rf_end rf_size] in *.
    assert (Hend : add64 (rf_index f') 1 = rf_size f') by (rewrite Y2, Z2; lia).
    pose proof (r_end_arr_ok h st2 above f' _ _ post fl C2 I2 Hn Hend S2) as Q. cbn [rf_new rf_id rf_end] in Q. rewrite Q.
    * cbn [bind node_seen]. eexists _, _. split; [reflexivity|]. split; [split; [exact Sm'|exact Fm']|]. split; [|split; [|cbn; lia]].
      -- cbn [r_stream]. rewrite S2, large_block_head. unfold pl. rewrite <- !app_assoc. reflexivity.
      -- cbn [r_chain]. rewrite X2, (ridle_frame f h Hid I). congruence.
    * unfold pos. rewrite Hlen, !len_app, len_large_head, len_meta_bytes. lia.
Qed.

Lemma t_reads (m d : tb) : is_table m -> len (t_list m) < 2^63 -> entries ereads (t_list m) ->
  readsP (fun e h st => t_read Ko U M e h d st) (fun fl => nodes_bytes fl (table_doc Ko doc m)) (fun m' => is_table m' /\ same_map Ko R m' m).
Proof.
  intros Sm HL HR.
  pose proof (GraphSets.replaced_nil (k_type Ko)) as Rep.
  assert (Ok0 : cval_ok (k_type Ko) (CVec [])) by (split; [constructor|reflexivity]).
  assert (Q := readsP_imp _ _ _ (fun m' => is_table m' /\ same_map Ko R m' m) (reads_entities (t_list m) d Sm HR)
    (fun m' H => conj (proj1 H) (same_orel Ko R m' m (proj2 H)))).
  assert (Q2 := readsP_seq _ (fun ks e h st1 =>
  do r2 <- r_begin_arr e h key_entities false None st1; let '(c, map_size, ok2, _, st2) := r2 in
  if negb ok2 then Done (false, d, st2) else
  if negb (map_size =? len (t_keys_of Ko ks)) then Done (false, d, st2) else
  do r3 <- t_read_entries Ko U M e h c 0 (t_keys_of Ko ks) (t_clear U d) st2; let '(ok3, m3, st3) := r3 in
  if negb ok3 then Done (false, m3, st3) else
  do r4 <- r_end_arr h c st3; let '(ok4, st4) := r4 in Done (ok4, m3, st4)) (fun _ => d) _ (fun fl => large_block fl vt_array_subsection key_entities (meta_bytes fl 0 (len (t_list m)) None ++ elems_bytes fl (eelems (t_list m)))) (eq (CVec (map (fun p => k_val Ko (fst p)) (t_list m)))) (fun m' => is_table m' /\ same_map Ko R m' m)
      (reads_P _ _ _ _ (reads_item _ _ _ (CVec []) (ids_ok (t_list m) HL) eq_refl Ok0 Rep) eq_refl)). cbv beta in Q2.
  eapply readsP_ext; [apply Q2| |intros fl; apply table_bytes].
  - intros x <-. cbn [t_keys_of]. rewrite keys_back. exact Q.
  - intros e h st. unfold t_read. destruct (r_read e h (k_type Ko) key_ids (CVec []) st) as [[[[] ks] st1]| |]; reflexivity.
Qed.
End S.
