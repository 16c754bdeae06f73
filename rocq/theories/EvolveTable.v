(** * Reading tables of entities of another definition. Proofs. *)
From Verif Require Import Base Bytes BytesFacts Values Streams FileSpec ReadSpec StreamFacts StreamProps Types Format
  Accept EntityWriter EntityReader EntityWriterFacts PackFacts ArrayWriterFacts EntityReaderFacts EntitySafety ArraySafety
  ReadTotal Items ItemSpec EntityProps Sections Documents DocSpec SectionFacts SectionReadFacts SectionTheorems CodecFacts
  Keys KeySpec Classes Table TableSpec TableFacts TableCodec EvolveSpec EvolveItem EvolveFacts.
From Verif Require GraphSets.
Local Open Scope N_scope.

Section S.
Context {K T T' : Type} (Ko : keyops K) (KL : key_laws Ko) (U : umap_impl K) (M : mf T') (doc : T -> nodes) (A : T -> T' -> Prop).
Notation el := (list (K * option T)).
Notation eelems := (eelems doc).
Notation edoc := (edoc doc).

Definition edecides (x : T) : Prop := doc x <> Nil /\ decides (fun e h st => m_read M e h (m_new M) st) (fun fl => nodes_bytes fl (doc x)) (A x).
Definition oas (a : option T) (b : option T') : Prop :=
  match a, b with Some x, Some y => A x y | None, None => True | _, _ => False end.

Lemma read_entries_at e (m : el) : entries edecides m -> forall (d : table K T') h above f ch i st pre post fl,
  NoDup (map fst m) -> is_table d -> (forall k, In k (map fst m) -> t_find Ko k d = None) ->
  r_chain st = (above ++ [f]) ++ [ch] -> rf_id f = h -> ridle ch ->
  ~ In h (map rf_id above) -> ~ In (rf_id ch) (map rf_id (above ++ [f])) ->
  Forall (fun g => rf_id g < r_next st) (r_chain st) ->
  add64 (rf_index f) 1 = i -> i + len m <= rf_size f -> rf_size f < ones ->
  r_stream st = rs_at pre (elems_bytes fl (eelems m) ++ post) fl ->
  4 * len (elems_bytes fl (eelems m)) <= e_lim e -> len pre + len (elems_bytes fl (eelems m)) + len post < lim62 ->
  exists ok m' st', t_read_entries Ko U M e h (Some (rf_id ch)) i (map fst m) d st = Done (ok, m', st') /\
    if ok : bool then exists f',
    (is_table m' /\ forall k, match lookup Ko k m with
              | Some o => exists o', t_find Ko k m' = Some o' /\ oas o o'
              | None => t_find Ko k m' = t_find Ko k d
              end) /\
    r_stream st' = rs_at (pre ++ elems_bytes fl (eelems m)) post fl /\
    r_chain st' = (above ++ [f']) ++ [ch] /\ rf_id f' = h /\ rf_end f' = rf_end f /\ rf_size f' = rf_size f /\
    add64 (rf_index f') 1 = i + len m /\ r_next st <= r_next st'
    else exists k x, In (k, Some x) m /\ forall y, ~ A x y.
Proof.
  induction m as [|[k o] m IHm]; intros HR d h above f ch i st pre post fl Nm Sd Dis HC Hid Hch Hn1 Hn2 F Hix Hsz Hs1 Es Hal Hs.
  - exists true, d, st. cbn [t_read_entries elems_bytes TableCodec.eelems map elems_of] in *. rewrite !app_nil_r, len_nil, N.add_0_r.
    split; [reflexivity|]. exists f. split; [split; [exact Sd|intros; reflexivity]|]. split; [exact Es|]. repeat split; try assumption; lia.
  - pose proof (IHm (entries_tail _ _ _ HR)) as IHl. clear IHm. rewrite eelems_cons in *. cbn [snd] in *.
    cbn [map fst] in Nm, Dis. inversion Nm as [|? ? Nk Nm']; subst.
    cbn [map fst t_read_entries]. rewrite len_cons in *. rewrite !len_app, len_num in Hal, Hs. cbn [wbytes] in Hal, Hs.
    rewrite <- !app_assoc in Es. set (body := edoc o) in *. set (i := add64 (rf_index f) 1) in *. set (h := rf_id f) in *.
    assert (Hs64 : len pre + (8 + (len (nodes_bytes fl body) + len (elems_bytes fl (eelems m)))) + len post < two64) by (unfold lim62, two64 in *; lia).
    unfold r_begin_in at 1. rewrite HC, <- app_assoc. cbn [app]. rewrite split_at_mid by (reflexivity || assumption).
    cbn [head_id hdl_eqb]. rewrite N.eqb_refl. fold i. rewrite N.eqb_refl. cbn [negb].
    destruct (N.leb_spec (rf_size f) i) as [X|_]; [lia|].
    rewrite Es. rewrite rs_u64n; [|lia|rewrite !len_app; lia]. cbn [bind].
    rewrite rs_at_pos, len_app, len_num. cbn [wbytes]. rewrite add64_small by lia.
    set (f1 := RF (rf_id f) (rf_end f) (rf_size f) i (len pre + 8 + len (nodes_bytes fl body))).
    set (s1 := rs_at (pre ++ num W64 fl (len (nodes_bytes fl body))) (nodes_bytes fl body ++ elems_bytes fl (eelems m) ++ post) fl).
    set (st1 := RSt s1 (above ++ f1 :: [ch]) (r_next st)). cbn [negb].
    set (hd := negb (len (nodes_bytes fl body) =? 0)). 
    pose proof (emplace_spec Ko KL U k (if hd then Some (m_new M) else None) d Sd) as Em. rewrite (Dis k (or_introl eq_refl)) in Em.
    destruct Em as (d1 & Em & Sd1 & _ & Fd1). 
    match goal with |- context [t_emplace Ko U k ?v d] => change v with (if hd then Some (m_new M) else None) end.
    rewrite Em. cbn [negb]. cbv beta iota.
    assert (B : (exists d2 st2, (if hd then do q <- m_read M e (rf_id ch) (m_new M) st1; let '(ok2, x, st2) := q in
                     Done (ok2, t_assign Ko k (Some x) d1, st2)
               else Done (true, d1, st1)) = Done (false, d2, st2) /\ exists x, o = Some x /\ forall y, ~ A x y) \/
      exists d2 o' st2, (if hd then do q <- m_read M e (rf_id ch) (m_new M) st1; let '(ok2, x, st2) := q in
                     Done (ok2, t_assign Ko k (Some x) d1, st2)
               else Done (true, d1, st1)) = Done (true, d2, st2) /\
               (is_table d2 /\ oas o o' /\ forall x, t_find Ko x d2 = if k_eq Ko x k then Some o' else t_find Ko x d) /\
               rpost st1 st2 (rs_at ((pre ++ num W64 fl (len (nodes_bytes fl body))) ++ nodes_bytes fl body) (elems_bytes fl (eelems m) ++ post) fl)).
    { destruct o as [x|].
      - destruct (HR k x (or_introl eq_refl)) as [Hb Hrd].
        assert (Hne := nodes_bytes_nonempty fl body Hb). unfold hd in *.
        destruct (N.eqb_spec (len (nodes_bytes fl body)) 0) as [X|_]; [apply len_0 in X; contradiction|]. cbn [negb] in *.
        destruct (Hrd e (rf_id ch) (above ++ [f1]) ch st1 (pre ++ num W64 fl (len (nodes_bytes fl body))) (elems_bytes fl (eelems m) ++ post) fl) as (ok & y & st2 & E2 & P2).
        + unfold st1. repeat split; cbn [r_chain r_next]; try assumption; try apply Hch.
          * rewrite <- app_assoc. reflexivity.
          * rewrite map_app in *. exact Hn2.
          * rewrite HC in F. rewrite !Forall_app in F. destruct F as ((F1 & F2) & F3). rewrite Forall_app. split; [exact F1|].
            constructor; [inversion F2; assumption|exact F3].
        + reflexivity.
        + change (edoc (Some x)) with (doc x) in body. subst body. lia.
        + change (edoc (Some x)) with (doc x) in body. subst body. rewrite !len_app, len_num. cbn [wbytes]. lia.
        + rewrite E2. cbn [bind]. destruct ok; [|left; eexists _, _; split; [reflexivity|eauto]]. right. destruct P2 as [Ry P2].
          exists (t_assign Ko k (Some y) d1), (Some y), st2. split; [reflexivity|]. split; [|exact P2].
          split; [apply assign_ok; exact Sd1|]. split; [exact Ry|]. intros z. rewrite (find_assign Ko KL), !Fd1, (eqk_refl Ko KL). destruct (k_eq Ko z k); reflexivity.
      - right. exists d1, None, st1. unfold hd in *. cbn [body edoc nodes_bytes] in *. change (len (@nil byte) =? 0) with true in *. cbn [negb] in *.
        split; [reflexivity|]. split; [|rewrite app_nil_r; split; [reflexivity|]; split; [auto|lia]].
        split; [exact Sd1|]. split; [exact I|exact Fd1]. }
    destruct B as [(d2 & st2 & E2 & x & -> & Hx)|B].
    { match type of E2 with ?l = _ => match goal with |- context [bind ?t _] => change t with l end end.
      rewrite E2. cbn [bind negb]. eexists false, _, _. split; [reflexivity|]. exists k, x. split; [left; reflexivity|exact Hx]. }
    destruct B as (d2 & o' & st2 & E2 & (Sd2 & Ro & Fd2) & (S2 & C2 & N2)).
    match type of E2 with ?l = _ => match goal with |- context [bind ?t _] => change t with l end end.
    rewrite E2. cbn [bind negb].
    unfold st1 in C2, N2. cbn [r_chain r_next] in C2, N2.
    unfold r_end_in at 1. rewrite C2. rewrite split_at_mid by (try assumption; reflexivity).
    cbn [head_id hdl_eqb negb]. rewrite N.eqb_refl. cbn [negb orb rf_index f1]. rewrite N.eqb_refl. cbn [negb rf_end_pos f1].
    rewrite S2, rs_at_pos, !len_app, len_num. cbn [wbytes bind]. rewrite N.eqb_refl. cbn [negb].
    destruct (IHl d2 h above f1 ch (i + 1) st2
       ((pre ++ num W64 fl (len (nodes_bytes fl body))) ++ nodes_bytes fl body) post fl) as ([|] & m' & st6 & Q1 & Q); try assumption; try reflexivity.
    + intros k' Hk'. rewrite Fd2, (eqk_neq Ko KL) by (intros ->; contradiction). apply Dis. right; auto.
    + rewrite C2, <- app_assoc. reflexivity.
    + rewrite map_app in *. exact Hn2.
    + rewrite C2. rewrite HC in F. rewrite !Forall_app in F. destruct F as ((F1 & F2) & F3). rewrite Forall_app.
      split; [eapply Forall_impl; [|exact F1]; cbn; intros; lia|].
      constructor; [inversion F2; subst; cbn; lia|]. inversion F3; subst. constructor; [lia|constructor].
    + cbn. apply add64_small. unfold ones, two64 in *. lia.
    + cbn. lia.
    + lia.
    + rewrite !len_app, len_num. cbn [wbytes]. lia.
    + destruct Q as (f' & (Q0 & Qf) & Q2 & Q3 & Q4 & Q5 & Q6 & Q7 & Q8). cbn [f1 rf_end rf_size] in *. rewrite Q1.
      exists true, m', st6. split; [reflexivity|]. exists f'. split; [|split; [|split; [exact Q3|split; [exact Q4|split; [exact Q5|split; [exact Q6|split; [rewrite Q7; lia|lia]]]]]]].
      * split; [exact Q0|]. intros x. specialize (Qf x). rewrite (lookup_cons Ko). cbn [fst snd]. destruct (k_eq Ko x k) eqn:Ex.
        -- apply (eqk_spec Ko KL) in Ex. subst x. rewrite (proj2 (lookup_none Ko KL k m) Nk) in Qf. rewrite Fd2, (eqk_refl Ko KL) in Qf. eauto.
        -- destruct (lookup Ko x m); [exact Qf|]. rewrite Qf, Fd2, Ex. reflexivity.
      * rewrite Q2, <- !app_assoc. reflexivity.
    + destruct Q as (kx & xx & Qi & Qn). rewrite Q1. eexists false, _, _. split; [reflexivity|]. exists kx, xx. split; [right; exact Qi|exact Qn].
Qed.


Lemma decides_entities (m : el) (d : table K T') : NoDup (map fst m) -> entries edecides m ->
  decides (fun e h st =>
  do r2 <- r_begin_arr e h key_entities false None st; let '(c, map_size, ok2, _, st2) := r2 in
  if negb ok2 then Done (false, d, st2) else
  if negb (map_size =? len (map fst m)) then Done (false, d, st2) else
  do r3 <- t_read_entries Ko U M e h c 0 (map fst m) (t_clear U d) st2; let '(ok3, m3, st3) := r3 in
  if negb ok3 then Done (false, m3, st3) else
  do r4 <- r_end_arr h c st3; let '(ok4, st4) := r4 in Done (ok4, m3, st4))
   (fun fl => large_block fl vt_array_subsection key_entities (meta_bytes fl 0 (len m) None ++ elems_bytes fl (eelems m)))
   (fun m' => is_table m' /\ forall k, match lookup Ko k m with
              | Some o => exists o', t_find Ko k m' = Some o' /\ oas o o'
              | None => t_find Ko k m' = None
              end).
Proof.
  intros Sm HR e h above f st pre post fl Rr Es Hal Hs. cbv beta in Es, Hal, Hs.
  assert (Hk : len key_entities <= 40) by (vm_compute; discriminate).
  pose proof (elems_bytes_bound fl (eelems m)) as Hb. rewrite slen_eelems in Hb.
  assert (Hlen := len_large_block fl vt_array_subsection key_entities (meta_bytes fl 0 (len m) None ++ elems_bytes fl (eelems m))).
  rewrite len_app, len_meta_bytes in Hlen.
  assert (Hs64 : len pre + len (large_block fl vt_array_subsection key_entities (meta_bytes fl 0 (len m) None ++ elems_bytes fl (eelems m))) + len post < two64) by (unfold lim62, two64 in *; lia).
  assert (Hn1 : len m < ones) by (unfold ones, two64 in *; lia).
  rewrite (r_begin_arr_ok e h key_entities false (len m) None None (elems_bytes fl (eelems m)) st above f pre post fl Rr Hk); try assumption; try exact I.
  2: unfold ones, two64 in *; lia.
  cbn [bind]. replace (len (map fst m)) with (len m) by (unfold len; rewrite map_length; auto). rewrite N.eqb_refl. cbn [negb].
  set (pl := meta_bytes fl 0 (len m) None ++ elems_bytes fl (eelems m)) in *.
  set (pos := len pre + len (large_block fl vt_array_subsection key_entities pl)).
  pose proof (rready_child h above f st (r_stream st) pos Rr) as R1. cbn zeta in R1.
  destruct Rr as (E & Hid & Hn & F & I).
  destruct (read_entries_at e m HR (t_clear U d) h above (RF h (rf_end f) (len m) ones 0) (rf_new (r_next st) pos) 0
     (RSt (rs_at (pre ++ large_head fl vt_array_subsection key_entities (len pl) ++ meta_bytes fl 0 (len m) None) (elems_bytes fl (eelems m) ++ post) fl)
        ((above ++ [RF h (rf_end f) (len m) ones 0]) ++ [rf_new (r_next st) pos]) (r_next st + 1))
     (pre ++ large_head fl vt_array_subsection key_entities (len pl) ++ meta_bytes fl 0 (len m) None) post fl Sm (clear_ok U d) (fun _ _ => eq_refl))
    as ([|] & m' & st2 & E2 & Q2); try assumption; try reflexivity.
  + repeat split; reflexivity.
  + destruct R1 as (_ & _ & Q & _). rewrite map_app in Q. cbn [map] in Q. rewrite Hid in Q. rewrite map_app. exact Q.
  + destruct R1 as (_ & _ & _ & Q & _). cbn [r_chain r_next] in *. rewrite !Forall_app in *.
    destruct Q as ((Q1 & Q2) & Q3). split; [|exact Q3]. split; [exact Q1|]. constructor; [|constructor]. cbn.
    inversion Q2; subst. assumption.
  + lia.
  + rewrite !len_app, len_large_head, len_meta_bytes. lia.
  + change (rf_id (rf_new (r_next st) pos)) with (r_next st) in E2. rewrite E2. destruct Q2 as (f' & (Sm' & Fm') & S2 & C2 & I2 & X2 & Z2 & Y2 & N2). cbn [app bind negb r_chain r_next r_stream rf_end rf_size] in *.
    assert (Hend : add64 (rf_index f') 1 = rf_size f') by (rewrite Y2, Z2; lia).
    pose proof (r_end_arr_ok h st2 above f' _ _ post fl C2 I2 Hn Hend S2) as Q. cbn [rf_new rf_id rf_end] in Q. rewrite Q.
    * cbn [bind node_seen]. eexists true, _, _. split; [reflexivity|]. split; [split; [exact Sm'|exact Fm']|]. split; [|split; [|cbn; lia]].
      -- cbn [r_stream]. rewrite S2, large_block_head. unfold pl. rewrite <- !app_assoc. reflexivity.
      -- cbn [r_chain]. rewrite X2, (ridle_frame f h Hid I). congruence.
    * unfold pos. rewrite Hlen, !len_app, len_large_head, len_meta_bytes. lia.
  + change (rf_id (rf_new (r_next st) pos)) with (r_next st) in E2. rewrite E2. cbn [bind negb]. eexists false, _, _. split; [reflexivity|].
    destruct Q2 as (k & x & Hi & Hn'). intros m2 [_ Hm2]. specialize (Hm2 k). rewrite (proj2 (lookup_in Ko KL k (Some x) m Sm) Hi) in Hm2.
    destruct Hm2 as ([y|] & _ & Hy); [exact (Hn' y Hy)|exact Hy].
Qed.


Lemma table_as_oas (m : table K T) (m' : table K T') : table_as Ko A m m' <->
  (forall k, match lookup Ko k (t_list m) with Some o => exists o', t_find Ko k m' = Some o' /\ oas o o' | None => t_find Ko k m' = None end).
Proof.
  split; intros H k; specialize (H k); rewrite <- (find_lookup Ko) in *; destruct (t_find Ko k m) as [o|].
  - destruct (t_find Ko k m') as [o'|]; [|destruct o; contradiction]. exists o'. split; [reflexivity|]. destruct o, o'; auto.
  - destruct (t_find Ko k m') as [o'|]; [destruct o'; contradiction|reflexivity].
  - destruct H as (o' & -> & H). destruct o, o'; auto.
  - rewrite H. exact I.
Qed.
Lemma t_decides (m : table K T) (d : table K T') : is_table m -> len (t_list m) < 2^63 -> entries edecides (t_list m) ->
  decides (fun e h st => t_read Ko U M e h d st) (fun fl => nodes_bytes fl (table_doc Ko doc m)) (fun m' => is_table m' /\ table_as Ko A m m').
Proof.
  intros Sm HL HR.
  pose proof (GraphSets.replaced_nil (k_type Ko)) as Rep.
  assert (Ok0 : cval_ok (k_type Ko) (CVec [])) by (split; [constructor|reflexivity]).
  assert (Q := decides_iff _ _ _ (fun m' => is_table m' /\ table_as Ko A m m') (decides_entities (t_list m) d Sm HR)
    (fun m' => and_iff_compat_l (is_table m') (iff_sym (table_as_oas m m')))).
  assert (Q0 := reads_item _ _ _ (CVec []) (ids_ok Ko KL (t_list m) HL) eq_refl Ok0 Rep).
  intros e h above f st pre post fl R Es Hal Hs. rewrite (table_bytes Ko doc) in *. rewrite len_app in Hal, Hs.
  set (b2 := large_block fl vt_array_subsection key_entities (meta_bytes fl 0 (len (t_list m)) None ++ elems_bytes fl (eelems (t_list m)))) in *.
  destruct (Q0 e h above f st pre (b2 ++ post) fl R) as (st1 & E1 & (S1 & C1 & N1)); [rewrite Es, <- app_assoc; auto|lia|rewrite len_app; unfold lim62, two64 in *; lia|].
  unfold t_read. rewrite E1. cbn [bind negb t_keys_of]. rewrite keys_back by exact KL.
  destruct (Q e h above f st1 (pre ++ encode fl (k_type Ko) key_ids (CVec (map (fun p => k_val Ko (fst p)) (t_list m)))) post fl
    (rready_keep _ _ _ _ _ R C1 N1) S1) as (ok & y & st2 & E2 & P2); [fold b2; lia|fold b2; rewrite len_app; lia|].
  rewrite E2. exists ok, y, st2. split; [reflexivity|]. destruct ok; [|exact P2]. destruct P2 as (Py & (S2 & C2 & N2)). split; [exact Py|].
  split; [rewrite app_assoc; exact S2|]. split; [congruence|lia].
Qed.
End S.

Lemma table_as_ok {K T T'} (Ko : keyops K) (KL : key_laws Ko) (P : T' -> Prop) (A : T -> T' -> Prop) (m : table K T) (m' : table K T') : is_table m' ->
  (table_as Ko (fun a y => P y /\ A a y) m m' <-> (forall i y, In (i, Some y) (t_list m') -> P y) /\ table_as Ko A m m').
Proof.
  intros Tm. split.
  - intros Am. split.
    + intros i y Hi. specialize (Am i). rewrite (proj2 (find_in Ko KL i (Some y) m' Tm) Hi) in Am.
      destruct (t_find Ko i m) as [[a|]|]; try contradiction. apply Am.
    + intros i. specialize (Am i). destruct (t_find Ko i m) as [[a|]|], (t_find Ko i m') as [[y|]|]; tauto.
  - intros [Om Am] i. specialize (Am i). destruct (t_find Ko i m) as [[a|]|], (t_find Ko i m') as [[y|]|] eqn:Em; try tauto.
    split; [|exact Am]. apply (Om i). apply (find_in Ko KL i (Some y) m' Tm). exact Em.
Qed.
