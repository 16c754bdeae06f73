(** * Reading objects of entity classes from data that was cut off. Proofs. *)
From Verif Require Import Base Bytes BytesFacts Values Streams FileSpec ReadSpec StreamFacts StreamProps Types Format
  Accept EntityWriter EntityReader EntityWriterFacts PackFacts ArrayWriterFacts EntityReaderFacts EntitySafety ArraySafety
  ReadTotal Items ItemSpec EntityProps Sections Documents DocSpec SectionFacts SectionReadFacts SectionTheorems CodecFacts
  Keys KeySpec KeyFacts Containers ValueEqSpec Graph GraphSpec Classes Table TableSpec TableFacts TableCodec
  IndexedVector IndexedVectorSpec IndexedVectorFacts DynTypes DynTypesFacts Varying VaryingSpec VaryingFacts VaryingCodec EntityGen EntitySpec EntityFacts EntityCodec
  TruncSpec Truncation.
From Verif Require GraphSets.
Local Open Scope N_scope.

Lemma cuts_section {T} key no (x0 x1 : T) body b : len key <= 40 -> 0 < len key ->
  cuts (sec_read key no x0 x1 body) (fun fl => large_block fl vt_subsection key (b fl)).
Proof.
  intros Hk Hk0 e h above f st pre p q fl R E Hq Es Hal Hs. unfold sec_read.
  edestruct section_cut as (st' & ->); [exact R|exact Hk|exact Hk0|exact E|exact Hq|exact Es|exact Hs|]. cbn [bind negb]. eauto.
Qed.

Section G.
Context {K : Type} (Ko : keyops K) (KL : key_laws Ko).
Lemma g_cuts g d : graph_fits g -> cuts (fun e h st => g_read Ko e h d st) (fun fl => nodes_bytes fl (graph_doc Ko g)).
Proof.
  intros H. destruct (GraphSets.g_doc_ok Ko KL g H) as (D1 & D2).
  pose proof (GraphSets.replaced_nil (k_type Ko)) as Rep.
  assert (Ok0 : cval_ok (k_type Ko) (CVec [])) by (split; [constructor|reflexivity]).
  eapply cuts_ext; [exact (cuts_seq _ (fun roots e h st1 => do r2 <- r_read e h (k_type Ko) key_edges (CVec []) st1; let '(ok2, pairs, st2) := r2 in
      Done (ok2, (fun ok2 pairs => if (ok2 : bool) then insert_pairs Ko (keys_of Ko pairs) (Graph (StdSet.set_of (k_lt Ko) (keys_of Ko roots)) [])
     else Graph (StdSet.set_of (k_lt Ko) (keys_of Ko roots)) (g_edges d)) ok2 pairs, st2)) (fun _ => d) _ _ _
      (reads_P _ _ _ _ (reads_item _ _ _ (CVec []) D1 eq_refl Ok0 Rep) eq_refl) (cuts_item _ _ _ (CVec []) D1 eq_refl eq_refl Ok0)
      (fun roots _ => cuts_map _ _ _ (cuts_item _ _ _ (CVec []) D2 eq_refl eq_refl Ok0)))| |].
  - intros e h st. unfold g_read. destruct (r_read e h (k_type Ko) key_roots (CVec []) st) as [[[ok v] st1]| |]; cbn [bind]; auto.
    destruct ok; auto. destruct (r_read e h (k_type Ko) key_edges (CVec []) st1) as [[[ok2 v2] st2]| |]; cbn [bind]; auto. destruct ok2; auto.
  - intros fl. apply GraphSets.g_doc_bytes.
Qed.
End G.

Lemma iv_cuts t o d : iv_ok t o -> iv_ok t d -> cuts (fun e h st => iv_read t e h d st) (fun fl => nodes_bytes fl (iv_doc t o)).
Proof.
  intros H Hd. eapply cuts_ext; [exact (cuts_map _ (fun _ v => iv_of d v) _ (cuts_item _ _ _ (CIdx (iv_values d) (iv_index d)) (iv_item_ok t o H) eq_refl eq_refl Hd))|reflexivity|].
  intros; apply iv_bytes.
Qed.

Lemma v_cuts k c d : typed k c -> cuts (fun e h st => v_read e h (v_of d) st) (fun fl => nodes_bytes fl (varying_doc k c)).
Proof.
  intros T. destruct (default_typed k) as [D1 D2].
  assert (U : cval_ok (TUInt I16) (u16_val 0)) by reflexivity.
  set (put := fun (x : cval) => Vary (dt_id (fst k)) (ct_id (snd k)) (Some (Obj k x))).
  pose proof (cuts_map _ (fun _ x => put x) _ (cuts_item _ _ _ (cval_default (fst k) (snd k)) (data_item_ok k c T) eq_refl (eq_trans D2 (eq_sym (proj2 T))) D1)) as R3. cbv beta in R3.
  set (R3f := fun (e : renv) (h : N) (st : rstate) => do r <- r_read e h (fst k) key_data (cval_default (fst k) (snd k)) st; let '(ok, v, st1) := r in Done (ok, put v, st1)) in *.
  set (R2f := fun (e : renv) (h : N) (st : rstate) => do r <- r_read e h (TUInt I16) key_container (u16_val 0) st; let '(ok, v, st1) := r in
              if (ok : bool) then (if u16_of v =? ct_id (snd k) then R3f e h st1 else Undef) else Done (false, v_of (emptied d), st1)).
  assert (R2 : cuts R2f
            (fun fl => encode fl (TUInt I16) key_container (u16_val (ct_id (snd k))) ++ encode fl (fst k) key_data c)).
  { refine (cuts_seq _ (fun v e h st1 => if u16_of v =? ct_id (snd k) then R3f e h st1 else Undef) (fun _ => v_of (emptied d)) _ _ _
      (reads_P _ _ _ _ (reads_item _ _ _ (u16_val 0) (u16_item_ok key_container (ct_id (snd k)) ltac:(vm_compute; discriminate)) eq_refl U Logic.I) eq_refl)
      (cuts_item _ _ _ (u16_val 0) (u16_item_ok key_container (ct_id (snd k)) ltac:(vm_compute; discriminate)) eq_refl eq_refl U) _).
    intros x <-. change (CV (VP (le 2 (ct_id (snd k))))) with (u16_val (ct_id (snd k))). rewrite u16_of_val by apply ct_id_small. rewrite N.eqb_refl. exact R3. }
  assert (R1 : cuts (fun e h st => do r <- r_read e h (TUInt I16) key_type_ (u16_val 0) st; let '(ok, v, st1) := r in
              if (ok : bool) then (if u16_of v =? dt_id (fst k) then R2f e h st1 else Undef) else Done (false, v_of (emptied d), st1))
            (fun fl => encode fl (TUInt I16) key_type_ (u16_val (dt_id (fst k))) ++ encode fl (TUInt I16) key_container (u16_val (ct_id (snd k))) ++ encode fl (fst k) key_data c)).
  { refine (cuts_seq _ (fun v e h st1 => if u16_of v =? dt_id (fst k) then R2f e h st1 else Undef) (fun _ => v_of (emptied d)) _ _ _
      (reads_P _ _ _ _ (reads_item _ _ _ (u16_val 0) (u16_item_ok key_type_ (dt_id (fst k)) ltac:(vm_compute; discriminate)) eq_refl U Logic.I) eq_refl)
      (cuts_item _ _ _ (u16_val 0) (u16_item_ok key_type_ (dt_id (fst k)) ltac:(vm_compute; discriminate)) eq_refl eq_refl U) _).
    intros x <-. change (CV (VP (le 2 (dt_id (fst k))))) with (u16_val (dt_id (fst k))). rewrite u16_of_val by apply dt_id_small. rewrite N.eqb_refl. exact R2. }
  clear R2 R3. intros e h above f st pre p q fl Rr Eb Hq Es Hal Hs. rewrite varying_bytes in *.
  destruct (R1 e h above f st pre p q fl Rr Eb Hq Es Hal Hs) as (x & st' & E).
  unfold v_read. rewrite v_deinit_of. cbn [bind].
  destruct (r_read e h (TUInt I16) key_type_ (u16_val 0) st) as [[[[] ty] st1]| |]; cbn [bind negb] in *; try discriminate; [|eauto].
  destruct (N.eqb_spec (u16_of ty) (dt_id (fst k))) as [E1|]; [|discriminate]. unfold R2f in E.
  destruct (r_read e h (TUInt I16) key_container (u16_val 0) st1) as [[[[] ct] st2]| |]; cbn [bind negb] in *; try discriminate; [|eauto].
  destruct (N.eqb_spec (u16_of ct) (ct_id (snd k))) as [E2|]; [|discriminate].
  rewrite E1, E2, v_set_type_of. unfold init_content. rewrite find_class_id. cbn [bind negb v_of fresh_of v_ty v_ct v_data].
  unfold dyn_read, dyn_with. rewrite find_class_id, (as_class_own (Obj k _)). cbn [o_val]. unfold R3f, put in E.
  destruct (r_read e h (fst k) key_data (cval_default (fst k) (snd k)) st2) as [[[[] y] st3]| |]; cbn [bind negb] in *; try discriminate. eauto.
Qed.

Section T.
Context {K T : Type} (Ko : keyops K) (KL : key_laws Ko) (U : umap_impl K) (M : mf T) (doc : T -> nodes).
Lemma t_cuts (m d : table K T) : len (t_list m) < 2^63 -> 
  cuts (fun e h st => t_read Ko U M e h d st) (fun fl => nodes_bytes fl (table_doc Ko doc m)).
Proof.
  intros HL.
  pose proof (GraphSets.replaced_nil (k_type Ko)) as Rep.
  assert (Ok0 : cval_ok (k_type Ko) (CVec [])) by (split; [constructor|reflexivity]).
  assert (Q2 := cuts_seq _ (fun ks e h st1 =>
  do r2 <- r_begin_arr e h key_entities false None st1; let '(c, map_size, ok2, _, st2) := r2 in
  if negb ok2 then Done (false, d, st2) else
  if negb (map_size =? len (t_keys_of Ko ks)) then Done (false, d, st2) else
  do r3 <- t_read_entries Ko U M e h c 0 (t_keys_of Ko ks) (t_clear U d) st2; let '(ok3, m3, st3) := r3 in
  if negb ok3 then Done (false, m3, st3) else
  do r4 <- r_end_arr h c st3; let '(ok4, st4) := r4 in Done (ok4, m3, st4)) (fun _ => d) _ (fun fl => large_block fl vt_array_subsection key_entities (meta_bytes fl 0 (len (t_list m)) None ++ elems_bytes fl (eelems doc (t_list m)))) (eq (CVec (map (fun p => k_val Ko (fst p)) (t_list m))))
      (reads_P _ _ _ _ (reads_item _ _ _ (CVec []) (ids_ok Ko KL (t_list m) HL) eq_refl Ok0 Rep) eq_refl)
      (cuts_item _ _ _ (CVec []) (ids_ok Ko KL (t_list m) HL) eq_refl eq_refl Ok0)). cbv beta in Q2.
  eapply cuts_ext; [apply Q2| |intros fl; apply table_bytes].
  - intros ks _ e h above f st pre p q fl R E Hq Es Hal Hs.
    edestruct array_section_cut as (st' & ->); [exact R| | |exact E|exact Hq|exact Es|exact Hs|]; [vm_compute; discriminate|reflexivity|]. cbn [bind negb]. eauto.
  - intros e h st. unfold t_read. destruct (r_read e h (k_type Ko) key_ids (CVec []) st) as [[[[] ks] st1]| |]; reflexivity.
Qed.
End T.

Section I.
Context (I : forall t, umap_impl (key t)).
Notation smf := (smf I). Notation fmf := (fmf I).
Lemma cuts_both :
  (forall s d x, s_sound s -> s_named s -> s_ok s d -> s_dest s d -> s_ok s x -> s_fits s x ->
    cuts (fun e h st => m_read (smf s) e h d st) (fun fl => nodes_bytes fl (s_doc s x))) /\
  (forall fs d x, f_sound fs -> f_named fs -> f_ok fs d -> f_dest fs d -> f_ok fs x -> f_fits fs x ->
    cuts (fun e h st => m_read (fmf fs) e h d st) (fun fl => nodes_bytes fl (f_doc fs x))).
Proof.
  apply schema_fields_ind.
  - intros k f d x _ _ _ _ Hx Hf. apply (g_cuts (kops k) (klaws k) x d Hf).
  - intros k f s IH d x _ _ [Hd Ed] _ [Hx Ex] [Hl Hf]. apply (t_cuts (kops k) (klaws k) (I (kt k)) (smf s) (s_doc s) x d Hl).
  - intros t d x _ _ Hd Hr Hx _. apply (iv_cuts t x d Hx Hd).
  - intros v w _ _ (d & -> & Hd) _ (x & -> & Hx) (k & c & E). apply v_of_same in E. subst x. apply (v_cuts k c d Hx).
  - intros fs H. exact H.
  - intros d x _ _ _ _ _ _. apply cuts_nil.
  - intros n t c r IH [b d] [a x] [Hn Hr] [Kn Kr] (Hb & Cb & Hd) [Db Dd] (Ha & Ca & Hx) Hf. cbn [fst snd f_fits f_dest f_named] in *.
    assert (HI : item_ok (Item t n a)) by (split; assumption).
    assert (Q := cuts_seq _ (fun v e h st => do q <- m_read (fmf r) e h d st; let '(ok2, f, st2) := q in Done (ok2, (v, f), st2)) (fun v => (v, d)) _
      (fun fl => nodes_bytes fl (f_doc r x)) (eq a)
      (reads_P _ _ _ _ (reads_item t n a b HI (eq_trans Cb (eq_sym Ca)) Hb Db) eq_refl) (cuts_item t n a b HI Kn (eq_trans Cb (eq_sym Ca)) Hb)).
    eapply cuts_ext; [apply Q| |reflexivity].
    + intros v _. exact (cuts_map _ (fun _ f => (v, f)) _ (IH d x Hr Kr Hd Dd Hx Hf)).
    + intros e h st. change (m_read (fmf (FBase n t c r)) e h (b, d) st) with (bf_read n (fmf r) t e h (b, d) st). unfold bf_read. cbn [fst snd].
      destruct (r_read e h t n b st) as [[[[] v] st1]| |]; reflexivity.
  - intros n s IHs r IH [b d] [a x] (Hn & Hne & Hs & Hr) [Kn Kr] (Hb & Hd) [Db Dd] (Ha & Hx) [Hf1 Hf2]. cbn [fst snd f_fits f_dest f_named] in *.
    assert (S := readsP_section n false b b _ _ _ Hn (fun fl => nodes_bytes_nonempty fl _ (doc_nonempty_s s a Hne Hf1)) (proj1 (reads_both I) s b a Hs Hb Db Ha Hf1)).
    assert (Q := cuts_seq _ (fun v e h st => do q <- m_read (fmf r) e h d st; let '(ok2, f, st2) := q in Done (ok2, (v, f), st2)) (fun v => (v, d)) _
      (fun fl => nodes_bytes fl (f_doc r x)) _ S (cuts_section n false b b _ _ Hn Kn)).
    eapply cuts_ext; [apply Q| |reflexivity].
    + intros v _. exact (cuts_map _ (fun _ f => (v, f)) _ (IH d x Hr Kr Hd Dd Hx Hf2)).
    + intros e h st. change (m_read (fmf (FClass n s r)) e h (b, d) st) with (cf_read n (fmf r) (smf s) e h (b, d) st). unfold cf_read, sec_read. cbn [fst snd].
      destruct (r_begin e h n false st) as [[[c ok] st1]| |]; cbn [bind]; try reflexivity. destruct ok; cbn [negb bind]; try reflexivity.
      destruct c as [hc|]; cbn [bind negb]; try reflexivity.
      destruct (m_read (smf s) e hc b st1) as [[[ok v] st2]| |]; cbn [bind]; try reflexivity. destruct ok; cbn [negb bind]; try reflexivity.
      destruct (r_end h (Some hc) st2) as [[ok st3]| |]; reflexivity.
  - intros n s IHs r IH [b d] [a x] (Hn & Hne & Hs & Hr) [Kn Kr] (Hb & Hd) Dd (Ha & Hx) [Hf1 Hf2]. cbn [fst snd f_fits f_dest f_named] in *.
    assert (S : readsP (sec_read n true b None (fun e hc st1 => do q <- m_read (smf s) e hc (m_new (smf s)) st1; let '(ok, v, st2) := q in Done (ok, Some v, st2)))
       (fun fl => large_block fl vt_subsection n (nodes_bytes fl (match a with Some a => s_doc s a | None => Nil end))) (fun _ => True)).
    { destruct a as [a|].
      - apply readsP_section; [exact Hn|exact (fun fl => nodes_bytes_nonempty fl _ (doc_nonempty_s s a Hne Hf1))|].
        exact (readsP_map _ (fun _ v => Some v) _ _ _ (proj1 (reads_both I) s (m_new (smf s)) a Hs (s_new_ok I s) (s_new_dest I s) Ha Hf1) (fun y H => Logic.I)).
      - apply (reads_P _ _ None); [apply reads_section_empty; exact Hn|exact Logic.I]. }
    assert (Q := cuts_seq _ (fun v e h st => do q <- m_read (fmf r) e h d st; let '(ok2, f, st2) := q in Done (ok2, (v, f), st2)) (fun v => (v, d)) _
      (fun fl => nodes_bytes fl (f_doc r x)) _ S (cuts_section n true b None _ _ Hn Kn)).
    eapply cuts_ext; [apply Q| |reflexivity].
    + intros v _. exact (cuts_map _ (fun _ f => (v, f)) _ (IH d x Hr Kr Hd Dd Hx Hf2)).
    + intros e h st. change (m_read (fmf (FOpt n s r)) e h (b, d) st) with (of_read n (fmf r) (smf s) e h (b, d) st). unfold of_read, sec_read. cbn [fst snd].
      destruct (r_begin e h n true st) as [[[c ok] st1]| |]; cbn [bind]; try reflexivity. destruct ok; cbn [negb bind]; try reflexivity.
      destruct c as [hc|]; cbn [bind negb]; try reflexivity.
      destruct (m_read (smf s) e hc (m_new (smf s)) st1) as [[[ok v] st2]| |]; cbn [bind]; try reflexivity. destruct ok; cbn [negb bind]; try reflexivity.
      destruct (r_end h (Some hc) st2) as [[ok st3]| |]; reflexivity.
Qed.
End I.

(** ** Complete statements *)
Lemma cut_open {T} W (R : T -> renv -> N -> rstate -> res (bool * T * rstate)) b init lim fl (good : T -> Prop) :
  writes W b -> (forall d, good d -> cuts (R d) b) -> room init lim (len (b fl)) ->
  exists s0 st, fresh init lim fl = Done s0 /\ W 0 (w_open s0) = Done (true, st) /\
    forall e d pre p, good d -> cut_off p (ws_data (w_stream st)) ->
      4 * ws_pos (w_stream st) <= e_lim e -> len pre + ws_pos (w_stream st) < 2^62 ->
      exists x st', R d e 0 (r_open (RS (pre ++ p) (len pre) fl)) = Done (false, x, st').
Proof.
  intros HW HR Hroom. destruct (writes_open W b init lim fl HW Hroom) as (s0 & st & E0 & E & Hd & Hp).
  exists s0, st. split; [auto|]. split; [auto|]. intros e d pre p Gd (q & Hq & Eq) Hal Hs. rewrite Hd, Hp in *.
  exact (HR d Gd e 0 [] _ _ pre p q fl (rready_open (RS (pre ++ p) (len pre) fl)) Eq Hq eq_refl Hal Hs).
Qed.
Lemma t_documents_cut : forall init lim fl w,
  nodes_ok w -> nodes_keyed w -> room init lim (len (nodes_bytes fl w)) ->
  exists s0 st, fresh init lim fl = Done s0 /\ write_nodes 0 w (w_open s0) = Done (true, st) /\
    forall e r pre p, nodes_mirror w r -> cut_off p (ws_data (w_stream st)) ->
      4 * ws_pos (w_stream st) <= e_lim e -> len pre + ws_pos (w_stream st) < 2^62 ->
      exists x st', read_nodes e 0 r (r_open (RS (pre ++ p) (len pre) fl)) = Done (false, x, st').
Proof.
  intros init lim fl w Ho Hk Hr.
  exact (cut_open (fun h st => write_nodes h w st) (fun r e h st => read_nodes e h r st) _ init lim fl (nodes_mirror w) (writes_nodes w Ho)
    (fun r => nodes_cuts w r Ho Hk) Hr).
Qed.
Lemma t_objects_cut : forall U s x init lim fl, s_sound s -> s_named s -> s_ok s x -> s_fits s x ->
  room init lim (len (nodes_bytes fl (s_doc s x))) ->
  exists s0 st, fresh init lim fl = Done s0 /\ m_write (smf U s) 0 x (w_open s0) = Done (true, st) /\
    forall e old pre p, s_ok s old -> s_dest s old -> cut_off p (ws_data (w_stream st)) ->
      4 * ws_pos (w_stream st) <= e_lim e -> len pre + ws_pos (w_stream st) < 2^62 ->
      exists y st', m_read (smf U s) e 0 old (r_open (RS (pre ++ p) (len pre) fl)) = Done (false, y, st').
Proof.
  intros U s x init lim fl Hs Hk Hx Hf Hr.
  destruct (cut_open (fun h st => m_write (smf U s) h x st) (fun d e h st => m_read (smf U s) e h d st) _ init lim fl (fun d => s_ok s d /\ s_dest s d)
    (proj1 (writes_both U) s x Hs Hx Hf) (fun d Hd => proj1 (cuts_both U) s d x Hs Hk (proj1 Hd) (proj2 Hd) Hx Hf) Hr) as (s0 & st & A & B & C).
  exists s0, st. split; [exact A|]. split; [exact B|]. intros e old pre p Ho Hd. apply C. auto.
Qed.
Lemma t_items_cut : forall init lim fl ws rs,
  Forall item_ok ws -> Forall (fun i => 0 < len (i_key i)) ws -> Forall2 mirrors ws rs -> room init lim (len (items_image fl ws)) ->
  exists s0 s, fresh init lim fl = Done s0 /\ write_all ws s0 = Done (true, s) /\
    forall e pre p, cut_off p (ws_data s) -> 4 * ws_pos s <= e_lim e -> len pre + ws_pos s < 2^62 ->
      exists vs s', read_all e rs (RS (pre ++ p) (len pre) fl) = Done (false, vs, s').
Proof.
  intros init lim fl ws rs Hok Hk Hm (R1 & R2 & R3 & R4).
  destruct (fresh_at init lim fl R1 R2 R3) as (s0 & E0 & H0).
  destruct (write_all_at ws s0 [] fl lim H0 Hok) as (s & E & H); [rewrite len_nil; lia|]. cbn [app] in H.
  exists s0, s. split; [exact E0|]. split; [exact E|]. intros e pre p (q & Hq & Eq) Hal Hs.
  rewrite (ws_at_data _ _ _ _ H) in *. rewrite (ws_at_pos _ _ _ _ H) in *.
  exact (items_cut ws rs e pre p q fl Hok Hk Hm Eq Hq Hal Hs).
Qed.
