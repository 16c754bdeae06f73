(** * Classes read with the wrong byte order. Proofs. *)
From Verif Require Import Base Bytes BytesFacts Values Streams FileSpec ReadSpec StreamFacts StreamProps Types Format
  Accept EntityWriter EntityReader EntityWriterFacts PackFacts ArrayWriterFacts EntityReaderFacts EntitySafety ArraySafety
  ReadTotal Items ItemSpec EntityProps Sections Documents DocSpec SectionFacts SectionReadFacts SectionTheorems CodecFacts
  Keys KeySpec KeyFacts Containers ValueEqSpec Graph GraphSpec Classes Table TableSpec TableFacts TableCodec
  IndexedVector IndexedVectorSpec IndexedVectorFacts DynTypes DynTypesFacts Varying VaryingSpec VaryingFacts VaryingCodec EntityGen EntitySpec EntityFacts
  WrongOrderSpec WrongOrder WrongOrderClassSpec.
Local Open Scope N_scope.

(** A reading function that fails, whatever the object, at a document written with the other byte order. *)
Definition flips_bad {T} (R : renv -> N -> rstate -> res (bool * T * rstate)) (w : nodes) : Prop :=
  forall fl e h above f st pre post, len pre + len (nodes_bytes (negb fl) w ++ post) < 4294967296 ->
    4 * len (nodes_bytes (negb fl) w) <= e_lim e ->
    rready h above f st -> r_stream st = rs_at pre (nodes_bytes (negb fl) w ++ post) fl ->
    exists y st', R e h st = Done (false, y, st').

Lemma cons_foreign n l fl pre post : ~ plain_node n -> len pre + len (nodes_bytes (negb fl) (Cons n l) ++ post) < 4294967296 ->
  foreign fl (len pre + len (nodes_bytes (negb fl) (Cons n l) ++ post)) pre (nodes_bytes (negb fl) (Cons n l) ++ post).
Proof. cbn [nodes_bytes]. rewrite <- app_assoc. apply node_foreign. Qed.
Lemma read_bad fl total pre post e h t key dest above f st : foreign fl total pre post ->
  rready h above f st -> r_stream st = rs_at pre post fl ->
  exists v st', r_read e h t key dest st = Done (false, v, st').
Proof.
  intros F R Es. unfold r_read. pose proof R as (E & Hid & Hn & Fc & Ix). rewrite E, split_at_mid by assumption. rewrite Es.
  destruct (er_flip fl total pre post e t key dest F) as (v & s' & ->). cbn. eauto.
Qed.
Lemma array_not_plain t key l : ~ plain_node (NItem (Item t key (CVec l))).
Proof. discriminate. Qed.
Lemma idx_not_plain t key l ix : ~ plain_node (NItem (Item t key (CIdx l ix))).
Proof. discriminate. Qed.

Lemma graph_bad {K} (Ko : keyops K) g d : flips_bad (fun e h st => g_read Ko e h d st) (graph_doc Ko g).
Proof.
  intros fl e h above f st pre post Hs Hal R Es. unfold g_read.
  destruct (read_bad fl _ pre _ e h (k_type Ko) key_roots (CVec []) above f st (cons_foreign _ _ fl pre post (array_not_plain _ _ _) Hs) R Es) as (v & st' & ->).
  cbn. eauto.
Qed.
Lemma ivec_bad t o d : flips_bad (fun e h st => iv_read t e h d st) (iv_doc t o).
Proof.
  intros fl e h above f st pre post Hs Hal R Es. unfold iv_read.
  destruct (read_bad fl _ pre _ e h t key_values (CIdx (iv_values d) (iv_index d)) above f st (cons_foreign _ _ fl pre post (idx_not_plain _ _ _ _) Hs) R Es) as (v & st' & ->).
  cbn. eauto.
Qed.

(** The type numbers with their bytes exchanged. *)
Definition exchanged (n : N) : N := of_le (rev (le 2 n)).
Lemma exchanged_class k : find_class (exchanged (dt_id (fst k))) (exchanged (ct_id (snd k))) = Some k /\ k = palindrome \/
  find_class (exchanged (dt_id (fst k))) (exchanged (ct_id (snd k))) = None /\ k <> palindrome.
Proof.
  destruct k as [t c]. cbn [fst snd].
  destruct t as [|[]|[]|[]|[] []|[] []|[] []|[] []|[]| | | | |]; destruct c;
    first [left; split; [vm_compute; reflexivity|reflexivity] | right; split; [vm_compute; reflexivity|discriminate]].
Qed.
Lemma small_item t key v : val_ok t v -> len key <= 40 -> t <> TString -> item_ok (Item t key (CV v)) /\ plain (Item t key (CV v)).
Proof. intros H Hk Ht. split; [split; [exact H|exact Hk]|]. unfold plain, large. destruct t; try reflexivity. contradiction. Qed.

Lemma u16_exchanged n : u16_of (swapped (TUInt I16) (CV (VP (le 2 n)))) = exchanged n.
Proof.
  cbn [swapped swapped_val dshape iword u16_of].
  change (chunks (N.to_nat 1) (wbytes W16) (le 2 n)) with [take 2 (le 2 n)].
  cbn [flat_map]. rewrite app_nil_r. reflexivity.
Qed.

Lemma varying_flip k c d fl e h above f st pre post : typed k c ->
  len pre + len (nodes_bytes (negb fl) (varying_doc k c) ++ post) < 4294967296 ->
  4 * len (nodes_bytes (negb fl) (varying_doc k c)) <= e_lim e ->
  rready h above f st -> r_stream st = rs_at pre (nodes_bytes (negb fl) (varying_doc k c) ++ post) fl ->
  (k = palindrome /\ exists st', v_read e h (v_of d) st = Done (true, v_of (Holds k (swapped (fst k) c)), st') /\
     rpost st st' (rs_at (pre ++ nodes_bytes (negb fl) (varying_doc k c)) post fl)) \/
  (k <> palindrome /\ exists y st', v_read e h (v_of d) st = Done (false, y, st')).
Proof.
  intros T Hs Hal R Es. unfold varying_doc in *. unfold v_read.
  rewrite v_deinit_of. cbn [bind]. cbn [nodes_bytes node_bytes] in *. rewrite app_nil_r in *. rewrite <- !app_assoc in *.
  set (i1 := u16_item [x54; x79; x70; x65] (dt_id (fst k))) in *.
  set (i2 := u16_item [x43; x6f; x6e; x74; x61; x69; x6e; x65; x72; x54; x79; x70; x65] (ct_id (snd k))) in *.
  set (i3 := Item (fst k) [x44; x61; x74; x61] c) in *.
  destruct (small_item (TUInt I16) [x54; x79; x70; x65] (VP (le 2 (dt_id (fst k))))) as [O1 P1]; [reflexivity|vm_compute; discriminate|discriminate|].
  destruct (small_item (TUInt I16) [x43; x6f; x6e; x74; x61; x69; x6e; x65; x72; x54; x79; x70; x65] (VP (le 2 (ct_id (snd k))))) as [O2 P2]; [reflexivity|vm_compute; discriminate|discriminate|].
  repeat rewrite len_app in Hs; repeat rewrite len_app in Hal.
  destruct (item_flip i1 (Item (TUInt I16) key_type_ (u16_val 0)) fl e h above f st pre
    (encode (negb fl) (i_type i2) (i_key i2) (i_val i2) ++ encode (negb fl) (i_type i3) (i_key i3) (i_val i3) ++ post)) as (st1 & E1 & (S1 & C1 & N1));
    [exact O1|exact P1|repeat split|repeat rewrite len_app; lia|lia|exact R|exact Es|].
  cbn [read_node i_type i_key i_val] in E1.
  destruct (r_read e h (TUInt I16) key_type_ (u16_val 0) st) as [[[ok v] s1]| |] eqn:Q1; cbn [bind] in E1; try discriminate.
  injection E1 as -> -> ->. cbn [bind negb].
  destruct (item_flip i2 (Item (TUInt I16) key_container (u16_val 0)) fl e h above f st1
    (pre ++ encode (negb fl) (i_type i1) (i_key i1) (i_val i1))
    (encode (negb fl) (i_type i3) (i_key i3) (i_val i3) ++ post)) as (st2 & E2 & (S2 & C2 & N2));
    [exact O2|exact P2|repeat split|repeat rewrite len_app; lia|lia|eapply rready_keep; eassumption|exact S1|].
  cbn [read_node i_type i_key i_val] in E2.
  destruct (r_read e h (TUInt I16) key_container (u16_val 0) st1) as [[[ok v] s2]| |] eqn:Q2; cbn [bind] in E2; try discriminate.
  injection E2 as -> -> ->. cbn [bind negb].
  assert (U : forall n, u16_of (CV (swapped_val (TUInt I16) (VP [n2b n; n2b (n / 256)]))) = exchanged n) by (intros n; exact (u16_exchanged n)).
  rewrite !U, v_set_type_of. unfold init_content.
  destruct (exchanged_class k) as [[F K]|[F K]]; rewrite F; [|right; split; [exact K|]; cbn [bind negb]; eauto].
  left. split; [exact K|]. cbn [bind negb v_of fresh_of v_ty v_ct v_data]. unfold dyn_read, dyn_with. rewrite find_class_id, (as_class_own (Obj k _)). cbn [o_val].
  destruct (default_typed k) as [D1 D2]. destruct T as [T1 T2].
  assert (O3 : item_ok i3) by (split; [exact T1|vm_compute; discriminate]).
  assert (P3 : plain i3) by (unfold plain, i3; cbn [i_type i_val]; rewrite T2, K; reflexivity).
  destruct (item_flip i3 (Item (fst k) key_data (cval_default (fst k) (snd k))) fl e h above f st2
    ((pre ++ encode (negb fl) (i_type i1) (i_key i1) (i_val i1)) ++ encode (negb fl) (i_type i2) (i_key i2) (i_val i2)) post) as (st3 & E3 & (S3 & C3 & N3));
    [exact O3|exact P3|repeat split; [exact (eq_trans D2 (eq_sym T2))|exact D1]|repeat rewrite len_app; lia|lia|
     eapply rready_keep; [eapply rready_keep; eassumption|eassumption|eassumption]|exact S2|].
  cbn [read_node i_type i_key i_val] in E3.
  destruct (r_read e h (fst k) key_data (cval_default (fst k) (snd k)) st2) as [[[ok v] s3]| |] eqn:Q3; cbn [bind] in E3; try discriminate.
  injection E3 as -> -> ->. cbn [bind negb]. exists st3. split; [reflexivity|].
  rewrite <- !app_assoc in S3. split; [exact S3|]. split; [congruence|lia].
Qed.

Section I.
Context (I : forall t, umap_impl (key t)).

Lemma table_bad {K T} (Ko : keyops K) (U : umap_impl K) (S : mf T) (doc : T -> nodes) m d :
  flips_bad (fun e h st => t_read Ko U S e h d st) (table_doc Ko doc m).
Proof.
  intros fl e h above f st pre post Hs Hal R Es. unfold t_read.
  destruct (read_bad fl _ pre _ e h (k_type Ko) key_ids (CVec []) above f st (cons_foreign _ _ fl pre post (array_not_plain _ _ _) Hs) R Es) as (v & st' & ->).
  cbn. eauto.
Qed.

(** Variables of an entity. *)
Lemma fields_flip : forall fs d x fl e h above f st pre post,
  f_sound fs -> f_ok fs d -> f_ok fs x ->
  len pre + len (nodes_bytes (negb fl) (f_doc fs x) ++ post) < 4294967296 -> 4 * len (nodes_bytes (negb fl) (f_doc fs x)) <= e_lim e ->
  rready h above f st -> r_stream st = rs_at pre (nodes_bytes (negb fl) (f_doc fs x) ++ post) fl ->
  (small_fields fs /\ exists st', m_read (fmf I fs) e h d st = Done (true, swapped_fields fs x, st') /\
     rpost st st' (rs_at (pre ++ nodes_bytes (negb fl) (f_doc fs x)) post fl)) \/
  (~ small_fields fs /\ exists y st', m_read (fmf I fs) e h d st = Done (false, y, st')).
Proof.
  induction fs as [|n t c r IH|n s r _|n s r _]; intros d x fl e h above f st pre post Hf Hd Hx Hs Hal R Es.
  - left. split; [exact Logic.I|]. exists st. split; [destruct d, x; reflexivity|]. cbn [f_doc nodes_bytes] in *.
    split; [rewrite app_nil_r; exact Es|]. split; [reflexivity|lia].
  - destruct d as [b d], x as [a x]. cbn [f_ok f_sound fst snd small_fields] in *. destruct Hf as [Hn Hr], Hd as (Hb & Cb & Hd), Hx as (Ha & Ca & Hx).
    change (m_read (fmf I (FBase n t c r)) e h (b, d) st) with (bf_read n (fmf I r) t e h (b, d) st). unfold bf_read. cbn [fst snd].
    destruct (large t c) eqn:L.
    + right. split; [intros [X _]; discriminate|].
      assert (NP : ~ plain_node (NItem (Item t n a))) by (cbn [plain_node]; unfold plain; cbn [i_type i_val]; rewrite Ca, L; discriminate).
      destruct (read_bad fl _ pre _ e h t n b above f st (cons_foreign (NItem (Item t n a)) (f_doc r x) fl pre post NP Hs) R Es) as (v & st' & ->).
      cbn. eauto.
    + assert (O1 : item_ok (Item t n a)) by (split; assumption).
      assert (P1 : plain (Item t n a)) by (unfold plain; cbn [i_type i_val]; rewrite Ca; exact L).
      cbn [f_doc nodes_bytes node_bytes i_type i_key i_val fst snd] in *. rewrite <- app_assoc in *. repeat rewrite len_app in Hs. repeat rewrite len_app in Hal.
      destruct (item_flip (Item t n a) (Item t n b) fl e h above f st pre (nodes_bytes (negb fl) (f_doc r x) ++ post)) as (st1 & E1 & (S1 & C1 & N1)).
      { exact O1. } { exact P1. } { repeat split; cbn [i_val i_type]; [congruence|exact Hb]. }
      { cbn [i_type i_key i_val]. repeat rewrite len_app; lia. } { cbn [i_type i_key i_val]. lia. } { exact R. } { exact Es. }
      cbn [read_node i_type i_key i_val swapped_node] in E1, S1.
      destruct (r_read e h t n b st) as [[[ok v] s1]| |] eqn:Q1; cbn [bind] in E1; try discriminate.
      injection E1 as -> -> ->. cbn [bind negb].
      destruct (IH d x fl e h above f st1 (pre ++ encode (negb fl) t n a) post) as [(Sm & st2 & E2 & (S2 & C2 & N2))|(Sm & y & st2 & E2)];
        [exact Hr|exact Hd|exact Hx|repeat rewrite len_app; lia|lia|eapply rready_keep; eassumption|exact S1| |].
      * left. split; [auto|]. exists st2. rewrite E2. cbn [bind swapped_fields fst snd]. split; [reflexivity|].
        rewrite app_assoc. split; [exact S2|]. split; [congruence|lia].
      * right. split; [tauto|]. rewrite E2. cbn [bind]. eauto.
  - right. split; [cbn; tauto|]. destruct d as [b d], x as [a x].
    change (m_read (fmf I (FClass n s r)) e h (b, d) st) with (cf_read n (fmf I r) (smf I s) e h (b, d) st). unfold cf_read.
    destruct (section_flip fl _ pre _ e h n false above f st (cons_foreign (NSection n (s_doc s a)) (f_doc r x) fl pre post (fun X => X) Hs) R Es) as (st' & ->).
    cbn. eauto.
  - right. split; [cbn; tauto|]. destruct d as [b d], x as [a x].
    change (m_read (fmf I (FOpt n s r)) e h (b, d) st) with (of_read n (fmf I r) (smf I s) e h (b, d) st). unfold of_read.
    destruct (section_flip fl _ pre _ e h n true above f st (cons_foreign (NSection n (match a with Some a => s_doc s a | None => Nil end)) (f_doc r x) fl pre post (fun X => X) Hs) R Es) as (st' & ->).
    cbn. eauto.
Qed.

Lemma class_flip s d x fl e h above f st pre post :
  s_sound s -> s_ok s d -> s_ok s x -> s_fits s x ->
  len pre + len (nodes_bytes (negb fl) (s_doc s x) ++ post) < 4294967296 -> 4 * len (nodes_bytes (negb fl) (s_doc s x)) <= e_lim e ->
  rready h above f st -> r_stream st = rs_at pre (nodes_bytes (negb fl) (s_doc s x) ++ post) fl ->
  (order_blind s x /\ exists st', m_read (smf I s) e h d st = Done (true, swapped_object s x, st') /\
     rpost st st' (rs_at (pre ++ nodes_bytes (negb fl) (s_doc s x)) post fl)) \/
  (~ order_blind s x /\ exists y st', m_read (smf I s) e h d st = Done (false, y, st')).
Proof.
  destruct s as [k g|k g s|t| |fs]; intros Hf Hd Hx Hfit Hs Hal R Es.
  - right. split; [tauto|]. exact (graph_bad (kops k) x d fl e h above f st pre post Hs Hal R Es).
  - right. split; [tauto|]. exact (table_bad (kops k) (I (kt k)) (smf I s) (s_doc s) x d fl e h above f st pre post Hs Hal R Es).
  - right. split; [tauto|]. exact (ivec_bad t x d fl e h above f st pre post Hs Hal R Es).
  - destruct Hfit as (k & c & ->). destruct Hd as (d0 & -> & _). destruct Hx as (x & E & W). apply v_of_same in E. subst x. cbn [well_typed] in W.
    destruct (varying_flip k c d0 fl e h above f st pre post W Hs Hal R Es) as [(K & st' & E & P)|(K & y & st' & E)].
    + left. split; [exists c; rewrite K; reflexivity|]. exists st'. auto.
    + right. split; [|eauto]. intros (c' & E'). apply v_of_same in E'. congruence.
  - exact (fields_flip fs d x fl e h above f st pre post Hf Hd Hx Hs Hal R Es).
Qed.
End I.

(** ** At an open stream *)
Lemma rs_mid_at pre post fl : RS (pre ++ post) (len pre) fl = rs_at pre post fl.
Proof. reflexivity. Qed.
Lemma large_open_flip : forall vt key payload pre post fl, 0x40 <= vt -> vt < 256 ->
  let bytes := large_block (negb fl) vt key payload ++ post in
  below_4g (len pre + len bytes) ->
  (forall e t key' dest, exists v s', er_read e t key' dest (RS (pre ++ bytes) (len pre) fl) = Done (false, v, s')) /\
  (forall e key' null_ok, exists st', r_begin e 0 key' null_ok (r_open (RS (pre ++ bytes) (len pre) fl)) = Done (None, false, st')) /\
  (forall e key' null_ok ix, exists st',
     r_begin_arr e 0 key' null_ok ix (r_open (RS (pre ++ bytes) (len pre) fl)) = Done (None, 0, false, ix, st')).
Proof.
  intros vt key payload pre post fl V1 V2 bytes B. subst bytes. rewrite rs_mid_at.
  pose proof (large_foreign vt fl key payload pre post V1 V2 B) as F.
  split; [|split].
  - intros e t key' dest. exact (er_flip fl _ pre _ e t key' dest F).
  - intros e key' null_ok. exact (section_flip fl _ pre _ e 0 key' null_ok [] _ _ F (rready_open _) eq_refl).
  - intros e key' null_ok ix. exact (arr_flip fl _ pre _ e 0 key' null_ok ix [] _ _ F (rready_open _) eq_refl).
Qed.
Lemma doc_open_flip : forall w r e fl post, nodes_ok w -> nodes_mirror w r ->
  let bytes := nodes_bytes (negb fl) w in
  below_4g (len bytes + len post) -> 4 * len bytes <= e_lim e ->
  (plain_nodes w -> exists st', read_nodes e 0 r (r_open (RS (bytes ++ post) 0 fl)) = Done (true, swapped_nodes w, st') /\
     r_stream st' = RS (bytes ++ post) (len bytes) fl) /\
  (~ plain_nodes w -> exists w' st', read_nodes e 0 r (r_open (RS (bytes ++ post) 0 fl)) = Done (false, w', st')).
Proof.
  intros w r e fl post Ok M bytes B Hal. unfold bytes, below_4g in *.
  destruct (doc_flip w r fl e 0 [] (rf_new 0 (rs_size (RS (nodes_bytes (negb fl) w ++ post) 0 fl))) (r_open (RS (nodes_bytes (negb fl) w ++ post) 0 fl)) [] post Ok (mirror_starts _ _ M))
    as [(P & st' & E & (S & _))|(P & w' & st' & E)];
    [rewrite len_app, len_nil; lia|exact Hal|apply rready_open|reflexivity| |].
  - split; [|tauto]. intros _. exists st'. split; [exact E|exact S].
  - split; [tauto|]. eauto.
Qed.
Lemma class_open_flip : forall I s x d e fl post, s_sound s -> s_ok s x -> s_fits s x -> s_ok s d ->
  let bytes := nodes_bytes (negb fl) (s_doc s x) in
  below_4g (len bytes + len post) -> 4 * len bytes <= e_lim e ->
  (order_blind s x -> exists st', m_read (smf I s) e 0 d (r_open (RS (bytes ++ post) 0 fl)) = Done (true, swapped_object s x, st') /\
     r_stream st' = RS (bytes ++ post) (len bytes) fl) /\
  (~ order_blind s x -> exists y st', m_read (smf I s) e 0 d (r_open (RS (bytes ++ post) 0 fl)) = Done (false, y, st')).
Proof.
  intros I s x d e fl post Hs Hx Hf Hd bytes B Hal. unfold bytes, below_4g in *.
  destruct (class_flip I s d x fl e 0 [] (rf_new 0 (rs_size (RS (nodes_bytes (negb fl) (s_doc s x) ++ post) 0 fl))) (r_open (RS (nodes_bytes (negb fl) (s_doc s x) ++ post) 0 fl)) [] post Hs Hd Hx Hf)
    as [(P & st' & E & (S & _))|(P & w' & st' & E)];
    [rewrite len_app, len_nil; lia|exact Hal|apply rready_open|reflexivity| |].
  - split; [|tauto]. intros _. exists st'. split; [exact E|exact S].
  - split; [tauto|]. eauto.
Qed.
