(** * Generated entities: serialization. Proofs. *)
From Verif Require Import Base Bytes BytesFacts Values Streams FileSpec ReadSpec StreamFacts StreamProps Types Format
  Accept EntityWriter EntityReader EntityWriterFacts PackFacts ArrayWriterFacts EntityReaderFacts EntitySafety ArraySafety
  ReadTotal Items ItemSpec EntityProps Sections Documents DocSpec SectionFacts SectionReadFacts SectionTheorems CodecFacts
  Keys KeySpec KeyFacts Containers ValueEqSpec Graph GraphSpec Classes Table TableSpec TableFacts TableCodec
  IndexedVector IndexedVectorSpec IndexedVectorFacts DynTypes Varying VaryingSpec VaryingCodec EntityGen EntitySpec EntityFacts.
From Verif Require GraphSets.
Local Open Scope N_scope.

(** A section in a reader; the result of EndReadSection is ignored. *)
Definition sec_read {T} (key : list byte) (no : bool) (x0 x1 : T) (body : renv -> N -> rstate -> res (bool * T * rstate)) :=
  fun (e : renv) (h : N) (st : rstate) =>
  do r <- r_begin e h key no st; let '(c, success, st1) := r in
  if negb success then Done (false, x0, st1) else
  match c with
  | None => Done (true, x1, st1)
  | Some hc =>
    do q <- body e hc st1; let '(ok, a, st2) := q in
    if negb ok then Done (false, a, st2) else
    do r3 <- r_end h (Some hc) st2; let '(_, st3) := r3 in Done (true, a, st3)
  end.
Lemma readsP_section {T} key no (x0 x1 : T) body b Q : len key <= 40 -> (forall fl, b fl <> []) -> readsP body b Q ->
  readsP (sec_read key no x0 x1 body) (fun fl => large_block fl vt_subsection key (b fl)) Q.
Proof.
  intros Hk Hb HR e h above f st pre post fl R Es Hal Hs. cbv beta in Es, Hal, Hs. unfold sec_read.
  rewrite (r_begin_ok e h key no _ st above f pre post fl R (Hb fl) Hk Es Hs). cbn [bind negb].
  rewrite len_large_block in Hal, Hs.
  set (pos := len pre + len (large_block fl vt_subsection key (b fl))).
  set (s1 := rs_at (pre ++ large_head fl vt_subsection key (len (b fl))) (b fl ++ post) fl).
  pose proof (rready_child h above f st s1 pos R) as R1. cbn zeta in R1.
  destruct R as (E & Hid & Hn & F & Idl).
  destruct (HR e (r_next st) _ _ _ (pre ++ large_head fl vt_subsection key (len (b fl))) post fl R1 eq_refl) as (x & st2 & E2 & Qx & (S2 & C2 & N2));
    [lia|rewrite len_app, len_large_head; lia|].
  rewrite E2. cbn [bind negb]. cbn [r_chain r_next] in C2, N2.
  pose proof (r_end_ok h st2 above f (rf_new (r_next st) pos) _ post fl C2 Hid Hn Idl S2) as X. cbn [rf_new rf_id rf_end] in X. rewrite X.
  - cbn [bind]. eexists _, _. split; [reflexivity|]. split; [exact Qx|]. split; [|split; [cbn; congruence|cbn; lia]].
    cbn [r_stream]. rewrite S2, large_block_head, <- !app_assoc. reflexivity.
  - unfold pos. rewrite !len_app, len_large_block, len_large_head. lia.
Qed.
Lemma reads_section_empty {T} key (x0 x1 : T) body : len key <= 40 ->
  reads (sec_read key true x0 x1 body) (fun fl => large_block fl vt_subsection key []) x1.
Proof.
  intros Hk e h above f st pre post fl R Es Hal Hs. cbv beta in Es, Hal, Hs. unfold sec_read.
  rewrite (r_begin_empty e h key st above f pre post fl R Hk Es Hs). cbn [bind negb].
  eexists. split; [reflexivity|]. split; [reflexivity|]. split; [reflexivity|cbn; lia].
Qed.

(** A section in a writer, then the rest; the result of EndWriteSection is ignored. *)
Lemma writes_section_seq key body W b b2 : len key <= 40 -> writes body b -> writes W b2 ->
  writes (fun h st =>
    do r <- w_begin h key st; let '(c, st1) := r in
    match c with
    | None => Done (false, st1)
    | Some hc =>
      do r2 <- body hc st1; let '(ok, st2) := r2 in
      if negb ok then Done (false, st2) else
      do r3 <- w_end h (Some hc) st2; let '(_, st3) := r3 in W h st3
    end) (fun fl => large_block fl vt_subsection key (b fl) ++ b2 fl).
Proof.
  intros Hk Hb HW h above f st c fl lim R H Hl.
  destruct (writes_seq _ _ _ _ (writes_section key body b Hk Hb) HW h above f st c fl lim R H Hl) as (st' & E & P).
  exists st'. split; [|exact P]. clear - E.
  destruct (w_begin h key st) as [[[hc|] st1]| |]; cbn [bind] in *; try discriminate.
  destruct (body hc st1) as [[[|] st2]| |]; cbn [bind negb] in *; try discriminate.
  destruct (w_end h (Some hc) st2) as [[[|] st3]| |]; cbn [bind] in *; try discriminate. exact E.
Qed.

Lemma doc_nonempty_s s x : nonempty s -> s_fits s x -> s_doc s x <> Nil.
Proof.
  intros Hn Hf. destruct s as [k f|k f s|t| |[|n t c r|n s r|n s r]]; cbn [s_doc f_doc]; try discriminate.
  - destruct Hf as (k & c & ->). discriminate.
  - destruct Hn. reflexivity.
Qed.

Section I.
Context (I : forall t, umap_impl (key t)).
Notation smf := (smf I).
Notation fmf := (fmf I).

Lemma writes_both :
  (forall s x, s_sound s -> s_ok s x -> s_fits s x -> writes (fun h st => m_write (smf s) h x st) (fun fl => nodes_bytes fl (s_doc s x))) /\
  (forall fs x, f_sound fs -> f_ok fs x -> f_fits fs x -> writes (fun h st => m_write (fmf fs) h x st) (fun fl => nodes_bytes fl (f_doc fs x))).
Proof.
  apply schema_fields_ind.
  - intros k f x _ Hx Hf. apply (GraphSets.g_writes (kops k) (klaws k) x Hf).
  - intros k f s IH x [_ Hs] [Hx Ex] [Hl Hf]. apply (t_writes (kops k) (klaws k) (smf s) (s_doc s) (fun _ _ => True) x Hl).
    intros i a Ha. apply IH; eauto.
  - intros t x _ Hx _. apply (iv_writes t x Hx).
  - intros v _ (x & -> & Hx) (k & c & E). apply v_of_same in E. subst x. apply (v_writes k c Hx).
  - intros fs H. exact H.
  - intros x _ _ _. apply writes_nil.
  - intros n t c r IH [a x] [Hn Hr] (Ha & Ca & Hx) Hf. cbn [fst snd f_fits] in *.
    eapply writes_ext; [exact (writes_seq _ _ _ _ (writes_item t n a (conj Ha Hn)) (IH x Hr Hx Hf))| |reflexivity].
    intros h st. change (m_write (fmf (FBase n t c r)) h (a, x) st) with (bf_write n (fmf r) t h (a, x) st). unfold bf_write. cbn [fst snd].
    destruct (w_write h t n a st) as [[[] st1]| |]; reflexivity.
  - intros n s IHs r IH [a x] (Hn & _ & Hs & Hr) (Ha & Hx) [Hf1 Hf2]. cbn [fst snd] in *.
    exact (writes_section_seq n _ _ _ _ Hn (IHs a Hs Ha Hf1) (IH x Hr Hx Hf2)).
  - intros n s IHs r IH [a x] (Hn & _ & Hs & Hr) (Ha & Hx) [Hf1 Hf2]. cbn [fst snd] in *.
    destruct a as [a|].
    + exact (writes_section_seq n _ _ _ _ Hn (IHs a Hs Ha Hf1) (IH x Hr Hx Hf2)).
    + exact (writes_section_seq n _ _ _ _ Hn writes_nil (IH x Hr Hx Hf2)).
Qed.

Lemma reads_both :
  (forall s d x, s_sound s -> s_ok s d -> s_dest s d -> s_ok s x -> s_fits s x ->
    readsP (fun e h st => m_read (smf s) e h d st) (fun fl => nodes_bytes fl (s_doc s x)) (fun y => s_ok s y /\ s_ident s y x)) /\
  (forall fs d x, f_sound fs -> f_ok fs d -> f_dest fs d -> f_ok fs x -> f_fits fs x ->
    readsP (fun e h st => m_read (fmf fs) e h d st) (fun fl => nodes_bytes fl (f_doc fs x)) (fun y => f_ok fs y /\ f_rel (fun _ => eq) same_holding fs y x)).
Proof.
  apply schema_fields_ind.
  - intros k f d x _ _ _ Hx Hf. apply (reads_P _ _ x); [apply (GraphSets.g_reads (kops k) (klaws k) x d Hx Hf)|].
    split; [exact Hx|]. split; tauto.
  - intros k f s IH d x [Hn Hs] [Hd Ed] _ [Hx Ex] [Hl Hf].
    eapply readsP_imp; [apply (t_reads (kops k) (klaws k) (I (kt k)) (smf s) (s_doc s) (fun y a => s_ok s y /\ s_ident s y a) x d Hx Hl)|].
    + intros i a Ha. split; [apply doc_nonempty_s; eauto|]. apply IH; eauto; [apply s_new_ok|apply s_new_dest].
    + intros m (Hm & Sm). split; [split; [exact Hm|]|].
      * apply (same_map_left _ (klaws k) _ _ _ _ Hm Sm). tauto.
      * revert Sm. apply (same_map_imp _ (klaws k)); auto. tauto.
  - intros t d x _ Hd Hr Hx _. apply (reads_P _ _ x); [apply (iv_reads t x d Hx Hd Hr)|]. split; [exact Hx|reflexivity].
  - intros v w _ (d & -> & Hd) _ (x & -> & Hx) (k & c & E). apply v_of_same in E. subst x.
    apply (reads_P _ _ (v_of (Holds k c))); [apply (v_reads k c d Hx)|]. split; exists (Holds k c); [auto|].
    exists (Holds k c). repeat split; apply Hx.
  - intros fs H. exact H.
  - intros d x _ _ _ _ _. apply (reads_P _ _ tt); [|split; exact Logic.I].
    intros e h above f st pre post fl R Es _ _. exists st. split; [reflexivity|]. rewrite app_nil_r. split; [exact Es|]. split; [reflexivity|lia].
  - intros n t c r IH [b d] [a x] [Hn Hr] (Hb & Cb & Hd) [Db Dd] (Ha & Ca & Hx) Hf. cbn [fst snd f_fits f_dest] in *.
    assert (HI : item_ok (Item t n a)) by (split; assumption).
    assert (Q := readsP_seq _ (fun v e h st => do q <- m_read (fmf r) e h d st; let '(ok2, f, st2) := q in Done (ok2, (v, f), st2)) (fun v => (v, d)) _
      (fun fl => nodes_bytes fl (f_doc r x)) (eq a) (fun y => f_ok (FBase n t c r) y /\ f_rel (fun _ => eq) same_holding (FBase n t c r) y (a, x))
      (reads_P _ _ _ _ (reads_item t n a b HI (eq_trans Cb (eq_sym Ca)) Hb Db) eq_refl)).
    eapply readsP_ext; [apply Q| |reflexivity].
    + intros v <-. exact (readsP_map _ (fun _ f => (a, f)) _ _ _ (IH d x Hr Hd Dd Hx Hf) (fun y H => conj (conj Ha (conj Ca (proj1 H))) (conj eq_refl (proj2 H)))).
    + intros e h st. change (m_read (fmf (FBase n t c r)) e h (b, d) st) with (bf_read n (fmf r) t e h (b, d) st). unfold bf_read. cbn [fst snd].
      destruct (r_read e h t n b st) as [[[[] v] st1]| |]; reflexivity.
  - intros n s IHs r IH [b d] [a x] (Hn & Hne & Hs & Hr) (Hb & Hd) [Db Dd] (Ha & Hx) [Hf1 Hf2]. cbn [fst snd f_fits f_dest] in *.
    assert (S := readsP_section n false b b _ _ _ Hn (fun fl => nodes_bytes_nonempty fl _ (doc_nonempty_s s a Hne Hf1)) (IHs b a Hs Hb Db Ha Hf1)).
    assert (Q := readsP_seq _ (fun v e h st => do q <- m_read (fmf r) e h d st; let '(ok2, f, st2) := q in Done (ok2, (v, f), st2)) (fun v => (v, d)) _
      (fun fl => nodes_bytes fl (f_doc r x)) _ (fun y => f_ok (FClass n s r) y /\ f_rel (fun _ => eq) same_holding (FClass n s r) y (a, x)) S).
    eapply readsP_ext; [apply Q| |reflexivity].
    + intros v [Hv Iv]. exact (readsP_map _ (fun _ f => (v, f)) _ _ _ (IH d x Hr Hd Dd Hx Hf2) (fun y H => conj (conj Hv (proj1 H)) (conj Iv (proj2 H)))).
    + intros e h st. change (m_read (fmf (FClass n s r)) e h (b, d) st) with (cf_read n (fmf r) (smf s) e h (b, d) st). unfold cf_read, sec_read. cbn [fst snd].
      destruct (r_begin e h n false st) as [[[c ok] st1]| |]; cbn [bind]; try reflexivity. destruct ok; cbn [negb bind]; try reflexivity.
      destruct c as [hc|]; cbn [bind negb]; try reflexivity.
      destruct (m_read (smf s) e hc b st1) as [[[ok v] st2]| |]; cbn [bind]; try reflexivity. destruct ok; cbn [negb bind]; try reflexivity.
      destruct (r_end h (Some hc) st2) as [[ok st3]| |]; reflexivity.
  - intros n s IHs r IH [b d] [a x] (Hn & Hne & Hs & Hr) (Hb & Hd) Dd (Ha & Hx) [Hf1 Hf2]. cbn [fst snd f_fits f_dest] in *.
    assert (S : readsP (sec_read n true b None (fun e hc st1 => do q <- m_read (smf s) e hc (m_new (smf s)) st1; let '(ok, v, st2) := q in Done (ok, Some v, st2)))
       (fun fl => large_block fl vt_subsection n (nodes_bytes fl (match a with Some a => s_doc s a | None => Nil end)))
       (fun v => match v, a with Some v, Some a => s_ok s v /\ s_ident s v a | None, None => True | _, _ => False end)).
    { destruct a as [a|].
      - apply readsP_section; [exact Hn|exact (fun fl => nodes_bytes_nonempty fl _ (doc_nonempty_s s a Hne Hf1))|].
        exact (readsP_map _ (fun _ v => Some v) _ _ _ (IHs (m_new (smf s)) a Hs (s_new_ok I s) (s_new_dest I s) Ha Hf1) (fun y H => H)).
      - apply (reads_P _ _ None); [apply reads_section_empty; exact Hn|exact Logic.I]. }
    assert (Q := readsP_seq _ (fun v e h st => do q <- m_read (fmf r) e h d st; let '(ok2, f, st2) := q in Done (ok2, (v, f), st2)) (fun v => (v, d)) _
      (fun fl => nodes_bytes fl (f_doc r x)) _ (fun y => f_ok (FOpt n s r) y /\ f_rel (fun _ => eq) same_holding (FOpt n s r) y (a, x)) S).
    eapply readsP_ext; [apply Q| |reflexivity].
    + intros v Hv. refine (readsP_map _ (fun _ f => (v, f)) _ _ _ (IH d x Hr Hd Dd Hx Hf2) (fun y H => conj (conj _ (proj1 H)) (conj _ (proj2 H)))); cbn [fst];
        destruct v, a; try contradiction; try exact Logic.I; apply Hv.
    + intros e h st. change (m_read (fmf (FOpt n s r)) e h (b, d) st) with (of_read n (fmf r) (smf s) e h (b, d) st). unfold of_read, sec_read. cbn [fst snd].
      destruct (r_begin e h n true st) as [[[c ok] st1]| |]; cbn [bind]; try reflexivity. destruct ok; cbn [negb bind]; try reflexivity.
      destruct c as [hc|]; cbn [bind negb]; try reflexivity.
      destruct (m_read (smf s) e hc (m_new (smf s)) st1) as [[[ok v] st2]| |]; cbn [bind]; try reflexivity. destruct ok; cbn [negb bind]; try reflexivity.
      destruct (r_end h (Some hc) st2) as [[ok st3]| |]; reflexivity.
Qed.

Lemma t_s_roundtrip s x init lim fl : s_sound s -> s_ok s x -> s_fits s x -> room init lim (len (nodes_bytes fl (s_doc s x))) ->
  exists s0 st, fresh init lim fl = Done s0 /\ m_write (smf s) 0 x (w_open s0) = Done (true, st) /\
    ws_data (w_stream st) = nodes_bytes fl (s_doc s x) /\
    forall e d post, s_ok s d -> s_dest s d -> read_room e (ws_pos (w_stream st)) (ws_pos (w_stream st) + len post) ->
      exists y st', m_read (smf s) e 0 d (r_open (RS (ws_data (w_stream st) ++ post) 0 fl)) = Done (true, y, st') /\
        (s_ok s y /\ s_ident s y x) /\ r_stream st' = RS (ws_data (w_stream st) ++ post) (ws_pos (w_stream st)) fl.
Proof.
  intros Hs Hx Hf Hr. destruct writes_both as [W _]. destruct reads_both as [R _].
  destruct (roundtripP (fun h st => m_write (smf s) h x st) (fun d e h st => m_read (smf s) e h d st) (fun fl => nodes_bytes fl (s_doc s x))
     (fun y => s_ok s y /\ s_ident s y x) init lim fl (fun d => s_ok s d /\ s_dest s d) (W s x Hs Hx Hf) (fun d Hd => R s d x Hs (proj1 Hd) (proj2 Hd) Hx Hf) Hr)
    as (s0 & st & E0 & E1 & Ed & Q).
  exists s0, st. split; [exact E0|]. split; [exact E1|]. split; [exact Ed|]. intros e d post Hd Dd. apply Q. auto.
Qed.
End I.
