(** * Write of objects in which not every Varying holds a value. Proofs. *)
From Verif Require Import Base Bytes BytesFacts Values Streams FileSpec ReadSpec StreamFacts StreamProps Types Format
  Accept EntityWriter EntityReader EntityWriterFacts PackFacts ArrayWriterFacts EntityReaderFacts EntitySafety ArraySafety
  ReadTotal Items ItemSpec EntityProps Sections Documents DocSpec SectionFacts SectionReadFacts SectionTheorems CodecFacts
  Keys KeySpec KeyFacts Containers ValueEqSpec Graph GraphSpec Classes Table TableSpec TableFacts TableCodec
  IndexedVector IndexedVectorSpec IndexedVectorFacts DynTypes Varying VaryingSpec VaryingCodec EntityGen EntitySpec EntityFacts EntityCodec FullSpec.
From Verif Require GraphSets.
Local Open Scope N_scope.

(** The write function returns false, if there is room for [b fl] bytes. *)
Definition stops (W : N -> wstate -> res (bool * wstate)) (b : bool -> list byte) : Prop :=
  forall h above f st c fl lim,
    wready h above f st -> ws_at (w_stream st) c fl lim -> 2 * (len c + len (b fl)) <= lim ->
    exists st', W h st = Done (false, st').

Lemma stops_left W1 W2 b1 b2 : stops W1 b1 ->
  stops (fun h st => do r <- W1 h st; let '(ok, st1) := r in if (ok : bool) then W2 h st1 else Done (false, st1)) (fun fl => b1 fl ++ b2 fl).
Proof.
  intros H1 h above f st c fl lim R H Hl. rewrite len_app in Hl. destruct (H1 h above f st c fl lim R H) as (st1 & E1); [lia|].
  exists st1. rewrite E1. reflexivity.
Qed.
Lemma stops_right W1 W2 b1 b2 : writes W1 b1 -> stops W2 b2 ->
  stops (fun h st => do r <- W1 h st; let '(ok, st1) := r in if (ok : bool) then W2 h st1 else Done (false, st1)) (fun fl => b1 fl ++ b2 fl).
Proof.
  intros H1 H2 h above f st c fl lim R H Hl. rewrite len_app in Hl.
  destruct (H1 h above f st c fl lim R H) as (st1 & E1 & (S1 & C1 & N1)); [lia|].
  destruct (H2 h above f st1 _ fl lim (wready_keep _ _ _ _ _ R C1 N1) S1) as (st2 & E2); [rewrite len_app; lia|].
  exists st2. rewrite E1. cbn [bind]. exact E2.
Qed.
Lemma stops_ext W W' b b' : stops W b -> (forall h st, W' h st = W h st) -> (forall fl, b' fl = b fl) -> stops W' b'.
Proof. intros H E Eb h above f st c fl lim R S L. rewrite Eb in *. rewrite E. apply (H h above f st c fl lim); auto. Qed.

Definition sec_seq (key : list byte) (body W : N -> wstate -> res (bool * wstate)) (h : N) (st : wstate) : res (bool * wstate) :=
  do r <- w_begin h key st; let '(c, st1) := r in
  match c with
  | None => Done (false, st1)
  | Some hc =>
    do r2 <- body hc st1; let '(ok, st2) := r2 in
    if negb ok then Done (false, st2) else
    do r3 <- w_end h (Some hc) st2; let '(_, st3) := r3 in W h st3
  end.
Lemma stops_section key body W b b2 : len key <= 40 -> stops body b ->
  stops (sec_seq key body W) (fun fl => large_block fl vt_subsection key (b fl) ++ b2 fl).
Proof.
  intros Hk Hb h above f st c fl lim R H Hl. rewrite len_app, len_large_block in Hl.
  destruct (begin_section_at h key st above f c fl lim R H Hk) as (s1 & E1 & H1); [lia|]. unfold sec_seq. rewrite E1. cbn [bind].
  pose proof (wready_child h above f st s1 (len c) R) as R1. cbn zeta in R1.
  destruct (Hb _ _ _ _ _ fl lim R1 H1) as (st2 & E2); [rewrite len_app, len_large_open; lia|].
  exists st2. rewrite E2. reflexivity.
Qed.
Lemma stops_after_section key body W b b2 : len key <= 40 -> writes body b -> stops W b2 ->
  stops (sec_seq key body W) (fun fl => large_block fl vt_subsection key (b fl) ++ b2 fl).
Proof.
  intros Hk Hb HW h above f st c fl lim R H Hl. rewrite len_app in Hl.
  destruct (writes_section key body b Hk Hb h above f st c fl lim R H) as (st1 & E1 & (S1 & C1 & N1)); [lia|].
  destruct (HW h above f st1 _ fl lim (wready_keep _ _ _ _ _ R C1 N1) S1) as (st2 & E2); [rewrite len_app; lia|].
  exists st2. unfold sec_seq.
  destruct (w_begin h key st) as [[[hc|] s1]| |]; cbn [bind] in *; try discriminate.
  destruct (body hc s1) as [[[|] s2]| |]; cbn [bind negb] in *; try discriminate.
  rewrite E1. cbn [bind]. exact E2.
Qed.

(** Tables. *)
Section S.
Context {K T : Type} (Ko : keyops K) (KL : key_laws Ko) (M : mf T) (doc : T -> nodes).
Notation tb := (table K T).
Notation el := (list (K * option T)).
Notation eelems := (eelems doc).
Notation ewrites := (ewrites M doc).
Definition estops (x : T) : Prop := stops (fun h st => m_write M h x st) (fun fl => nodes_bytes fl (doc x)).

Lemma eelems_app fl (m1 m2 : el) : elems_bytes fl (eelems (m1 ++ m2)) = elems_bytes fl (eelems m1) ++ elems_bytes fl (eelems m2).
Proof. induction m1 as [|p m1 IH]; [reflexivity|]. cbn [app]. rewrite !eelems_cons, IH, <- !app_assoc. reflexivity. Qed.
Lemma write_entries_app h c (m2 : el) : forall m1 i st, t_write_entries M h c i (m1 ++ m2) st =
  do r <- t_write_entries M h c i m1 st; let '(ok, st1) := r in if (ok : bool) then t_write_entries M h c (i + len m1) m2 st1 else Done (false, st1).
Proof.
  induction m1 as [|[k o] m1 IH]; intros i st; cbn [app t_write_entries].
  - cbn [bind]. change (len (@nil (K * option T))) with 0. rewrite N.add_0_r. reflexivity.
  - rewrite len_cons. destruct (w_begin_in h c i st) as [[[|] st1]| |]; cbn [bind negb]; try reflexivity.
    match goal with |- context [bind ?X _] => destruct X as [[[|] st2]| |] end; cbn [bind negb]; try reflexivity.
    destruct (w_end_in h c i st2) as [[[|] st3]| |]; cbn [bind negb]; try reflexivity.
    rewrite IH. replace (i + 1 + len m1) with (i + (len m1 + 1)) by lia. reflexivity.
Qed.
Lemma stop_entry k x (m : el) : estops x -> forall h above f ch i st c fl lim,
  w_chain st = (above ++ [f]) ++ [ch] -> wf_id f = h -> widle ch ->
  ~ In h (map wf_id above) -> ~ In (wf_id ch) (map wf_id (above ++ [f])) ->
  Forall (fun g => wf_id g < w_next st) (w_chain st) ->
  add64 (wf_index f) 1 = i -> i < wf_size f -> wf_size f < ones ->
  ws_at (w_stream st) c fl lim -> 2 * (len c + len (elems_bytes fl (eelems ((k, Some x) :: m)))) <= lim ->
  exists st', t_write_entries M h (Some (wf_id ch)) i ((k, Some x) :: m) st = Done (false, st').
Proof.
  intros HW h above f ch i st c fl lim HC Hid Hch Hn1 Hn2 F Hix Hsz Hs1 H Hlim. rewrite eelems_cons in *. cbn [snd edoc] in *.
  cbn [t_write_entries]. rewrite !len_app, len_num in Hlim. cbn [wbytes] in Hlim.
  pose proof (ws_at_lim _ _ _ _ H) as Hl64. pose proof (ws_at_pos _ _ _ _ H) as Hp.
  unfold w_begin_in at 1. rewrite HC, <- app_assoc. cbn [app]. rewrite split_at_mid by assumption.
  cbn [head_id hdl_eqb]. rewrite N.eqb_refl, Hix, N.eqb_refl. cbn [negb].
  destruct (N.leb_spec (wf_size f) i) as [X|_]; [lia|].
  destruct (ws_u64_at maxint64 _ c fl lim H) as (s1 & E1 & H1); [lia|]. rewrite E1. cbn [bind].
  rewrite (ws_at_pos _ _ _ _ H1), Hp, len_app, len_enc. cbn [wbytes]. rewrite add64_small, N.eqb_refl by (unfold two64 in *; lia).
  cbn [negb].
  set (f1 := WF (wf_id f) (wf_start f) (wf_size f) i (len c)).
  set (st1 := WSt s1 (above ++ f1 :: [ch]) (w_next st)).
  destruct (HW (wf_id ch) (above ++ [f1]) ch st1 (c ++ enc W64 fl maxint64) fl lim) as (st2 & E2); [|exact H1|rewrite len_app, len_enc; cbn [wbytes]; lia|].
  - unfold st1. repeat split; cbn [w_chain w_next]; try assumption; try apply Hch.
    + rewrite <- app_assoc. reflexivity.
    + rewrite map_app in *. exact Hn2.
    + rewrite HC in F. rewrite !Forall_app in F. destruct F as ((F1 & F2) & F3). rewrite Forall_app. split; [exact F1|].
      constructor; [inversion F2; assumption|exact F3].
  - exists st2. rewrite E2. reflexivity.
Qed.
(** Which entry is the first that cannot be written. *)
Lemma entries_dec (P : T -> Prop) : forall m : el, (forall k x, In (k, Some x) m -> P x /\ ewrites x \/ ~ P x /\ estops x) ->
  entries ewrites m /\ entries P m \/
  exists m1 k x m2, m = m1 ++ (k, Some x) :: m2 /\ entries ewrites m1 /\ ~ P x /\ estops x.
Proof.
  induction m as [|[k o] m IH]; intros D.
  - left. split; intros k x [].
  - specialize (IH (fun i y H => D i y (or_intror H))). destruct o as [x|].
    + destruct (D k x (or_introl eq_refl)) as [(Px & Wx)|(Px & Sx)].
      * destruct IH as [(H1 & H2)|(m1 & k' & y & m2 & -> & H1 & H2 & H3)].
        -- left. split; intros i y [E|H]; try (inversion E; subst; assumption); eauto.
        -- right. exists ((k, Some x) :: m1), k', y, m2. split; [reflexivity|]. split; [|auto]. intros i z [E|H]; [inversion E; subst; assumption|eauto].
      * right. exists [], k, x, m. split; [reflexivity|]. split; [intros ? ? []|auto].
    + destruct IH as [(H1 & H2)|(m1 & k' & y & m2 & -> & H1 & H2 & H3)].
      * left. split; intros i y [E|H]; try discriminate E; eauto.
      * right. exists ((k, None) :: m1), k', y, m2. split; [reflexivity|]. split; [|auto]. intros i z [E|H]; [discriminate E|eauto].
Qed.
Lemma stops_entities (m m1 m2 : el) k x : m = m1 ++ (k, Some x) :: m2 -> entries ewrites m1 -> estops x ->
  stops (fun h st => do r2 <- w_begin_arr h key_entities (len m) None st; let '(c, st2) := r2 in
    match c with
    | None => Done (false, st2)
    | Some hc =>
      do r3 <- t_write_entries M h (Some hc) 0 m st2; let '(ok3, st3) := r3 in
      if negb ok3 then Done (false, st3) else w_end_arr h (Some hc) st3
    end) (fun fl => large_block fl vt_array_subsection key_entities (meta_bytes fl 0 (len m) None ++ elems_bytes fl (eelems m))).
Proof.
  intros Em HW Sx h above f st c fl lim Rw H Hlim.
  assert (Hk : len key_entities <= 40) by (vm_compute; discriminate).
  rewrite len_large_block, len_app, len_meta_bytes in Hlim.
  pose proof (elems_bytes_bound fl (eelems m)) as Hb. rewrite slen_eelems in Hb. pose proof (ws_at_lim _ _ _ _ H) as Hl64.
  assert (Hn1 : len m < ones) by (unfold ones, two64 in *; lia).
  destruct (begin_arr_at h key_entities (len m) None st above f c fl lim Rw H Hk Hn1 I) as (s1 & E1 & H1); [lia|].
  rewrite E1. cbn [bind].
  pose proof (wready_child h above f st s1 (len c) Rw) as R1. cbn zeta in R1.
  destruct Rw as (E & Hid & Hn & F & I).
  assert (Hlm : len m = len m1 + (1 + len m2)) by (rewrite Em, len_app, len_cons; lia).
  assert (Hbytes : len (elems_bytes fl (eelems m)) = len (elems_bytes fl (eelems m1)) + len (elems_bytes fl (eelems ((k, Some x) :: m2))))
    by (rewrite Em, eelems_app, len_app; reflexivity).
  assert (Fc : Forall (fun g => wf_id g < w_next st + 1) ((above ++ [WF h (wf_start f) (len m) ones 0]) ++ [WF (w_next st) (len c) 0 ones 0])).
  { destruct R1 as (_ & _ & _ & Q & _). cbn [w_chain w_next] in *. rewrite !Forall_app in *.
    destruct Q as ((Q1 & Q2) & Q3). split; [|exact Q3]. split; [exact Q1|]. constructor; [|constructor]. cbn.
    inversion Q2; subst. assumption. }
  assert (Nc : ~ In (wf_id (WF (w_next st) (len c) 0 ones 0)) (map wf_id (above ++ [WF h (wf_start f) (len m) ones 0]))).
  { destruct R1 as (_ & _ & Q & _). rewrite map_app in Q. cbn [map] in Q. rewrite Hid in Q. rewrite map_app. exact Q. }
  destruct (write_entries_at M doc (fun _ _ => True) m1 HW h above (WF h (wf_start f) (len m) ones 0) (WF (w_next st) (len c) 0 ones 0) 0
     (WSt s1 ((above ++ [WF h (wf_start f) (len m) ones 0]) ++ [WF (w_next st) (len c) 0 ones 0]) (w_next st + 1))
     (c ++ large_open fl vt_array_subsection key_entities ++ meta_bytes fl 0 (len m) None) fl lim eq_refl eq_refl) as (st2 & f' & E2 & H2 & C2 & I2 & S2 & Z2 & X2 & N2); try assumption.
  + repeat split; reflexivity.
  + reflexivity.
  + cbn [wf_size]. lia.
  + rewrite !len_app, len_large_open, len_meta_bytes. lia.
  + cbn [wf_id] in E2. replace (t_write_entries M h (Some (w_next st)) 0 m) with (t_write_entries M h (Some (w_next st)) 0 (m1 ++ (k, Some x) :: m2))
      by (rewrite Em; reflexivity). rewrite write_entries_app, E2. cbn [bind w_chain w_next wf_size wf_start] in *.
    destruct (stop_entry k x m2 Sx h above f' (WF (w_next st) (len c) 0 ones 0) (0 + len m1) st2
      ((c ++ large_open fl vt_array_subsection key_entities ++ meta_bytes fl 0 (len m) None) ++ elems_bytes fl (eelems m1)) fl lim C2 I2) as (st3 & E3); try assumption.
    * repeat split; reflexivity.
    * rewrite map_app. cbn [map]. rewrite I2. rewrite map_app in Nc. exact Nc.
    * rewrite C2. rewrite !Forall_app in *. destruct Fc as ((Q1 & Q2) & Q3). split; [split|].
      -- eapply Forall_impl; [|exact Q1]. cbn. intros; lia.
      -- constructor; [|constructor]. rewrite I2. inversion Q2; subst. cbn [wf_id] in *. lia.
      -- eapply Forall_impl; [|exact Q3]. cbn. intros; lia.
    * rewrite Z2. lia.
    * rewrite Z2. exact Hn1.
    * rewrite !len_app, len_large_open, len_meta_bytes. lia.
    * cbn [wf_id] in E3. rewrite E3. exists st3. reflexivity.
Qed.
Lemma t_stops (m : tb) m1 k x m2 : len (t_list m) < 2^63 -> t_list m = m1 ++ (k, Some x) :: m2 -> entries ewrites m1 -> estops x ->
  stops (fun h st => t_write Ko M h m st) (fun fl => nodes_bytes fl (table_doc Ko doc m)).
Proof.
  intros HL Em HW Sx. eapply stops_ext; [exact (stops_right _ _ _ _ (writes_item _ _ _ (ids_ok Ko KL _ HL)) (stops_entities _ m1 m2 k x Em HW Sx))| |intros fl; apply table_bytes].
  intros h st. unfold t_write. destruct (w_write h (k_type Ko) key_ids _ st) as [[[] st1]| |]; reflexivity.
Qed.
End S.

Lemma v_stops dt ct : stops (fun h st => v_write h (v_of (Empty dt ct)) st) (fun _ => []).
Proof. intros h above f st c fl lim R H Hl. exists st. reflexivity. Qed.

Section I.
Context (I : forall t, umap_impl (key t)).
Notation smf := (smf I).
Notation fmf := (fmf I).

Lemma fits_iff :
  (forall s x, s_fits s x <-> s_small s x /\ s_full s x) /\ (forall fs x, f_fits fs x <-> f_small fs x /\ f_full fs x).
Proof.
  apply schema_fields_ind.
  - intros k f x. cbn. tauto.
  - intros k f s IH x. cbn [s_fits s_small s_full]. split.
    + intros (H1 & H2). split; [split; [exact H1|]|]; intros i y Hy; apply (IH y), (H2 i y Hy).
    + intros ((H1 & H2) & H3). split; [exact H1|]. intros i y Hy. apply IH. eauto.
  - intros t x. cbn. tauto.
  - intros x. cbn. tauto.
  - intros fs H. exact H.
  - intros x. cbn. tauto.
  - intros n t c r IH x. cbn [f_fits f_small f_full]. apply IH.
  - intros n s IHs r IH x. cbn [f_fits f_small f_full]. rewrite IHs, IH. tauto.
  - intros n s IHs r IH x. cbn [f_fits f_small f_full]. rewrite IH. destruct (fst x); [rewrite IHs|]; tauto.
Qed.

Lemma wdec_both :
  (forall s x, s_sound s -> s_ok s x -> s_small s x ->
    (s_full s x /\ writes (fun h st => m_write (smf s) h x st) (fun fl => nodes_bytes fl (s_doc s x))) \/
    (~ s_full s x /\ stops (fun h st => m_write (smf s) h x st) (fun fl => nodes_bytes fl (s_doc s x)))) /\
  (forall fs x, f_sound fs -> f_ok fs x -> f_small fs x ->
    (f_full fs x /\ writes (fun h st => m_write (fmf fs) h x st) (fun fl => nodes_bytes fl (f_doc fs x))) \/
    (~ f_full fs x /\ stops (fun h st => m_write (fmf fs) h x st) (fun fl => nodes_bytes fl (f_doc fs x)))).
Proof.
  apply schema_fields_ind.
  - intros k f x Hs Hx Hm. left. split; [exact Logic.I|]. apply (proj1 (writes_both I) (SGraph k f)); assumption.
  - intros k f s IH x [Hne Hs] [Hx Ex] [Hl Hm]. cbn [s_full].
    destruct (entries_dec (K := key (kt k)) (smf s) (s_doc s) (s_full s) (t_list x)) as [(W & F)|(m1 & i & a & m2 & E & W & N & St)].
    + intros i a Ha. apply IH; eauto.
    + left. split; [exact F|]. exact (t_writes (kops k) (klaws k) (smf s) (s_doc s) (fun _ _ => True) x Hl W).
    + right. split; [|exact (t_stops (kops k) (klaws k) (smf s) (s_doc s) x m1 i a m2 Hl E W St)].
      intros F. apply N, (F i a). rewrite E. apply in_or_app. right. left. reflexivity.
  - intros t x Hs Hx Hm. left. split; [exact Logic.I|]. apply (proj1 (writes_both I) (SIdx t)); auto.
  - intros v Hs (x & -> & Hx) _. destruct x as [dt ct|k c].
    + right. split; [|apply v_stops]. intros (k & c & E). apply v_of_same in E. discriminate E.
    + left. split; [exists k, c; reflexivity|]. apply (v_writes k c Hx).
  - intros fs H. exact H.
  - intros x _ _ _. left. split; [exact Logic.I|apply writes_nil].
  - intros n t c r IH [a x] [Hn Hr] (Ha & Ca & Hx) Hm. cbn [fst snd f_full f_small f_doc] in *.
    assert (Eq : forall h st, m_write (fmf (FBase n t c r)) h (a, x) st =
      do q <- w_write h t n a st; let '(ok, st1) := q in if (ok : bool) then m_write (fmf r) h x st1 else Done (false, st1)).
    { intros h st. change (m_write (fmf (FBase n t c r)) h (a, x) st) with (bf_write n (fmf r) t h (a, x) st). unfold bf_write. cbn [fst snd].
      destruct (w_write h t n a st) as [[[] st1]| |]; reflexivity. }
    destruct (IH x Hr Hx Hm) as [(H1 & H2)|(H1 & H2)].
    + left. split; [exact H1|]. eapply writes_ext; [exact (writes_seq _ _ _ _ (writes_item t n a (conj Ha Hn)) H2)|exact Eq|reflexivity].
    + right. split; [exact H1|]. eapply stops_ext; [exact (stops_right _ _ _ _ (writes_item t n a (conj Ha Hn)) H2)|exact Eq|reflexivity].
  - intros n s IHs r IH [a x] (Hn & _ & Hs & Hr) (Ha & Hx) [Hm1 Hm2]. cbn [fst snd f_full] in *.
    destruct (IHs a Hs Ha Hm1) as [(F1 & W1)|(F1 & W1)].
    + destruct (IH x Hr Hx Hm2) as [(F2 & W2)|(F2 & W2)].
      * left. split; [auto|]. exact (writes_section_seq n _ _ _ _ Hn W1 W2).
      * right. split; [tauto|]. exact (stops_after_section n _ _ _ _ Hn W1 W2).
    + right. split; [tauto|]. exact (stops_section n _ _ _ _ Hn W1).
  - intros n s IHs r IH [a x] (Hn & _ & Hs & Hr) (Ha & Hx) [Hm1 Hm2]. cbn [fst snd f_full] in *.
    destruct a as [a|].
    + destruct (IHs a Hs Ha Hm1) as [(F1 & W1)|(F1 & W1)].
      * destruct (IH x Hr Hx Hm2) as [(F2 & W2)|(F2 & W2)].
        -- left. split; [auto|]. exact (writes_section_seq n _ _ _ _ Hn W1 W2).
        -- right. split; [tauto|]. exact (stops_after_section n _ _ _ _ Hn W1 W2).
      * right. split; [tauto|]. exact (stops_section n _ _ _ _ Hn W1).
    + destruct (IH x Hr Hx Hm2) as [(F2 & W2)|(F2 & W2)].
      * left. split; [auto|]. exact (writes_section_seq n _ _ _ _ Hn writes_nil W2).
      * right. split; [tauto|]. exact (stops_after_section n _ _ _ _ Hn writes_nil W2).
Qed.

Lemma t_write_exact s x init lim fl : s_sound s -> s_ok s x -> s_small s x -> room init lim (len (nodes_bytes fl (s_doc s x))) ->
  exists s0 b st, fresh init lim fl = Done s0 /\ m_write (smf s) 0 x (w_open s0) = Done (b, st) /\ (b = true <-> s_full s x).
Proof.
  intros Hs Hx Hm Hr. destruct (proj1 wdec_both s x Hs Hx Hm) as [(F & W)|(F & W)].
  - destruct (writes_open _ _ init lim fl W Hr) as (s0 & st & E0 & E & _). exists s0, true, st. split; [exact E0|]. split; [exact E|]. tauto.
  - destruct Hr as (R1 & R2 & R3 & R4). destruct (fresh_at init lim fl R1 R2 R3) as (s0 & E0 & H0).
    destruct (W 0 [] (wf_new 0 s0) (w_open s0) [] fl lim (wready_open s0) H0) as (st & E); [rewrite len_nil; lia|].
    exists s0, false, st. split; [exact E0|]. split; [exact E|]. split; [discriminate|tauto].
Qed.
End I.
