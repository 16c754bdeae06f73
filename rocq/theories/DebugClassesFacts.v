(** * The member functions of the classes in both builds. Proofs. *)
From Verif Require Import Base Bytes BytesFacts Values Streams FileSpec ReadSpec StreamFacts StreamProps Types Format
  Accept EntityWriter EntityReader Items EntityWriterFacts EntityReaderFacts EntitySafety ArraySafety
  ReadTotal ItemSpec ReadValid Sections Protocol Validator Keys KeySpec KeyFacts Containers StdSet Graph GraphSpec Classes Table TableSpec
  IndexedVector IndexedVectorSpec DynTypes DynTypesFacts Varying VaryingSpec VaryingCodec EntityGen EntitySpec EntityFacts ReadAnySpec Damage DamageFacts
  ReadAny Documents DocSpec EntityCodec Debug DebugSpec DebugFacts DebugRunFacts DebugGraphFacts DebugClasses DebugClassesSpec.
Local Open Scope N_scope.

(** ** Writing *)
Lemma counted_len {A} (l : list A) : forall i, counted i l = i + len l.
Proof. induction l as [|x l IH]; intros i; cbn [counted]; [rewrite len_nil; lia|]. rewrite IH, len_cons. lia. Qed.
Lemma w_write_same h t key v st : len key <= 40 -> d_w_write h t key v st = w_write h t key v st.
Proof. intros H. unfold d_w_write, w_write. rewrite d_ew_write_eq, klen_legal by exact H. reflexivity. Qed.
Lemma w_begin_same h key st : len key <= 40 -> d_w_begin h key st = w_begin h key st.
Proof. intros H. unfold d_w_begin, w_begin. rewrite d_begin_write_eq, klen_legal by exact H. reflexivity. Qed.
Lemma w_begin_arr_same h key n st : len key <= 40 -> d_w_begin_arr h key n None st = w_begin_arr h key n None st.
Proof.
  intros H. unfold d_w_begin_arr, w_begin_arr. rewrite d_begin_write_eq, klen_legal by exact H.
  destruct (split_at wf_id h (w_chain st)) as [[[a f] b]|]; [|reflexivity]. destruct b; [|reflexivity].
  apply bind_ext. intros [ok s1] _. rewrite d_write_meta_eq by lia. reflexivity.
Qed.

Definition writes_same {T} (M : mf T) (D : dmf T) : Prop := forall h x st, dm_write D h x st = m_write M h x st.

Lemma graph_same {K} (Ko : keyops K) f : writes_same (graph_mf Ko f) (d_graph Ko f).
Proof.
  intros h g st. cbn [d_graph dm_write graph_mf m_write]. unfold d_g_write, g_write.
  rewrite w_write_same by (vm_compute; congruence).
  destruct (w_write _ _ _ _ _) as [[ok st1]| |]; cbn [bind]; try reflexivity. destruct ok; cbn [negb]; [|reflexivity].
  rewrite w_write_same by (vm_compute; congruence).
  destruct (w_write h _ key_edges _ st1) as [[ok2 st2]| |]; cbn [bind]; try reflexivity. destruct ok2; cbn [negb]; [|reflexivity].
  rewrite counted_len, N.add_0_l, N.eqb_refl. reflexivity.
Qed.

Section TableW.
Context {K T : Type} (Ko : keyops K) (I : umap_impl K) (zero : K) (M : mf T) (D : dmf T) (HM : writes_same M D).
Lemma entries_same h c (m : list (K * option T)) : forall i st,
  match d_t_write_entries D h c i m st, t_write_entries M h c i m st with
  | Done (ok, i', st1), Done (ok', st2) => ok = ok' /\ st1 = st2 /\ (ok = true -> i' = i + len m)
  | Throw, Throw | Undef, Undef => True
  | _, _ => False
  end.
Proof.
  induction m as [|[kk o] m IH]; intros i st; cbn [d_t_write_entries t_write_entries].
  - split; [reflexivity|]. split; [reflexivity|]. rewrite len_nil. lia.
  - destruct (w_begin_in h c i st) as [[ok st1]| |]; cbn [bind]; [|exact Logic.I..].
    destruct ok; cbn [negb bind]; [|split; [reflexivity|split; [reflexivity|discriminate]]].
    assert (E0 : match o with Some x => match c with Some hc => dm_write D hc x st1 | None => Undef end | None => Done (true, st1) end =
      match o with Some x => match c with Some hc => m_write M hc x st1 | None => Undef end | None => Done (true, st1) end).
    { destruct o as [x|]; [|reflexivity]. destruct c as [hc|]; [|reflexivity]. apply HM. }
    rewrite E0. clear E0.
    destruct (match o with Some x => _ | None => _ end) as [[ok2 st2]| |]; cbn [bind]; [|exact Logic.I..].
    destruct ok2; cbn [negb bind]; [|split; [reflexivity|split; [reflexivity|discriminate]]].
    destruct (w_end_in h c i st2) as [[ok3 st3]| |]; cbn [bind]; [|exact Logic.I..].
    destruct ok3; cbn [negb bind]; [|split; [reflexivity|split; [reflexivity|discriminate]]].
    specialize (IH (i + 1) st3). destruct (d_t_write_entries D h c (i + 1) m st3) as [[[a b] d]| |]; destruct (t_write_entries M h c (i + 1) m st3) as [[a' d']| |]; try exact IH.
    destruct IH as (A & B & E). split; [exact A|]. split; [exact B|]. intros X. rewrite (E X), len_cons. lia.
Qed.
Lemma table_same f : writes_same (table_mf Ko I zero M f) (d_table Ko I zero M D f).
Proof.
  intros h m st. cbn [d_table dm_write table_mf m_write]. unfold d_t_write, t_write.
  rewrite w_write_same by (vm_compute; congruence).
  destruct (w_write _ _ _ _ _) as [[ok st1]| |]; cbn [bind]; try reflexivity. destruct ok; cbn [negb]; [|reflexivity].
  rewrite w_begin_arr_same by (vm_compute; congruence).
  destruct (w_begin_arr _ _ _ _ _) as [[c st2]| |]; cbn [bind]; try reflexivity. destruct c as [hc|]; [|reflexivity].
  pose proof (entries_same h (Some hc) (t_list m) 0 st2) as A.
  destruct (d_t_write_entries D h (Some hc) 0 (t_list m) st2) as [[[ok3 i3] st3]| |];
    destruct (t_write_entries M h (Some hc) 0 (t_list m) st2) as [[ok3' st3']| |]; try contradiction; try reflexivity. cbn [bind].
  destruct A as (<- & <- & B). destruct ok3; cbn [negb]; [|reflexivity].
  rewrite (B eq_refl), N.add_0_l, N.eqb_refl. reflexivity.
Qed.
End TableW.

Lemma iv_same t : writes_same (iv_mf t) (d_iv t).
Proof. intros h x st. apply w_write_same. vm_compute. congruence. Qed.
Lemma varying_same : writes_same varying_mf d_varying.
Proof.
  intros h v st. cbn [d_varying dm_write varying_mf m_write]. unfold d_v_write, v_write. destruct (negb (v_init v)); [reflexivity|].
  rewrite w_write_same by (vm_compute; congruence). destruct (w_write _ _ _ _ _) as [[ok st1]| |]; cbn [bind]; try reflexivity.
  destruct ok; cbn [negb]; [|reflexivity].
  rewrite w_write_same by (vm_compute; congruence). destruct (w_write _ _ _ _ _) as [[ok2 st2]| |]; cbn [bind]; try reflexivity.
  destruct ok2; cbn [negb]; [|reflexivity].
  assert (E : d_dyn_write (v_ty v) (v_ct v) key_data h (v_data v) st2 = dyn_write (v_ty v) (v_ct v) key_data h (v_data v) st2); [|rewrite E; reflexivity].
  unfold d_dyn_write, dyn_write, dyn_with. destruct (v_data v) as [o|]; [|reflexivity]. destruct (find_class _ _) as [k|]; [|reflexivity].
  unfold as_class. match goal with |- (if ?b then _ else _) = _ => destruct b end; [|reflexivity]. apply w_write_same. vm_compute. congruence.
Qed.
Section FieldsW.
Context (name : list byte) (Hname : len name <= 40) {F : Type} (M : mf F) (D : dmf F) (HM : writes_same M D).
Lemma base_same t c : writes_same (base_field name M t c) (d_base name D t).
Proof.
  intros h x st. cbn [d_base dm_write base_field m_write]. unfold d_bf_write, bf_write. rewrite w_write_same by exact Hname.
  destruct (w_write _ _ _ _ _) as [[ok st1]| |]; cbn [bind]; try reflexivity. destruct (negb ok); [reflexivity|]. apply HM.
Qed.
Context {T : Type} (S : mf T) (DS : dmf T) (HS : writes_same S DS).
Lemma class_same : writes_same (class_field name M S) (d_class name D DS).
Proof.
  intros h x st. cbn [d_class dm_write class_field m_write]. unfold d_cf_write, cf_write. rewrite w_begin_same by exact Hname.
  destruct (w_begin _ _ _) as [[c st1]| |]; cbn [bind]; try reflexivity. destruct c as [hc|]; [|reflexivity]. rewrite HS.
  destruct (m_write S hc (fst x) st1) as [[ok st2]| |]; cbn [bind]; try reflexivity. destruct (negb ok); [reflexivity|].
  destruct (w_end _ _ _) as [[ok3 st3]| |]; cbn [bind]; try reflexivity. apply HM.
Qed.
Lemma opt_same : writes_same (opt_field name M S) (d_opt name D S DS).
Proof.
  intros h x st. cbn [d_opt dm_write opt_field m_write]. unfold d_of_write, of_write. rewrite w_begin_same by exact Hname.
  destruct (w_begin _ _ _) as [[c st1]| |]; cbn [bind]; try reflexivity. destruct c as [hc|]; [|reflexivity].
  destruct (fst x) as [a|]; [rewrite HS; destruct (m_write S hc a st1) as [[ok st2]| |]|]; cbn [bind]; try reflexivity;
    [destruct (negb ok); [reflexivity|]|cbn [negb]]; (destruct (w_end _ _ _) as [[ok3 st3]| |]; cbn [bind]; try reflexivity; apply HM).
Qed.
End FieldsW.
Lemma same_both (I : forall t, umap_impl (key t)) :
  (forall s, s_short s -> writes_same (smf I s) (d_smf I s)) /\ (forall fs, f_short fs -> writes_same (fmf I fs) (d_fmf I fs)).
Proof.
  apply schema_fields_ind.
  - intros k f _. apply graph_same.
  - intros k f s IH H. exact (table_same (kops k) (I (kt k)) (kzero k) (smf I s) (d_smf I s) (IH H) f).
  - intros t _. apply iv_same.
  - intros _. exact varying_same.
  - intros fs IH H. exact (IH H).
  - intros _ h x st. reflexivity.
  - intros n t c r IH (H1 & H2). exact (base_same n H1 (fmf I r) (d_fmf I r) (IH H2) t c).
  - intros n s IHs r IHr (H1 & H2 & H3). exact (class_same n H1 (fmf I r) (d_fmf I r) (IHr H3) (smf I s) (d_smf I s) (IHs H2)).
  - intros n s IHs r IHr (H1 & H2 & H3). exact (opt_same n H1 (fmf I r) (d_fmf I r) (IHr H3) (smf I s) (d_smf I s) (IHs H2)).
Qed.

(** ** Reading *)
Section Data.
Context (e : renv) (D : list byte) (fl : bool) (P0 : N) (He : e_small e).
Notation here := (here D P0).
Notation cut C := (cut_array D fl P0 C).
Definition failed {A} (r : res (bool * A * rstate)) : Prop := forall y st, r <> Done (true, y, st).
Definition alike {A} (d r : res (bool * A * rstate)) (C : calls) : Prop := d = r \/ (d = Throw /\ failed r /\ cut C).

Lemma alike_refl {A} (r : res (bool * A * rstate)) C : alike r r C.
Proof. left. reflexivity. Qed.
Lemma alike_sub {A} (d r : res (bool * A * rstate)) (C C' : calls) : (forall n t c, C n t c -> C' n t c) -> alike d r C -> alike d r C'.
Proof. intros H [E|(E1 & E2 & (n & t & c & q & A1 & B))]; [left; exact E|right]. split; [exact E1|]. split; [exact E2|]. exists n, t, c, q. auto. Qed.
Lemma alike_bind {A B} (d r : res (bool * A * rstate)) (f g : bool * A * rstate -> res (bool * B * rstate)) (C : calls) P (T U : Prop) :
  alike d r C -> wpu r P T U -> (forall a st', failed (g (false, a, st'))) -> (forall q, P q -> alike (f q) (g q) C) ->
  alike (bind d f) (bind r g) C.
Proof.
  intros [->|(-> & Hf & Hc)] W Hg H.
  - destruct r as [q| |]; cbn [bind wpu] in *; [apply H; exact W|left; reflexivity..].
  - right. split; [reflexivity|]. split; [|exact Hc]. intros y st E. destruct r as [[[ok a] st1]| |]; cbn [bind] in E; try discriminate.
    destruct ok; [exact (Hf a st1 eq_refl)|exact (Hg a st1 y st E)].
Qed.
Lemma same_bind {X B} (m : res X) (f g : X -> res (bool * B * rstate)) (C : calls) P (T U : Prop) :
  wpu m P T U -> (forall q, P q -> alike (f q) (g q) C) -> alike (bind m f) (bind m g) C.
Proof. intros W H. destruct m as [q| |]; cbn [bind wpu] in *; [apply H; exact W|left; reflexivity..]. Qed.

Lemma read_alike p r l h t key dest st : name_ok key -> here p r -> st_at p r fl l h st -> cval_ok t dest ->
  alike (d_r_read e h t key dest st) (r_read e h t key dest st) (only key t (cval_ctype dest)).
Proof.
  intros (Hk0 & Hk) (Hs & HD & HP) (Es & _) Hd.
  assert (HL : len D = len p + len r) by (rewrite <- HD; apply len_app).
  assert (Hp : rs_pos (r_stream st) <= len (rs_data (r_stream st))).
  { rewrite Es. unfold rs_at. cbn [rs_pos rs_data]. rewrite len_app. lia. }
  assert (Hl : len (rs_data (r_stream st)) < 2^62).
  { rewrite Es. unfold rs_at. cbn [rs_data]. rewrite HD, HL. unfold small_rs, lim62 in Hs. lia. }
  destruct (d_rstep_or e (RRead h t key dest) st (conj Hk0 Hk) Hd Hp Hl) as [E|T].
  - left. cbn [d_rstep rstep] in E.
    destruct (d_r_read e h t key dest st) as [[[ok v] st1]| |]; destruct (r_read e h t key dest st) as [[[ok' v'] st1']| |]; cbn [bind] in E; congruence.
  - right. pose proof (d_rstep_trips e (RRead h t key dest) st (conj Hk0 Hk) Hp Hl T) as E. cbn [d_rstep] in E.
    assert (Ed : d_r_read e h t key dest st = Throw).
    { destruct (d_r_read e h t key dest st) as [[[ok v] st1]| |]; cbn [bind] in E; congruence. }
    split; [exact Ed|]. split.
    + intros y st' Er. revert Ed Er. unfold d_r_read, r_read. destruct (split_at rf_id h (r_chain st)) as [x|]; [|discriminate]. rewrite Es. unfold rs_at.
      intros Ed Er. destruct (er_read e t key dest (RS (p ++ r) (len p) fl)) as [[[ok v] s1]| |] eqn:E2; cbn [bind] in Er; try discriminate.
      injection Er as -> -> <-. rewrite (read_success_same e t key dest (p ++ r) (len p) fl y s1) in Ed; try assumption; [discriminate Ed| |].
      * rewrite len_app. lia.
      * rewrite HD, HL. unfold small_rs, lim62 in Hs. lia.
    + destruct T as (_ & Hix & T). rewrite Es in T. unfold rs_at in T. cbn [rs_flip rs_pos rs_data] in T. rewrite HD in T.
      exists key, t, (cval_ctype dest), (len p). split; [repeat split|]. split; [destruct dest; try discriminate Hix; cbn; tauto|]. split; [lia|exact T].
Qed.
Lemma begin_same h key nok st : len key <= 40 -> d_r_begin e h key nok st = r_begin e h key nok st.
Proof. intros H. unfold d_r_begin, r_begin. rewrite d_begin_read_eq by exact H. reflexivity. Qed.
Lemma begin_arr_same h key nok st : len key <= 40 -> d_r_begin_arr e h key nok None st = r_begin_arr e h key nok None st.
Proof. intros H. unfold d_r_begin_arr, r_begin_arr. rewrite d_begin_read_eq by exact H. reflexivity. Qed.

Definition reads_alike {T} (M : mf T) (G : dmf T) (Ok Dst : T -> Prop) (C : calls) : Prop :=
  forall p r l h st x, here p r -> st_at p r fl l h st -> Ok x -> Dst x -> alike (dm_read G e h x st) (m_read M e h x st) C.

Ltac fails := let a := fresh in let b := fresh in let y := fresh in let s := fresh in let E := fresh in
  intros a b y s E; cbv beta iota zeta delta [negb] in E; discriminate E.

Lemma graph_alike k f : reads_alike (graph_mf (kops k) f) (d_graph (kops k) f) (fun _ => True) (fun _ => True) (s_asks (SGraph k f)).
Proof.
  intros p r l h st x Hs Hst _ _. cbn [graph_mf m_read d_graph dm_read]. unfold d_g_read, g_read.
  assert (N1 : name_ok key_roots) by (split; vm_compute; congruence).
  assert (N2 : name_ok key_edges) by (split; vm_compute; congruence).
  eapply alike_bind.
  - eapply alike_sub; [|eapply read_alike; [exact N1|exact Hs|exact Hst|apply cval_ok_nil]].
    unfold only. cbn [s_asks cval_ctype]. intros ? ? ? (-> & -> & ->). auto.
  - eapply (r_read_any e D fl P0 He); [exact N1|exact Hs|exact Hst|apply cval_ok_nil|apply replaced_vec_nil].
  - fails.
  - intros [[ok v] st1] ((p1 & r1 & W1 & S1) & _). destruct ok; [|apply alike_refl].
    eapply alike_bind.
    + eapply alike_sub; [|eapply read_alike; [exact N2|eapply within_here; eassumption|exact S1|apply cval_ok_nil]].
      unfold only. cbn [s_asks cval_ctype]. intros ? ? ? (-> & -> & ->). auto.
    + eapply (r_read_any e D fl P0 He); [exact N2|eapply within_here; eassumption|exact S1|apply cval_ok_nil|apply replaced_vec_nil].
    + fails.
    + intros q _. apply alike_refl.
Qed.

Section Table.
Context (k : ktype) (U : umap_impl (kkey k)) {T : Type} (M : mf T) (G : dmf T) (Ok Dst Fits : T -> Prop) (C : calls)
  (HM : reads_any e D fl P0 M Ok Dst Fits C) (HG : reads_alike M G Ok Dst C) (Hnew : Ok (m_new M)) (Hdst : Dst (m_new M)).
Notation Ko := (kops k).
Lemma entries_alike l h hc ks : forall i p r (m : table (kkey k) T) st, here p r -> st_at p r fl (l ++ [h]) hc st ->
  alike (d_t_read_entries Ko U M G e h (Some hc) i ks m st) (t_read_entries Ko U M e h (Some hc) i ks m st) C.
Proof.
  induction ks as [|kk ks IH]; intros i p r m st Hs Hst; cbn [d_t_read_entries t_read_entries]; [apply alike_refl|].
  eapply same_bind; [eapply (r_begin_in_any D fl P0); [exact Hs|exact Hst]|].
  intros [[ok has] st1] (p1 & r1 & W1 & S1). cbn [snd] in S1. destruct ok; cbn [negb]; [|apply alike_refl].
  destruct (t_emplace Ko U kk _ m) as [m1 inserted]. destruct inserted; cbn [negb]; [|apply alike_refl].
  destruct has.
  - eapply alike_bind with (P := fun q => onward p r fl (l ++ [h]) hc (snd q)).
    + eapply alike_bind; [eapply HG; [eapply within_here; eassumption|exact S1|exact Hnew|exact Hdst]
        |eapply HM; [eapply within_here; eassumption|exact S1|exact Hnew|exact Hdst]|fails|intros q _; apply alike_refl].
    + apply wpu_bind. eapply wpu_impl; [eapply HM; [eapply within_here; eassumption|exact S1|exact Hnew|exact Hdst]| |intros X; exact X|intros X; exact X].
      intros [[ok2 x] st2] ((p2 & r2 & W2 & S2) & _). cbn [wpu snd]. exists p2, r2. split; [eapply within_step; eassumption|exact S2].
    + fails.
    + intros [[ok2 m2] st2] (p2 & r2 & W2 & S2). cbn [snd] in S2. destruct ok2; cbn [negb]; [|apply alike_refl].
      eapply same_bind; [eapply (r_end_in_any fl); exact S2|]. intros [ok3 st3] E. cbn [snd] in E. subst st3.
      destruct ok3; cbn [negb]; [|apply alike_refl]. eapply IH; [eapply within_here; eassumption|exact S2].
  - cbn [bind negb]. eapply same_bind; [eapply (r_end_in_any fl); exact S1|]. intros [ok3 st3] E. cbn [snd] in E. subst st3.
    destruct ok3; cbn [negb]; [|apply alike_refl]. eapply IH; [eapply within_here; eassumption|exact S1].
Qed.
Lemma table_alike f : reads_alike (table_mf Ko U (kzero k) M f) (d_table Ko U (kzero k) M G f) (fun _ => True) (fun _ => True)
  (fun n t c => (n = key_ids /\ t = kt k /\ c = CtVec) \/ C n t c).
Proof.
  intros p r l h st x Hs Hst _ _. cbn [table_mf m_read d_table dm_read]. unfold d_t_read, t_read.
  assert (N1 : name_ok key_ids) by (split; vm_compute; congruence).
  assert (N2 : name_ok key_entities) by (split; vm_compute; congruence).
  eapply alike_bind.
  - eapply alike_sub; [|eapply read_alike; [exact N1|exact Hs|exact Hst|apply cval_ok_nil]].
    unfold only. cbn [cval_ctype]. intros ? ? ? (-> & -> & ->). auto.
  - eapply (r_read_any e D fl P0 He); [exact N1|exact Hs|exact Hst|apply cval_ok_nil|apply replaced_vec_nil].
  - fails.
  - intros [[ok v] st1] ((p1 & r1 & W1 & S1) & _). destruct ok; cbn [negb]; [|apply alike_refl].
    rewrite begin_arr_same by apply N2.
    pose proof (within_here _ _ _ _ _ _ _ W1 Hs) as Hs1.
    eapply same_bind; [eapply (r_begin_arr_any e D fl P0 He); [exact N2|exact Hs1|exact S1]|].
    intros [[[[c size] ok2] ix] st2] Hc. destruct c as [hc|].
    2:{ destruct Hc as (-> & _). apply alike_refl. }
    destruct Hc as (p2 & r2 & W2 & S2). destruct ok2; cbn [negb]; [|apply alike_refl]. unfold check.
    destruct (negb _); [apply alike_refl|].
    eapply alike_bind with (P := fun _ => True) (T := True) (U := True).
    + eapply alike_sub; [|eapply entries_alike; [eapply within_here; eassumption|exact S2]]. tauto.
    + destruct (t_read_entries _ _ _ _ _ _ _ _ _ _); exact Logic.I.
    + fails.
    + intros q _. apply alike_refl.
Qed.
End Table.

Lemma idx_alike t : reads_alike (iv_mf t) (d_iv t) (iv_ok t) (fun _ => True) (s_asks (SIdx t)).
Proof.
  intros p r l h st x Hs Hst Hx _. cbn [iv_mf m_read d_iv dm_read]. unfold d_iv_read, iv_read.
  eapply alike_bind with (P := fun _ => True) (T := True) (U := True).
  - eapply alike_sub; [|eapply read_alike; [split; vm_compute; congruence|exact Hs|exact Hst|exact Hx]].
    unfold only. cbn [s_asks cval_ctype]. intros ? ? ? (-> & -> & ->). auto.
  - destruct (r_read _ _ _ _ _ _); exact Logic.I.
  - fails.
  - intros q _. apply alike_refl.
Qed.

Lemma varying_alike : reads_alike varying_mf d_varying (fun v => exists x, v = v_of x /\ well_typed x) (fun _ => True) (s_asks SVarying).
Proof.
  intros p r l h st v Hs Hst (x & -> & Hx) _. cbn [varying_mf m_read d_varying dm_read]. unfold d_v_read, v_read. rewrite v_deinit_of. cbn [bind].
  assert (N1 : name_ok key_type_) by (split; vm_compute; congruence).
  assert (N2 : name_ok key_container) by (split; vm_compute; congruence).
  assert (N3 : name_ok key_data) by (split; vm_compute; congruence).
  assert (U0 : cval_ok (TUInt I16) (u16_val 0)) by reflexivity.
  eapply alike_bind.
  - eapply alike_sub; [|eapply read_alike; [exact N1|exact Hs|exact Hst|exact U0]].
    unfold only. cbn [s_asks cval_ctype u16_val]. intros ? ? ? (-> & -> & ->). auto.
  - eapply (r_read_any e D fl P0 He); [exact N1|exact Hs|exact Hst|exact U0|exact Logic.I].
  - fails.
  - intros [[ok1 ty] st1] ((p1 & r1 & W1 & S1) & _). destruct ok1; cbn [negb]; [|apply alike_refl].
    pose proof (within_here _ _ _ _ _ _ _ W1 Hs) as Hs1.
    eapply alike_bind.
    + eapply alike_sub; [|eapply read_alike; [exact N2|exact Hs1|exact S1|exact U0]].
      unfold only. cbn [s_asks cval_ctype u16_val]. intros ? ? ? (-> & -> & ->). auto.
    + eapply (r_read_any e D fl P0 He); [exact N2|exact Hs1|exact S1|exact U0|exact Logic.I].
    + fails.
    + intros [[ok2 ct] st2] ((p2 & r2 & W2 & S2) & _). destruct ok2; cbn [negb]; [|apply alike_refl].
      rewrite v_set_type_of. cbn [bind]. unfold VaryingFacts.init_content. destruct (find_class (u16_of ty) (u16_of ct)) as [kc|] eqn:F; cbn [negb]; [|apply alike_refl].
      cbn [v_of fresh_of v_ty v_ct v_data]. unfold d_dyn_read, dyn_read, dyn_with. rewrite find_class_id.
      rewrite !(as_class_own (Obj kc _)). cbn [o_val]. pose proof (VaryingFacts.default_typed kc) as (D1 & D2).
      eapply alike_bind with (P := fun _ => True) (T := True) (U := True).
      * eapply alike_bind with (P := fun _ => True) (T := True) (U := True).
        -- eapply alike_sub; [|eapply read_alike; [exact N3|eapply within_here; eassumption|exact S2|exact D1]].
           unfold only. cbn [s_asks]. intros ? ? ? (-> & _). auto.
        -- destruct (r_read _ _ _ _ _ _); exact Logic.I.
        -- fails.
        -- intros q _. apply alike_refl.
      * destruct (bind _ _); exact Logic.I.
      * fails.
      * intros q _. apply alike_refl.
Qed.

Section Fields.
Context (name : list byte) (Hname : name_ok name) {F : Type} (M : mf F) (G : dmf F) (Ok Dst Fits : F -> Prop) (C : calls)
  (HM : reads_any e D fl P0 M Ok Dst Fits C) (HG : reads_alike M G Ok Dst C).
Lemma base_alike t c : reads_alike (base_field name M t c) (d_base name G t) (fun x => cval_ok t (fst x) /\ cval_ctype (fst x) = c /\ Ok (snd x))
  (fun x => replaced t (fst x) /\ Dst (snd x)) (fun n t0 c0 => (n = name /\ t0 = t /\ c0 = c) \/ C n t0 c0).
Proof.
  intros p r l h st [v x] Hs Hst (H1 & H2 & H3) (D1 & D2). cbn [fst snd] in *. cbn [base_field m_read d_base dm_read]. unfold d_bf_read, bf_read. cbn [fst snd].
  eapply alike_bind.
  - eapply alike_sub; [|eapply read_alike; [exact Hname|exact Hs|exact Hst|exact H1]].
    unfold only. intros ? ? ? (-> & -> & ->). auto.
  - eapply (r_read_any e D fl P0 He); [exact Hname|exact Hs|exact Hst|exact H1|exact D1].
  - fails.
  - intros [[ok v1] st1] ((p1 & r1 & W1 & S1) & _). destruct ok; cbn [negb]; [|apply alike_refl].
    eapply alike_bind with (P := fun _ => True) (T := True) (U := True).
    + eapply alike_sub; [|eapply HG; [eapply within_here; eassumption|exact S1|exact H3|exact D2]]. auto.
    + destruct (m_read _ _ _ _ _); exact Logic.I.
    + fails.
    + intros q _. apply alike_refl.
Qed.
Context {T : Type} (S : mf T) (GS : dmf T) (OkS DstS FitsS : T -> Prop) (CS : calls)
  (HS : reads_any e D fl P0 S OkS DstS FitsS CS) (HGS : reads_alike S GS OkS DstS CS).

(** Reading a child object in its own section, then the other variables. *)
Lemma child_alike {A B} p r l h hc st1 a (w : T -> A) (x : F) (k1 : A -> F -> B) (dflt : A -> B) : here p r -> st_at p r fl (l ++ [h]) hc st1 -> OkS a -> DstS a -> Ok x -> Dst x ->
  alike
    (do r2 <- (do q <- dm_read GS e hc a st1; let '(ok, y, st2) := q in
               if negb ok then Done (false, w y, st2) else
               do r3 <- r_end h (Some hc) st2; let '(_, st3) := r3 in Done (true, w y, st3)); let '(ok2, y, st2) := r2 in
     if negb ok2 then Done (false, dflt y, st2) else
     do q <- dm_read G e h x st2; let '(ok3, f, st3) := q in Done (ok3, k1 y f, st3))
    (do r2 <- (do q <- m_read S e hc a st1; let '(ok, y, st2) := q in
               if negb ok then Done (false, w y, st2) else
               do r3 <- r_end h (Some hc) st2; let '(_, st3) := r3 in Done (true, w y, st3)); let '(ok2, y, st2) := r2 in
     if negb ok2 then Done (false, dflt y, st2) else
     do q <- m_read M e h x st2; let '(ok3, f, st3) := q in Done (ok3, k1 y f, st3))
    (fun n t c => CS n t c \/ C n t c).
Proof.
  intros Hs Hst H1 D1 H2 D2.
  eapply alike_bind with (P := fun q => onward p r fl l h (snd q)).
  - eapply alike_bind with (P := fun _ => True) (T := True) (U := True).
    + eapply alike_sub; [|eapply HGS; [exact Hs|exact Hst|exact H1|exact D1]]. auto.
    + destruct (m_read _ _ _ _ _); exact Logic.I.
    + fails.
    + intros q _. apply alike_refl.
  - apply wpu_bind. eapply wpu_impl; [eapply HS; [exact Hs|exact Hst|exact H1|exact D1]| |intros X; exact X|intros X; exact X].
    intros [[ok2 y] st2] ((p2 & r2 & W2 & S2) & _). destruct ok2; cbn [negb].
    2:{ cbn [wpu snd]. exists p2, r2. split; [exact W2|eapply st_up; exact S2]. }
    apply wpu_bind. eapply wpu_impl; [eapply (r_end_any fl); exact S2| |tauto|tauto].
    intros [ok3 st3] (p3 & r3 & W3 & S3). cbn [wpu snd] in *. exists p3, r3. split; [eapply within_step; eassumption|exact S3].
  - fails.
  - intros [[ok2 y] st2] (p2 & r2 & W2 & S2). cbn [snd] in S2. destruct ok2; cbn [negb]; [|apply alike_refl].
    eapply alike_bind with (P := fun _ => True) (T := True) (U := True).
    + eapply alike_sub; [|eapply HG; [eapply within_here; eassumption|exact S2|exact H2|exact D2]]. auto.
    + destruct (m_read _ _ _ _ _); exact Logic.I.
    + fails.
    + intros q _. apply alike_refl.
Qed.
Lemma class_alike : reads_alike (class_field name M S) (d_class name G GS) (fun x => OkS (fst x) /\ Ok (snd x)) (fun x => DstS (fst x) /\ Dst (snd x))
  (fun n t c => CS n t c \/ C n t c).
Proof.
  intros p r l h st [a x] Hs Hst (H1 & H2) (D1 & D2). cbn [fst snd] in *. cbn [class_field m_read d_class dm_read]. unfold d_cf_read, cf_read. cbn [fst snd].
  rewrite begin_same by apply Hname.
  eapply same_bind; [eapply (r_begin_any e D fl P0); [exact Hname|exact Hs|exact Hst]|].
  intros [[c ok] st1] Hc. destruct c as [hc|].
  2:{ destruct Hc as (X & O). rewrite (X eq_refl). apply alike_refl. }
  destruct Hc as (-> & (p1 & r1 & W1 & S1)). cbn [negb].
  apply (child_alike p1 r1 l h hc st1 a (fun y => y) x (fun y f => (y, f)) (fun y => (y, x))); try assumption. eapply within_here; eassumption.
Qed.
Context (Hnew : OkS (m_new S)) (Hdst : DstS (m_new S)).
Lemma opt_alike : reads_alike (opt_field name M S) (d_opt name G S GS) (fun x => match fst x with Some a => OkS a | None => True end /\ Ok (snd x)) (fun x => Dst (snd x))
  (fun n t c => CS n t c \/ C n t c).
Proof.
  intros p r l h st [a x] Hs Hst (H1 & H2) D2. cbn [fst snd] in *. cbn [opt_field m_read d_opt dm_read]. unfold d_of_read, of_read. cbn [fst snd].
  rewrite begin_same by apply Hname.
  eapply same_bind; [eapply (r_begin_any e D fl P0); [exact Hname|exact Hs|exact Hst]|].
  intros [[c ok] st1] Hc. destruct ok; cbn [negb]; [|apply alike_refl]. destruct c as [hc|].
  - destruct Hc as (_ & (p1 & r1 & W1 & S1)).
    apply (child_alike p1 r1 l h hc st1 (m_new S) Some x (fun y f => (y, f)) (fun y => (y, x))); try assumption. eapply within_here; eassumption.
  - destruct Hc as (_ & (p1 & r1 & W1 & S1)). cbn [bind negb].
    eapply alike_bind with (P := fun _ => True) (T := True) (U := True).
    + eapply alike_sub; [|eapply HG; [eapply within_here; eassumption|exact S1|exact H2|exact D2]]. auto.
    + destruct (m_read _ _ _ _ _); exact Logic.I.
    + fails.
    + intros q _. apply alike_refl.
Qed.
End Fields.

Lemma alike_weak {T} (M : mf T) G (Ok Ok' Dst Dst' : T -> Prop) (C : calls) : reads_alike M G Ok Dst C -> (forall x, Ok' x -> Ok x) -> (forall x, Dst' x -> Dst x) -> reads_alike M G Ok' Dst' C.
Proof. intros H A B p r l h st x H1 H2 H3 H4. eapply H; eauto. Qed.
Lemma alike_both (I : forall t, umap_impl (key t)) :
  (forall s, s_named s -> reads_alike (smf I s) (d_smf I s) (s_ok s) (s_dest s) (s_asks s)) /\
  (forall fs, f_named fs -> reads_alike (fmf I fs) (d_fmf I fs) (f_ok fs) (f_dest fs) (f_asks fs)).
Proof.
  pose proof (any_both e D fl P0 He I) as (AS & AF).
  apply schema_fields_ind.
  - intros k f _. eapply alike_weak; [exact (graph_alike k f)|intros; exact Logic.I..].
  - intros k f s IH H. eapply alike_weak; [exact (table_alike k (I (kt k)) (smf I s) (d_smf I s) _ _ _ _ (AS s H) (IH H) (s_new_ok I s) (s_new_dest I s) f)|intros; exact Logic.I..].
  - intros t _. eapply alike_weak; [exact (idx_alike t)|intros x H; exact H|intros; exact Logic.I].
  - intros _. exact varying_alike.
  - intros fs IH H. exact (IH H).
  - intros _ p r l h st x _ Hst _ _. apply alike_refl.
  - intros n t c r IH (H1 & H2). exact (base_alike n H1 (fmf I r) (d_fmf I r) (f_ok r) (f_dest r) _ (IH H2) t c).
  - intros n s IHs r IHr (H1 & H2 & H3). exact (class_alike n H1 (fmf I r) (d_fmf I r) _ _ _ (IHr H3) (smf I s) (d_smf I s) _ _ _ _ (AS s H2) (IHs H2)).
  - intros n s IHs r IHr (H1 & H2 & H3). exact (opt_alike n H1 (fmf I r) (d_fmf I r) _ _ _ (IHr H3) (smf I s) (d_smf I s) _ _ _ _ (AS s H2) (IHs H2) (s_new_ok I s) (s_new_dest I s)).
Qed.
End Data.

Lemma t_debug_read (I : forall t, umap_impl (key t)) s e D pos fl x :
  s_named s -> len D < 2^62 -> e_lim e < 2^60 -> pos <= len D -> s_ok s x -> s_dest s x ->
  let release := m_read (smf I s) e 0 x (r_open (RS D pos fl)) in
  let debug := dm_read (d_smf I s) e 0 x (r_open (RS D pos fl)) in
  debug = release \/ (debug = Throw /\ (forall y st, release <> Done (true, y, st)) /\ cut_array D fl pos (s_asks s)).
Proof.
  intros Hn Hl He Hp Hx Hd.
  assert (E : RS D pos fl = rs_at (take pos D) (drop pos D) fl).
  { unfold rs_at. rewrite take_drop, len_take. rewrite N.min_l by exact Hp. reflexivity. }
  apply (proj1 (alike_both e D fl pos He I) s Hn (take pos D) (drop pos D) [] 0 (r_open (RS D pos fl)) x); try assumption.
  - split; [unfold small_rs, lim62; rewrite len_take, len_drop; lia|]. split; [apply take_drop|]. rewrite len_take. lia.
  - split; [exact E|]. split; [exists []; reflexivity|]. cbn. split; constructor; try constructor; auto; lia.
Qed.

Lemma named_short : (forall s, s_named s -> s_short s) /\ (forall fs, f_named fs -> f_short fs).
Proof.
  apply schema_fields_ind; cbn [s_named f_named s_short f_short]; auto.
  - intros n t c r IH ((_ & H1) & H2). auto.
  - intros n s IHs r IHr ((_ & H1) & H2 & H3). auto.
  - intros n s IHs r IHr ((_ & H1) & H2 & H3). auto.
Qed.
Lemma t_debug_exchange : forall U s x init lim fl, s_sound s -> s_named s -> s_ok s x -> s_fits s x ->
  room init lim (len (nodes_bytes fl (s_doc s x))) ->
  exists s0 st, fresh init lim fl = Done s0 /\
    m_write (smf U s) 0 x (w_open s0) = Done (true, st) /\ dm_write (d_smf U s) 0 x (w_open s0) = Done (true, st) /\
    forall e old post, s_ok s old -> s_dest s old -> read_room e (ws_pos (w_stream st)) (ws_pos (w_stream st) + len post) ->
      e_lim e < 2^60 -> len (ws_data (w_stream st) ++ post) < 2^62 ->
      let r := r_open (RS (ws_data (w_stream st) ++ post) 0 fl) in
      exists y st', m_read (smf U s) e 0 old r = Done (true, y, st') /\ dm_read (d_smf U s) e 0 old r = Done (true, y, st') /\ s_ident s y x.
Proof.
  intros U s x init lim fl Hs Hn Hx Hf Hr. destruct (t_s_roundtrip U s x init lim fl Hs Hx Hf Hr) as (s0 & st & E0 & E1 & _ & H).
  exists s0, st. split; [exact E0|]. split; [exact E1|]. split; [rewrite (proj1 (same_both U) s (proj1 named_short s Hn)); exact E1|].
  intros e old post Ho Hd Hrr He Hl. cbv zeta. destruct (H e old post Ho Hd Hrr) as (y & st' & E & (_ & Y) & _). exists y, st'. split; [exact E|]. split; [|exact Y].
  destruct (t_debug_read U s e _ 0 fl old Hn Hl He ltac:(lia) Ho Hd) as [X|(_ & X & _)]; [rewrite X; exact E|destruct (X y st' E)].
Qed.

(** ** Validation *)
Definition validates_same {T} (M : mf T) (D : dmf T) (Ok : T -> Prop) : Prop :=
  forall n x, Ok x -> dm_validate D n x = option_map Done (m_validate M n x).
Lemma log_same a b a' b' : a' = option_map Done a -> b' = option_map Done b -> d_log_app a' b' = option_map Done (log_app a b).
Proof. intros -> ->. destruct a, b; reflexivity. Qed.
Lemma table_validates (k : ktype) U {T} (M : mf T) (D : dmf T) (Ok : T -> Prop) f : validates_same M D Ok ->
  validates_same (table_mf (kops k) U (kzero k) M f) (d_table (kops k) U (kzero k) M D f) (fun m => forall i x, In (i, Some x) (t_list m) -> Ok x).
Proof.
  intros H n m Hm. cbn [table_mf m_validate d_table dm_validate]. unfold d_t_validate, t_validate.
  assert (E : forall l : list (kkey k * option T), (forall i x, In (i, Some x) l -> Ok x) -> d_t_validate_entries D n f l = option_map Done (t_validate_entries M n f l)).
  { induction l as [|[i o] l IH]; intros Hl; [reflexivity|]. cbn [d_t_validate_entries t_validate_entries].
    rewrite IH by (intros j x Hj; apply (Hl j x); right; exact Hj).
    destruct o as [x|].
    - rewrite (H n x (Hl i x (or_introl eq_refl))). destruct (m_validate M n x); cbn [option_map]; [|reflexivity].
      destruct (t_validate_entries M n f l); reflexivity.
    - destruct (t_validate_entries M n f l); reflexivity. }
  rewrite E by exact Hm. destruct (t_validate_entries M n f (t_list m)); reflexivity.
Qed.
Lemma validates_both (I : forall t, umap_impl (key t)) :
  (forall s, s_nodes s -> validates_same (smf I s) (d_smf I s) (s_ok s)) /\
  (forall fs, f_nodes fs -> validates_same (fmf I fs) (d_fmf I fs) (f_ok fs)).
Proof.
  apply schema_fields_ind.
  - intros k f H n g G. exact (d_g_validate_eq _ (klaws k) (t_key_bounds (kt k) (kt_inf k) (kt_sup k) H) n f g G).
  - intros k f s IH H n m (_ & Hm). exact (table_validates k (I (kt k)) (smf I s) (d_smf I s) (s_ok s) f (IH H) n m Hm).
  - intros t _ n x _. reflexivity.
  - intros _ n x _. reflexivity.
  - intros fs IH H. exact (IH H).
  - intros _ n x _. reflexivity.
  - intros m t c r IH H n x (_ & _ & Hx). exact (IH H n (snd x) Hx).
  - intros m s IHs r IHr (H1 & H2) n x (X1 & X2). apply log_same; [exact (IHs H1 n _ X1)|exact (IHr H2 n _ X2)].
  - intros m s IHs r IHr (H1 & H2) n [o x] (X1 & X2). apply log_same; [|exact (IHr H2 n _ X2)]. cbn [fst] in *.
    destruct o as [a|]; [exact (IHs H1 n a X1)|reflexivity].
Qed.
