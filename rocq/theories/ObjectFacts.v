(** * Programs with variables of a class. Proofs. *)
From Verif Require Import Base Bytes Values Types Keys KeySpec Containers ValueEqSpec ValueEqFacts StdSet Graph GraphSpec GraphSets Classes Table TableSpec TableFacts
  IndexedVector IndexedVectorSpec DynTypes Varying VaryingSpec VaryingFacts EntityGen EntitySpec EntityFacts VaryingCodec Objects ObjectSpec.
Local Open Scope N_scope.

Lemma same_map_nil {K T} (Ko : keyops K) (KL : key_laws Ko) (R : T -> T -> Prop) (x y : table K T) :
  t_list x = [] -> is_table y -> same_map Ko R y x -> t_list y = [].
Proof.
  intros B Hy H. destruct (t_list y) as [|[i v] l] eqn:E; [reflexivity|]. specialize (H i).
  assert (F : t_find Ko i y = Some v) by (apply (find_in Ko KL); [exact Hy|rewrite E; left; reflexivity]).
  rewrite F in H. unfold t_find in H. rewrite B in H. cbn in H. destruct v; contradiction.
Qed.
Section F.
Context (U : forall t, umap_impl (key t)).

Lemma blank_new_both : (forall s, s_blank s (m_new (smf U s))) /\ (forall fs, f_blank fs (m_new (fmf U fs))).
Proof.
  apply schema_fields_ind.
  - intros k f. split; reflexivity.
  - intros k f s _. reflexivity.
  - intros t. split; reflexivity.
  - exists 0, 0. reflexivity.
  - intros fs H. exact H.
  - exact Logic.I.
  - intros n t c r IH. split; [reflexivity|exact IH].
  - intros n s IS r IH. split; assumption.
  - intros n s IS r IH. split; [reflexivity|exact IH].
Qed.
Lemma no_members {A} (l : list A) : (forall a, In a l <-> In a []) -> l = [].
Proof. destruct l as [|a l]; [reflexivity|]. intros H. destruct (proj1 (H a) (or_introl eq_refl)). Qed.
Lemma ident_blank_both :
  (forall s x y, s_blank s x -> s_ok s y -> s_ident s y x -> s_blank s y) /\
  (forall fs x y, f_blank fs x -> f_ok fs y -> f_rel (fun _ => eq) same_holding fs y x -> f_blank fs y).
Proof.
  apply schema_fields_ind.
  - intros k f x y [B1 B2] _ [H1 H2]. unfold edge in H2. rewrite B1 in H1. rewrite B2 in H2. split; [apply no_members; exact H1|].
    apply no_members. intros [a b]. apply H2.
  - intros k f s _ x y B [T _] H. exact (same_map_nil (kops k) (klaws k) _ x y B T H).
  - intros t x y [B1 B2] _ H. destruct x, y. cbn in *. injection H as -> ->. auto.
  - intros x y (dt & ct & ->) _ (a & b & -> & Eb & _ & _ & H). apply v_of_same in Eb. subst b. destruct a as [dt' ct'|]; [|contradiction].
    exists dt', ct'. reflexivity.
  - intros fs H. exact H.
  - auto.
  - intros n t c r IH x y [B1 B2] (_ & _ & O) [H1 H2]. split; [congruence|eauto].
  - intros n s IS r IH x y [B1 B2] (O1 & O2) [H1 H2]. split; eauto.
  - intros n s IS r IH x y [B1 B2] (O1 & O2) [H1 H2]. rewrite B1 in H1. split; [destruct (fst y); [contradiction|reflexivity]|eauto].
Qed.
Lemma kept_blank_both :
  (forall s x y, s_blank s x -> s_ok s y -> s_kept s x y -> s_blank s y) /\
  (forall fs x y, f_blank fs x -> f_ok fs y -> f_kept fs x y -> f_blank fs y).
Proof.
  apply schema_fields_ind.
  - intros k f x y B O H. apply (proj1 ident_blank_both (SGraph k f) x y B O). destruct H as [H1 H2]. split; intros; [rewrite H1|rewrite H2]; reflexivity.
  - intros k f s _ x y _ _ H. exact H.
  - intros t x y _ _ H. exact H.
  - intros x y _ _ H. exact H.
  - intros fs H. exact H.
  - auto.
  - intros n t c r IH x y [B1 B2] (_ & _ & O) [H1 H2]. split; [congruence|eauto].
  - intros n s IS r IH x y [B1 B2] (O1 & O2) [H1 H2]. split; eauto.
  - intros n s IS r IH x y [B1 B2] (O1 & O2) [H1 H2]. rewrite B1 in H1. split; [destruct (fst y); [contradiction|reflexivity]|eauto].
Qed.

Lemma self_both :
  (forall s x, s_ok s x -> exists y, s_self U s x = Done y /\ s_ok s y /\ s_kept s x y) /\
  (forall fs x, f_ok fs x -> exists y, f_self U fs x = Done y /\ f_ok fs y /\ f_kept fs x y).
Proof.
  apply schema_fields_ind.
  - intros k f x O. exists x. split; [exact (f_equal Done (copy_eq (kops k) (klaws k) x x O))|]. split; [exact O|]. split; intros; reflexivity.
  - intros k f s _ x O. eexists. split; [reflexivity|]. split; [split; [constructor|intros i a []]|reflexivity].
  - intros t x O. eexists. split; [reflexivity|]. split; [split; [split; [constructor|reflexivity]|constructor]|split; reflexivity].
  - intros x (c & -> & W). cbn [s_self]. unfold v_self_copy. rewrite (v_deinit_of c). cbn [bind negb].
    destruct (emptied_none c) as (dt & ct & ->). cbn [v_of v_init v_data negb]. eexists. split; [reflexivity|].
    split; [exists (Empty dt ct); split; [reflexivity|exact Logic.I]|]. exists dt, ct. reflexivity.
  - intros fs H. exact H.
  - intros [] _. exists tt. split; [reflexivity|]. split; exact Logic.I.
  - intros n t c r IH x (O1 & O2 & O3). destruct (IH (snd x) O3) as (y & E & Y1 & Y2). exists (fst x, y). cbn [f_self].
    rewrite E. split; [reflexivity|]. split; [split; [exact O1|split; [exact O2|exact Y1]]|]. split; [reflexivity|exact Y2].
  - intros n s IS r IH x (O1 & O2). destruct (IS (fst x) O1) as (a & Ea & A1 & A2). destruct (IH (snd x) O2) as (y & E & Y1 & Y2).
    exists (a, y). change (f_self U (FClass n s r) x) with (do a <- s_self U s (fst x); do f <- f_self U r (snd x); Done (a, f)). rewrite Ea. cbn [bind]. rewrite E. split; [reflexivity|]. split; split; assumption.
  - intros n s IS r IH x (O1 & O2). destruct (IH (snd x) O2) as (y & E & Y1 & Y2). destruct (IS (m_new (smf U s)) (s_new_ok U s)) as (a & Ea & A1 & A2).
    change (f_self U (FOpt n s r) x) with (do a <- match fst x with Some _ => do z <- s_self U s (m_new (smf U s)); Done (Some z) | None => Done None end;
      do f <- f_self U r (snd x); Done (a, f)). destruct (fst x) as [b|] eqn:Ex.
    + exists (Some a, y). rewrite Ea. cbn [bind]. rewrite E. split; [reflexivity|]. split; [split; assumption|]. split; [|exact Y2]. cbn [fst]. rewrite Ex.
      apply (proj1 kept_blank_both s (m_new (smf U s)) a); [apply blank_new_both|exact A1|exact A2].
    + exists (None, y). cbn [bind]. rewrite E. split; [reflexivity|]. split; [split; [exact Logic.I|assumption]|]. split; [cbn [fst]; rewrite Ex; exact Logic.I|exact Y2].
Qed.

Lemma moved_both L self : valid_leftovers L ->
  (forall s x, s_ok s x -> s_ok s (s_left L self s x) /\ s_moved self s x (s_left L self s x)) /\
  (forall fs x, f_ok fs x -> f_ok fs (f_left L self fs x) /\ f_moved self fs x (f_left L self fs x)).
Proof.
  intros (V1 & V2 & V3 & V4 & V5). apply schema_fields_ind.
  - intros k f x O. split; apply V3; exact O.
  - intros k f s _ x [O1 O2]. assert (G : s_ok (STable k f s) (s_left L self (STable k f s) x)).
    { destruct (V4 k (ty s) x O1) as (A & B). split; [exact A|]. intros i a H. apply (O2 i a). apply B. exact H. }
    split; exact G.
  - intros t x O. split; apply V5; exact O.
  - intros x _. split; [exists (Empty 0 0); split; [reflexivity|exact Logic.I]|exists 0, 0; reflexivity].
  - intros fs H. exact H.
  - intros x _. split; exact Logic.I.
  - intros n t c r IH x (O1 & O2 & O3). destruct (IH (snd x) O3) as (A & B). destruct (V1 t (fst x) O1) as (C & D).
    split; [split; [exact C|split; [cbn [f_left fst]; congruence|exact A]]|]. split; [cbn [f_left fst]; apply V2|exact B].
  - intros n s IS r IH x (O1 & O2). destruct (IS (fst x) O1) as (C & D). destruct (IH (snd x) O2) as (A & B). split; split; assumption.
  - intros n s IS r IH x (O1 & O2). destruct (IH (snd x) O2) as (A & B). split; [split; [|exact A]|split; [reflexivity|exact B]].
    cbn [f_left fst]. destruct self; [exact O1|exact Logic.I].
Qed.

Lemma ident_refl s x : s_ok s x -> s_ident s x x.
Proof. apply (proj1 ident_refl_both). Qed.
Lemma copy_ctor_ok s x : s_ok s x -> exists y, s_copy_ctor U s x = Done y /\ s_ok s y /\ s_ident s y x.
Proof.
  intros O. pose proof (proj1 (copy_both U) s (m_new (smf U s)) x (s_new_ok U s) O) as C.
  destruct s as [k f|k f s|t| |fs]; try exact C; (exists x; split; [reflexivity|]; split; [exact O|apply ident_refl; exact O]).
Qed.
Lemma assign_ok' s d x : s_ok s d -> s_ok s x -> exists y, s_assign U s d x = Done y /\ s_ok s y /\ s_ident s y x.
Proof.
  intros D O. pose proof (proj1 (copy_both U) s d x D O) as C.
  destruct s as [k f|k f s|t| |fs]; try exact C; (exists x; split; [reflexivity|]; split; [exact O|apply ident_refl; exact O]).
Qed.
Lemma assign_self_ok s x : s_ok s x -> exists y, s_assign_self U s x = Done y /\ s_ok s y /\ s_kept_var s x y.
Proof.
  intros O. pose proof (proj1 self_both s x O) as C.
  destruct s as [k f|k f s|t| |fs]; try exact C; (exists x; split; [reflexivity|]; split; [exact O|reflexivity]).
Qed.

Lemma durable_both :
  (forall s x y, s_durable s -> s_kept s x y -> s_ident s y x) /\
  (forall fs x y, f_durable fs -> f_kept fs x y -> f_rel (fun _ => eq) same_holding fs y x).
Proof.
  apply schema_fields_ind; try (cbn; tauto).
  - intros k f x y _ [H1 H2]. split; intros; [rewrite H1|rewrite H2]; reflexivity.
  - intros n t c r IH x y D [H1 H2]. split; [exact H1|apply IH; assumption].
  - intros n s IS r IH x y [D1 D2] [H1 H2]. split; [apply IS|apply IH]; assumption.
Qed.
Lemma durable_var s x y : s_durable s -> s_ok s x -> s_kept_var s x y -> s_ident s y x.
Proof.
  intros D O H. pose proof (proj1 durable_both s x y D) as G. destruct s as [k f|k f s|t| |fs]; try contradiction; [|exact (G H)].
  cbn in H. subst y. apply (ident_refl (SGraph k f)). exact O.
Qed.

(** ** Programs *)
Section P.
Context (s : schema) (L : leftovers) (HL : valid_leftovers L).
Lemma bind_ok E i x : vars_ok s E -> s_ok s x -> vars_ok s (o_bind s i (Some x) E).
Proof. intros H O j y. unfold o_bind. destruct (j =? i); [intros J; injection J as <-; exact O|apply H]. Qed.
Lemma step_ok o E live : vars_ok s E -> (forall i, live i = true <-> E i <> None) -> o_legal s o live ->
  exists b E', o_step U s L o E = Done (b, E') /\ o_spec s o E b E' /\ vars_ok s E' /\
    forall i, live_after s o live i = true <-> E' i <> None.
Proof.
  intros HE HLv Lg.
  assert (Ex : forall i, live i = true -> exists x, E i = Some x /\ s_ok s x).
  { intros i H. apply HLv in H. destruct (E i) as [x|] eqn:Ei; [|congruence]. exists x. split; [reflexivity|]. exact (HE i x Ei). }
  assert (Fr : forall i, live i = false -> E i = None).
  { intros i H. destruct (E i) as [x|] eqn:Ei; [|reflexivity]. assert (live i = true) by (apply HLv; congruence). congruence. }
  assert (B1 : forall i x, live i = true -> forall j, live j = true <-> o_bind s i (Some x) E j <> None).
  { intros i x H j. unfold o_bind. destruct (j =? i) eqn:Q; [|apply HLv]. apply N.eqb_eq in Q. subst j. split; [discriminate|auto]. }
  assert (B2 : forall i x, forall j, (if j =? i then true else live j) = true <-> o_bind s i (Some x) E j <> None).
  { intros i x j. unfold o_bind. destruct (j =? i); [split; [discriminate|auto]|apply HLv]. }
  unfold o_step, o_var, o_free. destruct o as [i|i j|i j|i j|i j|i x|i|i j|i]; cbn [o_legal live_after] in *.
  - rewrite (Fr i Lg). cbn [bind]. eexists _, _. split; [reflexivity|]. split; [split; [reflexivity|]|].
    { exists (m_new (smf U s)). split; [apply blank_new_both|reflexivity]. }
    split; [apply bind_ok; [exact HE|apply s_new_ok]|]. apply B2.
  - destruct Lg as [L1 L2]. rewrite (Fr i L1). destruct (Ex j L2) as (x & Ej & Ox). rewrite Ej. cbn [bind].
    destruct (copy_ctor_ok s x Ox) as (y & Ey & Oy & Iy). rewrite Ey. cbn [bind]. eexists _, _. split; [reflexivity|].
    split; [split; [reflexivity|]; exists x, y; auto|]. split; [apply bind_ok; assumption|]. apply B2.
  - destruct Lg as [L1 L2]. rewrite (Fr i L1). destruct (Ex j L2) as (x & Ej & Ox). rewrite Ej. cbn [bind].
    destruct (proj1 (moved_both L false HL) s x Ox) as (Om & Mm). eexists _, _. split; [reflexivity|].
    split; [split; [reflexivity|]; exists x, (s_left L false s x); auto|]. split; [apply bind_ok; [apply bind_ok; assumption|assumption]|].
    intros y. unfold o_bind at 1. destruct (y =? j) eqn:Q.
    + apply N.eqb_eq in Q. subst y. destruct (j =? i); split; try discriminate; auto.
    + apply B2.
  - destruct Lg as [L1 L2]. destruct (Ex i L1) as (d & Ei & Od). destruct (Ex j L2) as (x & Ej & Ox). rewrite Ei. rewrite Ej. cbn [bind].
    destruct (i =? j) eqn:Q.
    + apply N.eqb_eq in Q. subst j. rewrite Ei in Ej. injection Ej as <-. destruct (assign_self_ok s d Od) as (y & Ey & Oy & Ky). rewrite Ey. cbn [bind].
      eexists _, _. split; [reflexivity|]. split; [split; [reflexivity|]; exists d, y; repeat split; auto; tauto|]. split; [apply bind_ok; assumption|apply B1; assumption].
    + apply N.eqb_neq in Q. destruct (assign_ok' s d x Od Ox) as (y & Ey & Oy & Iy). rewrite Ey. cbn [bind].
      eexists _, _. split; [reflexivity|]. split; [split; [reflexivity|]; exists x, y; repeat split; auto; tauto|]. split; [apply bind_ok; assumption|apply B1; assumption].
  - destruct Lg as [L1 L2]. destruct (Ex i L1) as (d & Ei & Od). destruct (Ex j L2) as (x & Ej & Ox). rewrite Ei. rewrite Ej. cbn [bind].
    destruct (i =? j) eqn:Q.
    + apply N.eqb_eq in Q. subst j. destruct (proj1 (moved_both L true HL) s x Ox) as (Om & Mm).
      eexists _, _. split; [reflexivity|]. split; [split; [reflexivity|]; exists x, (s_left L true s x); repeat split; auto; tauto|]. split; [apply bind_ok; assumption|apply B1; assumption].
    + apply N.eqb_neq in Q. destruct (proj1 (moved_both L false HL) s x Ox) as (Om & Mm).
      eexists _, _. split; [reflexivity|]. split; [split; [reflexivity|]; exists x, (s_left L false s x); split; [assumption|]; split; [auto|tauto]|].
      split; [apply bind_ok; [apply bind_ok; assumption|assumption]|]. intros y. unfold o_bind at 1. destruct (y =? j) eqn:Q2.
      * apply N.eqb_eq in Q2. subst y. split; [discriminate|auto].
      * apply B1. assumption.
  - destruct Lg as [L1 L2]. destruct (Ex i L1) as (d & Ei & Od). rewrite Ei. cbn [bind]. eexists _, _. split; [reflexivity|]. split; [split; reflexivity|].
    split; [apply bind_ok; assumption|apply B1; assumption].
  - destruct Lg as [L1 L2]. destruct (Ex i L1) as (d & Ei & Od). rewrite Ei. cbn [bind]. destruct (proj1 (clear_both U) s d L2 Od) as (y & Ey & Oy & Iy).
    rewrite Ey. cbn [bind]. eexists _, _. split; [reflexivity|]. split; [split; [reflexivity|]; exists y; split; [|reflexivity]|].
    + apply (proj1 ident_blank_both s (m_new (smf U s)) y); [apply blank_new_both|exact Oy|exact Iy].
    + split; [apply bind_ok; assumption|apply B1; assumption].
  - destruct Lg as [L1 L2]. destruct (Ex i L1) as (x & Ei & Ox). destruct (Ex j L2) as (y & Ej & Oy). rewrite Ei, Ej. cbn [bind].
    eexists _, _. split; [reflexivity|]. split; [split; [reflexivity|]; exists x, y; eexists; split; [exact Ei|]; split; [exact Ej|]; split; [reflexivity|]|split; [exact HE|exact HLv]].
    unfold m_equals. destruct (i =? j) eqn:Q.
    + apply N.eqb_eq in Q. tauto.
    + apply N.eqb_neq in Q. rewrite (proj1 (equals_both U) s x y Ox Oy). tauto.
  - destruct (Ex i Lg) as (x & Ei & Ox). rewrite Ei. cbn [bind]. eexists _, _. split; [reflexivity|]. split; [split; reflexivity|]. split.
    + intros j y. unfold o_bind. destruct (j =? i); [discriminate|apply HE].
    + intros j. unfold o_bind. destruct (j =? i); [split; [discriminate|congruence]|apply HLv].
Qed.
Lemma run_ok' l : forall E live, vars_ok s E -> (forall i, live i = true <-> E i <> None) -> legal s l live ->
  exists bs E', o_run U s L l E = Done (bs, E') /\ o_specs s l E bs E' /\ vars_ok s E'.
Proof.
  induction l as [|o l IH]; intros E live HE HLv Lg.
  - exists [], E. split; [reflexivity|]. split; [split; reflexivity|exact HE].
  - destruct Lg as [L1 L2]. destruct (step_ok o E live HE HLv L1) as (b & E1 & S1 & P1 & H1 & D1).
    destruct (IH E1 _ H1 D1 L2) as (bs & E2 & S2 & P2 & H2). cbn [o_run]. rewrite S1. cbn [bind]. rewrite S2. cbn [bind].
    eexists _, E2. split; [reflexivity|]. split; [|exact H2]. exists b, E1, bs. auto.
Qed.
End P.
End F.
