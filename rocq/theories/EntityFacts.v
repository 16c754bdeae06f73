(** * Generated entities: equality, copy, clear, validation. Proofs. *)
From Verif Require Import Base Bytes Values Types Items ItemSpec Documents DocSpec Keys KeySpec KeyFacts Containers EqualityFacts
  ValueEq ValueEqSpec ValueEqFacts Graph GraphSpec GraphProps Classes Table TableSpec TableFacts IndexedVector IndexedVectorSpec
  IndexedVectorFacts DynTypes Varying VaryingSpec VaryingCodec EntityGen EntitySpec.
From Verif Require GraphSets VaryingFacts.
Local Open Scope N_scope.

Scheme schema_ind2 := Induction for schema Sort Prop
  with fields_ind2 := Induction for fields Sort Prop.
Combined Scheme schema_fields_ind from schema_ind2, fields_ind2.

Lemma klaws k : key_laws (kops k).
Proof. apply t_key_laws. apply (kt_key k). Qed.

(** ** operator!= *)
Lemma val_ne_spec t a b : val_ne t a b = negb (val_eq t a b).
Proof. destruct t; cbn [val_ne]; try reflexivity; cbn [val_eq key_eq]; apply words_ne_spec. Qed.
Lemma cval_ne_spec t a b : cval_ne t a b = negb (cval_eq t a b).
Proof.
  destruct a as [x|[x|]|x|x|x i|x], b as [y|[y|]|y|y|y j|y]; cbn [cval_ne cval_eq negb]; try reflexivity; try apply val_ne_spec.
  - apply ovx_ne_spec.
  - apply ivx_ne_spec.
  - apply oix_ne_spec.
Qed.

(** ** Tables *)
Section TB.
Context {K T : Type} (Ko : keyops K) (KL : key_laws Ko).
Lemma same_map_imp (R R' : T -> T -> Prop) (l r : table K T) : is_table l -> is_table r ->
  (forall k a b, In (k, Some a) (t_list l) -> In (k, Some b) (t_list r) -> R a b -> R' a b) -> same_map Ko R l r -> same_map Ko R' l r.
Proof.
  intros Hl Hr H S k. specialize (S k). pose proof (@find_in K T Ko KL k) as F.
  destruct (t_find Ko k l) as [[a|]|] eqn:El; destruct (t_find Ko k r) as [[b|]|] eqn:Er; auto.
  apply (H k); [apply F|apply F|]; auto.
Qed.
Lemma same_map_sym (R R' : T -> T -> Prop) (l r : table K T) : (forall a b, R a b -> R' b a) -> same_map Ko R l r -> same_map Ko R' r l.
Proof. intros H S k. specialize (S k). destruct (t_find Ko k l) as [[a|]|]; destruct (t_find Ko k r) as [[b|]|]; auto. Qed.
Lemma same_map_trans (R : T -> T -> Prop) (l m r : table K T) : (forall a b c, R a b -> R b c -> R a c) ->
  same_map Ko R l m -> same_map Ko R m r -> same_map Ko R l r.
Proof.
  intros H S1 S2 k. specialize (S1 k). specialize (S2 k).
  destruct (t_find Ko k l) as [[a|]|]; destruct (t_find Ko k m) as [[b|]|]; destruct (t_find Ko k r) as [[c|]|]; try contradiction; eauto.
Qed.
Lemma same_map_refl (R : T -> T -> Prop) (m : table K T) : is_table m ->
  (same_map Ko R m m <-> forall k x, In (k, Some x) (t_list m) -> R x x).
Proof.
  intros Hm. split.
  - intros S k x Hx. apply (find_in Ko KL k _ m Hm) in Hx. specialize (S k). rewrite Hx in S. exact S.
  - intros H k. destruct (t_find Ko k m) as [[a|]|] eqn:E; auto. apply (find_in Ko KL k _ m Hm) in E. eauto.
Qed.
Lemma same_map_left (R : T -> T -> Prop) (P : T -> Prop) (l r : table K T) : is_table l ->
  same_map Ko R l r -> (forall a b, R a b -> P a) -> forall k x, In (k, Some x) (t_list l) -> P x.
Proof.
  intros Hl S H k x Hx. apply (find_in Ko KL k _ l Hl) in Hx. specialize (S k). rewrite Hx in S.
  destruct (t_find Ko k r) as [[b|]|]; try contradiction. eauto.
Qed.
Lemma no_key_iff z (m : table K T) : is_table m -> (t_find Ko z m = None <-> ~ exists v, In (z, v) (t_list m)).
Proof.
  intros Hm. pose proof (@find_in K T Ko KL) as F. destruct (t_find Ko z m) as [v|] eqn:Ev.
  - split; [discriminate|]. intros N. destruct N. exists v. apply F; auto.
  - split; auto. intros _ (v & Hv). apply F in Hv; auto. congruence.
Qed.
Lemma no_null_iff (m : table K T) : is_table m -> ((forall i, t_find Ko i m <> Some None) <-> ~ exists i, In (i, None) (t_list m)).
Proof.
  intros Hm. pose proof (@find_in K T Ko KL) as F. split; [intros H (i & Hi); apply F in Hi; auto; destruct (H i Hi)|].
  intros H i Hi. apply H. exists i. apply F; auto.
Qed.
Lemma entries_iff (P Q : T -> Prop) (m : table K T) : is_table m -> (forall i a, In (i, Some a) (t_list m) -> (P a <-> Q a)) ->
  ((forall i a, t_find Ko i m = Some (Some a) -> P a) <-> forall i a, In (i, Some a) (t_list m) -> Q a).
Proof.
  intros Hm X. pose proof (@find_in K T Ko KL) as F. split; intros H i a Ha.
  - apply (X i a Ha). apply (H i). apply F; auto.
  - apply F in Ha; auto. apply (X i a Ha). eauto.
Qed.
End TB.

(** ** Varyings *)
Lemma v_of_holds x k c : v_of x = v_of (Holds k c) -> x = Holds k c.
Proof. destruct x as [dt ct|k' c']; cbn; [discriminate|]. intros H. injection H as _ _ -> ->. reflexivity. Qed.
Lemma v_of_same x y : v_of x = v_of y -> x = y.
Proof. destruct x as [dt ct|k c], y as [dt' ct'|k' c']; cbn; intros H; inversion H; subst; reflexivity. Qed.
Lemma emptied_wt x : well_typed (VaryingFacts.emptied x).
Proof. destruct (emptied_none x) as (dt & ct & ->). exact Logic.I. Qed.

Section I.
Context (I : forall t, umap_impl (key t)).
Notation smf := (smf I).
Notation fmf := (fmf I).

(** ** Default objects *)
Lemma new_ok_both : (forall s, s_ok s (m_new (smf s)) /\ s_dest s (m_new (smf s))) /\ (forall fs, f_ok fs (m_new (fmf fs)) /\ f_dest fs (m_new (fmf fs))).
Proof.
  apply schema_fields_ind.
  - intros k f. split; [split; constructor|exact Logic.I].
  - intros k f s _. split; [|exact Logic.I]. split; [constructor|]. intros i x [].
  - intros t. split; [split; [split; [constructor|reflexivity]|constructor]|]. destruct t; exact Logic.I || reflexivity.
  - split; [|exact Logic.I]. exists (Empty 0 0). split; [reflexivity|exact Logic.I].
  - intros fs H. exact H.
  - split; exact Logic.I.
  - intros n t c r [H1 H2]. pose proof (VaryingFacts.default_typed (t, c)) as [D1 D2]. pose proof (default_replaced (t, c)). cbn [fst snd] in *.
    split; [split; [exact D1|split; [exact D2|exact H1]]|]. split; assumption.
  - intros n s [S1 S2] r [H1 H2]. split; split; assumption.
  - intros n s [S1 S2] r [H1 H2]. split; [split; [exact Logic.I|assumption]|]. assumption.
Qed.
Lemma s_new_ok s : s_ok s (m_new (smf s)).
Proof. apply new_ok_both. Qed.
Lemma s_new_dest s : s_dest s (m_new (smf s)).
Proof. apply new_ok_both. Qed.

(** ** Equals *)
Lemma equals_both :
  (forall s x y, s_ok s x -> s_ok s y -> (m_eq (smf s) x y = true <-> s_equal s x y)) /\
  (forall fs x y, f_ok fs x -> f_ok fs y -> (m_eq (fmf fs) x y = true <-> f_rel cval_same same_content fs x y)).
Proof.
  apply schema_fields_ind.
  - intros k f x y Hx Hy. apply (GraphSets.t_equals (kops k) (klaws k) x y Hx Hy).
  - intros k f s IH x y [Hx Ex] [Hy Ey]. change (smf (STable k f s)) with (table_mf (kops k) (I (kt k)) (kzero k) (smf s) f); cbn [table_mf m_eq]. rewrite (t_equals_iff (kops k) (klaws k)) by assumption.
    split; apply (same_map_imp _ (klaws k)); auto; intros i a b Ha Hb; apply IH; eauto.
  - intros t [xv xi] [yv yi] Hx Hy. cbn [EntityGen.smf iv_mf m_eq iv_equals].
    exact (cval_eq_iff t (CIdx xv xi) (CIdx yv yi) Hx Hy).
  - intros v w (x & -> & Hx) (y & -> & Hy). cbn [EntityGen.smf varying_mf m_eq]. rewrite v_eqb_of by assumption. split.
    + intros H. exists x, y. auto.
    + intros (x' & y' & E1 & E2 & _ & _ & H). apply v_of_same in E1. apply v_of_same in E2. subst. exact H.
  - intros fs H. exact H.
  - intros [] [] _ _. split; auto. exact (fun _ => Logic.I).
  - intros n t c r IH [a x] [b y] (Ha & Ca & Hx) (Hb & Cb & Hy). change (fmf (FBase n t c r)) with (base_field n (fmf r) t c); cbn [base_field m_eq f_rel] in *. unfold bf_eq. cbn [fst snd] in *.
    rewrite cval_ne_spec, <- (cval_eq_iff t a b) by assumption. specialize (IH x y Hx Hy).
    destruct (cval_eq t a b); cbn [negb]; [rewrite IH; tauto|split; [discriminate|intros [? _]; discriminate]].
  - intros n s IHs r IH [a x] [b y] (Ha & Hx) (Hb & Hy). change (fmf (FClass n s r)) with (class_field n (fmf r) (smf s)); cbn [class_field m_eq f_rel] in *. unfold cf_eq, m_equals. cbn [fst snd] in *.
    specialize (IHs a b Ha Hb). specialize (IH x y Hx Hy). change (s_rel cval_same same_content s a b) with (s_equal s a b). rewrite <- IHs.
    destruct (m_eq (smf s) a b); cbn [negb]; [rewrite IH; tauto|split; [discriminate|intros [? _]; discriminate]].
  - intros n s IHs r IH [a x] [b y] (Ha & Hx) (Hb & Hy). change (fmf (FOpt n s r)) with (opt_field n (fmf r) (smf s)); cbn [opt_field m_eq f_rel] in *. unfold of_eq, m_equals. cbn [fst snd] in *.
    specialize (IH x y Hx Hy).
    destruct a as [a|], b as [b|]; cbn [negb]; try (split; [discriminate|intros [[] _]]); [|rewrite IH; tauto].
    specialize (IHs a b Ha Hb). change (s_rel cval_same same_content s a b) with (s_equal s a b). rewrite <- IHs.
    destruct (m_eq (smf s) a b); cbn [negb]; [rewrite IH; tauto|split; [discriminate|intros [? _]; discriminate]].
Qed.
End I.

(** ** The relations *)
Section Rel.
Context (B : dtype -> cval -> cval -> Prop) (V : content -> content -> Prop).
Lemma rel_sym_both : (forall t a b, B t a b -> B t b a) -> (forall x y, V x y -> V y x) ->
  (forall s x y, s_rel B V s x y -> s_rel B V s y x) /\ (forall fs x y, f_rel B V fs x y -> f_rel B V fs y x).
Proof.
  intros HB HV. apply schema_fields_ind.
  - intros k f x y [H1 H2]. split; intros; symmetry; auto.
  - intros k f s IH x y. apply same_map_sym. exact IH.
  - intros t x y. apply HB.
  - intros a b (x & y & H1 & H2 & H3 & H4 & H5). exists y, x. auto 10.
  - intros fs H. exact H.
  - auto.
  - intros n t c r IH [a x] [b y] [H1 H2]. split; auto.
  - intros n s IHs r IH [a x] [b y] [H1 H2]. split; auto.
  - intros n s IHs r IH [[a|] x] [[b|] y] [H1 H2]; split; auto; cbn in H1; try contradiction; apply IHs; exact H1.
Qed.
Lemma rel_trans_both : (forall t a b c, B t a b -> B t b c -> B t a c) -> (forall x y z, V x y -> V y z -> V x z) ->
  (forall s x y z, s_rel B V s x y -> s_rel B V s y z -> s_rel B V s x z) /\
  (forall fs x y z, f_rel B V fs x y -> f_rel B V fs y z -> f_rel B V fs x z).
Proof.
  intros HB HV. apply schema_fields_ind.
  - intros k f x y z [H1 H2] [H3 H4]. split; intros; [rewrite H1|rewrite H2]; auto.
  - intros k f s IH x y z. apply same_map_trans. exact IH.
  - intros t x y z. apply HB.
  - intros a b c (x & y & -> & -> & H1 & H2 & H3) (y' & z & E & -> & H4 & H5 & H6). apply v_of_same in E. subst y'.
    exists x, z. repeat split; auto. eapply HV; eauto.
  - intros fs H. exact H.
  - auto.
  - intros n t c r IH [a x] [b y] [d z] [H1 H2] [H3 H4]. split; eauto.
  - intros n s IHs r IH [a x] [b y] [d z] [H1 H2] [H3 H4]. split; eauto.
  - intros n s IHs r IH [[a|] x] [[b|] y] [[d|] z] [H1 H2] [H3 H4]; cbn [fst] in *; try contradiction; (split; [try exact Logic.I; cbn [fst]; eauto|eauto]).
Qed.
End Rel.

Lemma same_content_sym x y : same_content x y -> same_content y x.
Proof. destruct x, y; cbn; try tauto. intros [<- H]. split; auto. apply cval_same_sym. exact H. Qed.
Lemma same_content_trans x y z : same_content x y -> same_content y z -> same_content x z.
Proof. destruct x, y, z; cbn; try tauto. intros [<- H] [<- H']. split; auto. eapply cval_same_trans; eauto. Qed.
Lemma same_holding_sym x y : same_holding x y -> same_holding y x.
Proof. destruct x, y; cbn; try tauto. intros [<- <-]. auto. Qed.
Lemma same_holding_trans x y z : same_holding x y -> same_holding y z -> same_holding x z.
Proof. destruct x, y, z; cbn; try tauto. intros [<- <-] [<- <-]. auto. Qed.

Lemma equal_refl_both :
  (forall s x, s_ok s x -> (s_equal s x x <-> s_clean s x)) /\ (forall fs x, f_ok fs x -> (f_rel cval_same same_content fs x x <-> f_clean fs x)).
Proof.
  apply schema_fields_ind.
  - intros k f x _. split; [exact (fun _ => Logic.I)|]. intros _. split; tauto.
  - intros k f s IH x [Hx Ex]. change (s_equal (STable k f s) x x) with (same_map (kops k) (s_equal s) x x).
    rewrite (same_map_refl _ (klaws k)) by assumption.
    cbn [s_clean]. split; intros H i a Ha; apply IH; eauto.
  - intros t [xv xi] _. exact (cval_same_refl t (CIdx xv xi)).
  - intros v (x & -> & Hx). cbn [s_clean]. split.
    + intros (x1 & x2 & E1 & E2 & _ & _ & H). apply v_of_same in E1. apply v_of_same in E2. subst x1 x2.
      destruct x as [|k c]; [destruct H|]. exists k, c. split; auto. apply cval_same_refl. apply H.
    + intros (k & c & E & H). apply v_of_same in E. subst x. exists (Holds k c), (Holds k c). repeat split; try apply Hx. apply cval_same_refl. exact H.
  - intros fs H. exact H.
  - intros; cbn; tauto.
  - intros n t c r IH [a x] (Ha & _ & Hx). cbn [f_rel f_clean fst snd] in *. rewrite (IH x Hx), cval_same_refl. tauto.
  - intros n s IHs r IH [a x] (Ha & Hx). cbn [f_rel f_clean fst snd] in *. rewrite (IH x Hx). specialize (IHs a Ha). unfold s_equal in IHs. tauto.
  - intros n s IHs r IH [[a|] x] (Ha & Hx); cbn [f_rel f_clean fst snd] in *; rewrite (IH x Hx); [|tauto]. specialize (IHs a Ha). unfold s_equal in IHs. tauto.
Qed.
Lemma ident_refl_both : (forall s x, s_ok s x -> s_ident s x x) /\ (forall fs x, f_ok fs x -> f_rel (fun _ => eq) same_holding fs x x).
Proof.
  apply schema_fields_ind.
  - intros k f x _. split; tauto.
  - intros k f s IH x [Hx Ex]. apply (same_map_refl _ (klaws k)); [exact Hx|]. intros i a Ha. apply IH. eauto.
  - intros t x _. reflexivity.
  - intros v (x & -> & Hx). exists x, x. repeat split; auto. destruct x; cbn; auto.
  - intros fs H. exact H.
  - intros; exact Logic.I.
  - intros n t c r IH [a x] (_ & _ & Hx). split; auto.
  - intros n s IHs r IH [a x] (Ha & Hx). split; auto. apply IHs; auto.
  - intros n s IHs r IH [[a|] x] (Ha & Hx); split; auto. apply IHs; auto.
Qed.
(** Identical objects are equal, unless NaN or empty Varyings make them unequal to themselves. *)
Lemma ident_equal_both :
  (forall s x y, s_ok s x -> s_ok s y -> s_ident s y x -> s_clean s x -> s_equal s y x) /\
  (forall fs x y, f_ok fs x -> f_ok fs y -> f_rel (fun _ => eq) same_holding fs y x -> f_clean fs x -> f_rel cval_same same_content fs y x).
Proof.
  apply schema_fields_ind.
  - intros k f x y _ _ H _. exact H.
  - intros k f s IH x y [Hx Ex] [Hy Ey] H C. revert H. apply (same_map_imp _ (klaws k)); auto. intros i a b Ha Hb H. apply IH; eauto.
  - intros t [xv xi] [yv yi] _ _ H C. unfold s_ident in H. cbn [s_rel iv_values iv_index] in H. injection H as -> ->.
    apply (cval_same_refl t (CIdx xv xi)). exact C.
  - intros v w _ _ (y & x & -> & -> & Hy & Hx & H) (k & c & E & C). apply v_of_same in E. subst x. destruct y as [|k' c']; [destruct H|].
    destruct H as [-> ->]. exists (Holds k c), (Holds k c). repeat split; try apply Hx. apply cval_same_refl. exact C.
  - intros fs H. exact H.
  - intros; exact Logic.I.
  - intros n t c r IH [a x] [b y] (_ & _ & Hx) (_ & _ & Hy) [H1 H2] [C1 C2]. cbn [fst snd f_rel] in *. subst b. split; [apply cval_same_refl; exact C1|auto].
  - intros n s IHs r IH [a x] [b y] (Ha & Hx) (Hb & Hy) [H1 H2] [C1 C2]. cbn [fst snd] in *. split; [apply IHs; auto|apply IH; auto].
  - intros n s IHs r IH [[a|] x] [[b|] y] (Ha & Hx) (Hb & Hy) [H1 H2] [C1 C2]; cbn [fst snd] in *; try contradiction; split; auto. apply IHs; auto.
Qed.

Section I2.
Context (I : forall t, umap_impl (key t)).
Notation smf := (smf I).
Notation fmf := (fmf I).

(** ** Clear and copy *)
Lemma clear_both :
  (forall s x, s_clearable s -> s_ok s x -> exists y, m_clear (smf s) x = Done y /\ s_ok s y /\ s_ident s y (m_new (smf s))) /\
  (forall fs x, f_clearable fs -> f_ok fs x -> exists y, m_clear (fmf fs) x = Done y /\ f_ok fs y /\ f_rel (fun _ => eq) same_holding fs y (m_new (fmf fs))).
Proof.
  apply schema_fields_ind.
  - intros k f x _ _. eexists. split; [reflexivity|]. split; [split; constructor|]. split; tauto.
  - intros k f s _ x _ _. eexists. split; [reflexivity|]. split; [split; [constructor|intros i a []]|]. intros i. exact Logic.I.
  - intros t x _ _. eexists. split; [reflexivity|]. split; [|reflexivity]. split; [split; [constructor|reflexivity]|constructor].
  - intros v [].
  - intros fs H. exact H.
  - intros x _ _. eexists. split; [reflexivity|]. split; exact Logic.I.
  - intros n t c r IH [a x] Hc (_ & _ & Hx). destruct (IH x Hc Hx) as (y & E & Ho & Hi).
    exists (cval_default t c, y). change (fmf (FBase n t c r)) with (base_field n (fmf r) t c); cbn [base_field m_clear m_new]. unfold bf_clear. cbn [snd]. rewrite E. split; [reflexivity|].
    pose proof (VaryingFacts.default_typed (t, c)) as [D1 D2]. cbn [fst snd] in *. split; [split; [exact D1|split; [exact D2|exact Ho]]|]. split; auto.
  - intros n s IHs r IH [a x] [Hs Hc] (Ha & Hx). destruct (IHs a Hs Ha) as (b & Eb & Hb & Ib). destruct (IH x Hc Hx) as (y & E & Ho & Hi).
    exists (b, y). change (fmf (FClass n s r)) with (class_field n (fmf r) (smf s)); cbn [class_field m_clear m_new]. unfold cf_clear. cbn [fst snd]. rewrite Eb. cbn [bind]. rewrite E.
    split; [reflexivity|]. split; split; auto.
  - intros n s _ r _ x [].
Qed.

Lemma copy_both :
  (forall s d x, s_ok s d -> s_ok s x -> exists y, m_copy (smf s) d (Some x) = Done y /\ s_ok s y /\ s_ident s y x) /\
  (forall fs d x, f_ok fs d -> f_ok fs x -> exists y, m_copy (fmf fs) d (Some x) = Done y /\ f_ok fs y /\ f_rel (fun _ => eq) same_holding fs y x).
Proof.
  apply schema_fields_ind.
  - intros k f d x _ Hx. exists x. cbn [EntityGen.smf graph_mf m_copy]. rewrite (GraphSets.copy_eq (kops k) (klaws k)) by exact Hx.
    split; [reflexivity|]. split; [exact Hx|]. split; tauto.
  - intros k f s IH d x _ [Hx Ex].
    destruct (t_copy (kops k) (klaws k) (I (kt k)) (smf s) (fun y a => s_ok s y /\ s_ident s y a) d x Hx) as (m & E & Hm & Sm).
    + intros i a Ha. destruct (IH (m_new (smf s)) a (s_new_ok I s) (Ex i a Ha)) as (y & E & Ho & Hi). exists y. auto.
    + exists m. split; [exact E|]. split; [split; [exact Hm|]|].
      * apply (same_map_left _ (klaws k) _ _ _ _ Hm Sm). tauto.
      * revert Sm. apply (same_map_imp _ (klaws k)); auto. tauto.
  - intros t d [xv xi] _ Hx. eexists. split; [reflexivity|]. split; [exact Hx|reflexivity].
  - intros v w (d & -> & Hd) (x & -> & Hx). cbn [EntityGen.smf varying_mf m_copy]. rewrite v_copy_of.
    eexists. split; [reflexivity|]. assert (W : well_typed (copied d x)) by (destruct x, d; cbn; auto).
    split; [exists (copied d x); auto|]. exists (copied d x), x. repeat split; auto. destruct x, d; cbn; auto.
  - intros fs H. exact H.
  - intros d x _ _. eexists. split; [reflexivity|]. split; exact Logic.I.
  - intros n t c r IH [b d] [a x] (_ & _ & Hd) (Ha & Ca & Hx). destruct (IH d x Hd Hx) as (y & E & Ho & Hi).
    exists (a, y). change (fmf (FBase n t c r)) with (base_field n (fmf r) t c); cbn [base_field m_copy]. unfold bf_copy. cbn [fst snd]. rewrite E. split; [reflexivity|].
    split; [split; [exact Ha|split; [exact Ca|exact Ho]]|]. split; auto.
  - intros n s IHs r IH [b d] [a x] (Hb & Hd) (Ha & Hx). destruct (IHs b a Hb Ha) as (z & Ez & Hz & Iz). destruct (IH d x Hd Hx) as (y & E & Ho & Hi).
    exists (z, y). change (fmf (FClass n s r)) with (class_field n (fmf r) (smf s)); cbn [class_field m_copy]. unfold cf_copy. cbn [fst snd]. rewrite Ez. cbn [bind]. rewrite E.
    split; [reflexivity|]. split; split; auto.
  - intros n s IHs r IH [b d] [a x] (Hb & Hd) (Ha & Hx). destruct (IH d x Hd Hx) as (y & E & Ho & Hi).
    change (fmf (FOpt n s r)) with (opt_field n (fmf r) (smf s)); cbn [opt_field m_copy]. unfold of_copy. cbn [fst snd]. destruct a as [a|].
    + destruct (IHs (m_new (smf s)) a (s_new_ok I s) Ha) as (z & Ez & Hz & Iz).
      exists (Some z, y). rewrite Ez. cbn [bind]. rewrite E. split; [reflexivity|]. split; split; auto.
    + exists (None, y). cbn [bind]. rewrite E. split; [reflexivity|]. split; split; auto; exact Logic.I.
Qed.
Lemma copy_null_both : (forall s d, s_clearable s -> m_copy (smf s) d None = m_clear (smf s) d) /\ (forall fs d, f_clearable fs -> m_copy (fmf fs) d None = m_clear (fmf fs) d).
Proof. apply schema_fields_ind; try reflexivity; try (intros; cbn in *; contradiction). intros fs H. exact H. Qed.
Lemma cleared_both :
  (forall s x, s_has_clear s -> s_ok s x -> exists y, m_clear (smf s) x = Done y /\ s_ok s y /\ s_cleared s x y) /\
  (forall fs x, f_has_clear fs -> f_ok fs x -> exists y, m_clear (fmf fs) x = Done y /\ f_ok fs y /\ f_cleared fs x y).
Proof.
  apply schema_fields_ind.
  - intros k f x _ _. eexists. split; [reflexivity|]. split; [split; constructor|]. split; [reflexivity|]. intros a b H. exact H.
  - intros k f s _ x _ _. eexists. split; [reflexivity|]. split; [split; [constructor|intros i a []]|]. reflexivity.
  - intros t x _ _. eexists. split; [reflexivity|]. split; [|split; reflexivity]. split; [split; [constructor|reflexivity]|constructor].
  - intros v _ (a & -> & Ha). eexists. split; [exact (v_clear_of a Ha)|]. split; [|exists a; split; reflexivity].
    eexists. split; [reflexivity|]. destruct a as [dt ct|k c]; [exact Ha|]. apply VaryingFacts.default_typed.
  - intros fs H. exact H.
  - intros x _ _. eexists. split; [reflexivity|]. split; exact Logic.I.
  - intros n t c r IH [a x] Hc (_ & _ & Hx). destruct (IH x Hc Hx) as (y & E & Ho & Hi).
    exists (cval_default t c, y). change (fmf (FBase n t c r)) with (base_field n (fmf r) t c); cbn [base_field m_clear m_new]. unfold bf_clear. cbn [snd]. rewrite E. split; [reflexivity|].
    pose proof (VaryingFacts.default_typed (t, c)) as [D1 D2]. cbn [fst snd] in *. split; [split; [exact D1|split; [exact D2|exact Ho]]|]. split; auto.
  - intros n s IHs r IH [a x] [Hs Hc] (Ha & Hx). destruct (IHs a Hs Ha) as (b & Eb & Hb & Ib). destruct (IH x Hc Hx) as (y & E & Ho & Hi).
    exists (b, y). change (fmf (FClass n s r)) with (class_field n (fmf r) (smf s)); cbn [class_field m_clear m_new]. unfold cf_clear. cbn [fst snd]. rewrite Eb. cbn [bind]. rewrite E.
    split; [reflexivity|]. split; split; auto.
  - intros n s _ r _ x [].
Qed.
Lemma copy_null_any : (forall s d, s_has_clear s -> s <> SVarying -> m_copy (smf s) d None = m_clear (smf s) d) /\ (forall fs d, f_has_clear fs -> m_copy (fmf fs) d None = m_clear (fmf fs) d).
Proof. apply schema_fields_ind; try reflexivity; try (intros; cbn in *; contradiction). intros fs H d Hc _. exact (H d Hc). Qed.

(** ** Validate *)
Lemma valid_both :
  (forall s x, s_bounded s -> s_ok s x -> exists n0, forall n, (n0 <= n)%nat -> exists log, m_validate (smf s) n x = Some log /\ (log = [] <-> s_valid s x)) /\
  (forall fs x, f_bounded fs -> f_ok fs x -> exists n0, forall n, (n0 <= n)%nat -> exists log, m_validate (fmf fs) n x = Some log /\ (log = [] <-> f_valid fs x)).
Proof.
  assert (LA : forall (A B : Prop) va vb, (exists n0, forall n, (n0 <= n)%nat -> exists log, va n = Some log /\ (log = [] <-> A)) ->
     (exists n0, forall n, (n0 <= n)%nat -> exists log, vb n = Some log /\ (log = [] <-> B)) ->
     exists n0, forall n, (n0 <= n)%nat -> exists log, log_app (va n) (vb n) = Some log /\ (log = [] <-> A /\ B)).
  { intros A B va vb (na & Ha) (nb & Hb). exists (Nat.max na nb). intros n Hn.
    destruct (Ha n) as (la & Ea & La); [lia|]. destruct (Hb n) as (lb & Eb & Lb); [lia|]. rewrite Ea, Eb. eexists. split; [reflexivity|].
    rewrite <- La, <- Lb. destruct la, lb; cbn; split; try tauto; try discriminate; intros []; discriminate. }
  apply schema_fields_ind.
  - intros k f x Hb Hx. exists (steps_needed (kops k) x). intros n Hn. apply (GraphProps.t_validate (kops k) (klaws k) (t_key_bounds _ _ _ Hb)); assumption.
  - intros k f s IH x Hbd [Hx Ex].
    assert (X : exists n0, forall n, (n0 <= n)%nat -> forall i a, In (i, Some a) (t_list x) -> exists log, m_validate (smf s) n a = Some log /\ (log = [] <-> s_valid s a)).
    { clear Hx. induction (t_list x) as [|[i [a|]] l IHl].
      - exists 0%nat. intros n _ i a [].
      - destruct IHl as (n1 & H1); [intros j b Hb; apply (Ex j); right; exact Hb|]. destruct (IH a Hbd (Ex i a (or_introl eq_refl))) as (n2 & H2).
        exists (Nat.max n1 n2). intros n Hn j b [Hb|Hb]; [injection Hb as <- <-; apply H2; lia|eapply H1; eauto; lia].
      - destruct IHl as (n1 & H1); [intros j b Hb; apply (Ex j); right; exact Hb|].
        exists n1. intros n Hn j b [Hb|Hb]; [discriminate|eapply H1; eauto]. }
    destruct X as (n0 & X). exists n0. intros n Hn. specialize (X n Hn).
    destruct (t_validate_iff (kops k) (klaws k) (kzero k) (smf s) f n x Hx) as (log & E & L).
    { intros i a Ha. destruct (X i a Ha) as (l & El & _). eauto. }
    exists log. split; [exact E|]. rewrite L.
    rewrite (no_key_iff _ (klaws k)) by exact Hx. rewrite (no_null_iff _ (klaws k)) by exact Hx.
    rewrite (entries_iff _ (klaws k) (fun a => m_validate (smf s) n a = Some []) (s_valid s)); [reflexivity|exact Hx|].
    intros i a Ha. destruct (X i a Ha) as (l & El & Hl). rewrite <- Hl, El. split; [intros Y; injection Y; auto|congruence].
  - intros t x _ [_ Hx]. exists 0%nat. intros n _. eexists. split; [reflexivity|]. apply (t_iv_validate x Hx).
  - intros v _ (x & -> & Hx). exists 0%nat. intros n _. eexists. split; [reflexivity|]. cbn [s_valid]. unfold v_validate. destruct x as [dt ct|k c].
    + cbn. split; [discriminate|]. intros (k & c & E). discriminate.
    + cbn. split; auto. intros _. exists k, c. reflexivity.
  - intros fs H. exact H.
  - intros x _ _. exists 0%nat. intros n _. exists []. cbn. tauto.
  - intros n t c r IH [a x] Hb (_ & _ & Hx). exact (IH x Hb Hx).
  - intros n s IHs r IH [a x] [Hb1 Hb2] (Ha & Hx). exact (LA _ _ _ _ (IHs a Hb1 Ha) (IH x Hb2 Hx)).
  - intros n s IHs r IH [a x] [Hb1 Hb2] (Ha & Hx). change (fmf (FOpt n s r)) with (opt_field n (fmf r) (smf s)); cbn [opt_field m_validate f_valid]. unfold of_validate. cbn [fst snd] in *.
    apply (LA _ _ (fun k => match a with Some b => m_validate (smf s) k b | None => Some [] end)); [|exact (IH x Hb2 Hx)]. destruct a as [a|]; [exact (IHs a Hb1 Ha)|].
    exists 0%nat. intros k _. exists []. split; [reflexivity|tauto].
Qed.
End I2.
