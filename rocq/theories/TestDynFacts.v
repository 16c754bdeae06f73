(** * TestDynFacts: proofs about the generated test of the dynamic types. *)
From Verif Require Import Base Bytes Values Types ValueEq ValueEqSpec ValueEqFacts EntityReaderFacts DynTypes DynTypesFacts VaryingSpec VaryingFacts VaryingCodec TestValues TestDyn TestDynSpec.
Open Scope N_scope.

Lemma zero_same t : val_same t (val_default (dshape t)) (val_default (dshape t)).
Proof.
  apply val_eq_iff; try apply val_default_ok.
  destruct t; try reflexivity; repeat match goal with x : _ |- _ => destruct x end; vm_compute; reflexivity.
Qed.
Lemma default_same t c : cval_same t (cval_default t c) (cval_default t c).
Proof. destruct c; cbn; auto using zero_same. Qed.

Lemma d_new t c : dyn_new (dt_id t) (ct_id c) = Some (Obj (t, c) (cval_default t c)).
Proof. apply t_known. Qed.
Lemma d_ops t c v w : typed (t, c) v -> typed (t, c) w ->
  let x := Some (Obj (t, c) v) in let y := Some (Obj (t, c) w) in
  dyn_delete (dt_id t) (ct_id c) x = Done true /\
  dyn_clear (dt_id t) (ct_id c) x = Done (true, Some (Obj (t, c) (cval_default t c))) /\
  dyn_copy (dt_id t) (ct_id c) x y = Done (true, y) /\
  exists b, dyn_equals (dt_id t) (ct_id c) x y = Done b /\ (b = true <-> cval_same t v w).
Proof.
  intros Hv Hw x y. assert (F : find_class (dt_id t) (ct_id c) = Some (t, c)) by (apply (find_class_id (t, c))).
  subst x y. unfold dyn_delete, dyn_clear, dyn_copy, dyn_equals, dyn_with. rewrite F.
  rewrite !(as_class_own (Obj (t, c) v)). cbn [o_val fst snd].
  split; [reflexivity|]. split; [rewrite clear_is_default; destruct Hv as [_ ->]; reflexivity|].
  rewrite !(as_class_own (Obj (t, c) w)). split; [reflexivity|]. eexists. split; [reflexivity|]. apply cval_eq_iff; [apply Hv|apply Hw].
Qed.
Lemma d_eq t c v w b : typed (t, c) v -> typed (t, c) w -> (b = true <-> cval_same t v w) ->
  dyn_equals (dt_id t) (ct_id c) (Some (Obj (t, c) v)) (Some (Obj (t, c) w)) = Done b.
Proof.
  intros Hv Hw H. destruct (d_ops t c v w Hv Hw) as (_ & _ & _ & b' & E & Hb). rewrite E. f_equal.
  destruct b, b'; auto; [|symmetry]; tauto.
Qed.
Lemma default_typed' t c : typed (t, c) (cval_default t c).
Proof. apply (default_typed (t, c)). Qed.
Lemma eq_false b (P : Prop) : (b = true <-> P) -> ~ P -> b = false.
Proof. destruct b; tauto. Qed.

Lemma block_spec t c vals ints v : nonzero_content t c vals ints = Some v -> typed (t, c) v ->
  ~ cval_same t v (cval_default t c) ->
  exists b, dyn_block t c vals ints = Done b /\ (b = true <-> cval_same t v v).
Proof.
  intros E Hv N. pose proof (default_typed' t c) as Hd.
  destruct (d_ops t c _ _ Hd Hd) as (_ & Q2 & _ & _).
  destruct (d_ops t c _ _ Hv Hd) as (_ & R2 & _ & _).
  destruct (d_ops t c _ _ Hd Hv) as (R1 & _ & R3 & _).
  destruct (d_ops t c _ _ Hv Hv) as (_ & _ & _ & b & Eb & Hb).
  unfold dyn_block. rewrite d_new. rewrite Q2. cbn [bind negb].
  rewrite (d_eq t c _ _ true Hd Hd) by (pose proof (default_same t c); tauto). cbn [bind negb]. rewrite E.
  rewrite (as_class_own (Obj (t, c) (cval_default t c))). cbn [bind o_class].
  rewrite (d_eq t c _ _ false Hv Hd) by (split; [discriminate|tauto]). cbn [bind]. rewrite R3. cbn [bind negb].
  rewrite Eb. cbn [bind]. exists b. split; [|exact Hb]. destruct b; cbn [negb]; [|reflexivity].
  rewrite R2. cbn [bind negb].
  rewrite (d_eq t c _ _ false Hd Hv).
  2:{ split; [discriminate|]. intros S. exfalso. apply N. apply cval_same_sym. exact S. }
  cbn [bind].
  destruct (d_ops t c _ _ Hv Hd) as (_ & _ & R4 & _). rewrite R4. cbn [bind negb].
  rewrite (d_eq t c _ _ true Hd Hd) by (pose proof (default_same t c); tauto). cbn [bind negb]. exact R1.
Qed.

Lemma nonzero_some t vals : Forall (val_ok t) vals -> (exists x, In x vals /\ ~ val_same t x (val_default (dshape t))) ->
  exists l x r, vals = l ++ x :: r /\ Forall (fun y => val_same t y (val_default (dshape t))) l /\
    ~ val_same t x (val_default (dshape t)) /\ nonzero t vals = Some x.
Proof.
  unfold nonzero. induction vals as [|y r IH]; intros F (x & Hx & Nx); [contradiction|]. inversion F as [|? ? F1 F2]; subst.
  cbn [List.find]. pose proof (val_eq_iff t y (val_default (dshape t)) F1 (val_default_ok t)) as I.
  destruct (val_eq t y (val_default (dshape t))) eqn:E; cbn [negb].
  - assert (S : val_same t y (val_default (dshape t))) by tauto. destruct Hx as [->|Hx]; [contradiction|].
    destruct (IH F2) as (l & x' & r' & -> & A & B & C); [eauto|]. exists (y :: l), x', r'. repeat split; auto.
  - exists [], y, r. repeat split; auto. intros S. apply I in S. discriminate.
Qed.
Lemma content_spec t c vals ints : draw_ok t c vals -> exists v, nonzero_content t c vals ints = Some v /\ typed (t, c) v /\
  ~ cval_same t v (cval_default t c) /\ (cval_same t v v <-> draw_clean t c vals).
Proof.
  intros [V H]. assert (F : Forall (val_ok t) vals) by apply V.
  assert (NE : c <> CtNone -> c <> CtOpt -> vals <> []) by (destruct c; tauto).
  assert (N2 : vals <> [] -> ~ Forall2 (val_same t) vals []) by (intros N X; inversion X; subst; contradiction).
  assert (SC : forall l x r, vals = l ++ x :: r -> Forall (fun y => val_same t y (val_default (dshape t))) l ->
    ~ val_same t x (val_default (dshape t)) ->
    (clean t x <-> forall l x r, vals = l ++ x :: r -> Forall (fun y => val_same t y (val_default (dshape t))) l ->
      ~ val_same t x (val_default (dshape t)) -> clean t x)).
  { intros l x r E L Nx. split; [|intros Q; eapply Q; eauto]. intros Cx l' x' r' E' L' Nx'.
    assert (x = x'); [|subst; exact Cx]. subst vals. clear -E' L L' Nx Nx'. revert l' E' L'. induction l as [|a l IH]; intros l' E L'.
    - destruct l' as [|b l']; cbn in E; injection E; intros; [auto|]. subst b. inversion L'; contradiction.
    - destruct l' as [|b l']; cbn in E; injection E; intros; subst; [inversion L; contradiction|].
      inversion L; inversion L'; subst. eapply IH; eauto. }
  destruct c; cbn [nonzero_content draw_clean].
  - destruct (nonzero_some t vals F H) as (l & x & r & E & L & Nx & ->). exists (CV x). cbn. repeat split; auto.
    + rewrite E in F. apply Forall_app in F. destruct F as [_ F]. inversion F; assumption.
    + intros S. apply (SC l x r E L Nx). apply val_same_refl. exact S.
    + intros S. apply val_same_refl. apply (SC l x r E L Nx). exact S.
  - destruct (nonzero_some t vals F H) as (l & x & r & E & L & Nx & ->). exists (COpt (Some x)). cbn. repeat split; auto.
    + rewrite E in F. apply Forall_app in F. destruct F as [_ F]. inversion F; assumption.
    + intros S. apply (SC l x r E L Nx). apply val_same_refl. exact S.
    + intros S. apply val_same_refl. apply (SC l x r E L Nx). exact S.
  - exists (CVec vals). split; [reflexivity|]. split; [split; [exact V|reflexivity]|]. split; [apply N2, H|]. apply (cval_same_refl t (CVec vals)).
  - exists (COptVec (Some vals)). split; [reflexivity|]. split; [split; [exact V|reflexivity]|]. split; [exact (fun x => x)|]. apply (cval_same_refl t (CVec vals)).
  - exists (CIdx vals []). split; [reflexivity|]. split; [split; [split; [exact V|]|reflexivity]|].
    + constructor.
    + split; [intros [S _]; exact (N2 H S)|]. rewrite (cval_same_refl t (CIdx vals [])). reflexivity.
  - exists (COptIdx (Some (vals, []))). split; [reflexivity|]. split; [split; [split; [exact V|]|reflexivity]|].
    + constructor.
    + split; [exact (fun x => x)|]. rewrite (cval_same_refl t (COptIdx (Some (vals, [])))). reflexivity.
Qed.
Lemma t_block t c vals ints : draw_ok t c vals -> exists b, dyn_block t c vals ints = Done b /\ (b = true <-> draw_clean t c vals).
Proof.
  intros H. destruct (content_spec t c vals ints H) as (v & E & T & N & C).
  destruct (block_spec t c vals ints v E T N) as (b & Eb & Hb). exists b. split; [exact Eb|]. tauto.
Qed.
Lemma t_blocks l : Forall (fun d => draw_ok (y_type d) (y_cont d) (y_vals d)) l ->
  exists b, dyn_blocks l = Done b /\ (b = true <-> Forall (fun d => draw_clean (y_type d) (y_cont d) (y_vals d)) l).
Proof.
  induction 1 as [|d r Hd Hr IH]; cbn [dyn_blocks]; [exists true; split; [reflexivity|split; auto]|].
  destruct (t_block _ _ _ (y_ints d) Hd) as (b & -> & Hb). cbn [bind]. destruct IH as (b' & -> & Hb'). destruct b.
  - exists b'. split; [reflexivity|]. rewrite Forall_cons_iff, Hb'. tauto.
  - exists false. split; [reflexivity|]. rewrite Forall_cons_iff. split; [discriminate|]. intros [X _]. apply Hb in X. discriminate.
Qed.
Lemma t_dyn_test passes : (forall what, In what passes -> forall t c, draw_ok t c (fst (what (t, c)))) ->
  exists b, dyn_test passes = Done b /\
    (b = true <-> forall what, In what passes -> forall t c, draw_clean t c (fst (what (t, c)))).
Proof.
  intros H. destruct (t_blocks (flat_map dyn_pass passes)) as (b & E & Hb).
  - apply Forall_forall. intros d Hd. apply in_flat_map in Hd. destruct Hd as (what & Hw & Hd). apply in_map_iff in Hd.
    destruct Hd as ([t c] & <- & _). cbn. apply H, Hw.
  - exists b. split; [exact E|]. rewrite Hb, Forall_forall. split.
    + intros Q what Hw t c. apply (Q (DDraw t c (fst (what (t, c))) (snd (what (t, c))))). apply in_flat_map. exists what. split; [exact Hw|].
      apply in_map_iff. exists (t, c). split; [reflexivity|]. apply all_classes_all.
    + intros Q d Hd. apply in_flat_map in Hd. destruct Hd as (what & Hw & Hd). apply in_map_iff in Hd.
      destruct Hd as ([t c] & <- & _). cbn. apply Q, Hw.
Qed.
