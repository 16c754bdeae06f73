(** * C31-C33: generated entities, for every entity definition. *)
From Verif Require Import Base Bytes Values Streams Types Format EntityWriter EntityReader Items ItemSpec EntityProps Sections Documents DocSpec
  SectionTheorems Validator Keys KeySpec KeyFacts Containers ValueEqSpec ValueEqFacts StdSet Graph GraphSpec GraphSets Classes Table TableSpec TableFacts
  IndexedVector IndexedVectorSpec DynTypes Varying VaryingSpec EntityGen EntitySpec EntityFacts EntityCodec FullSpec FullFacts
  Properties_Keys Properties_Entity Properties_Varying Properties_Table.
Open Scope N_scope.

(** C31: Equals compares every variable: it is true iff all values are equal as their types define it, all graphs
    have the same roots and edges, all tables the same keys and equal entities, and so on (EntitySpec). *)
Theorem C31_equals_exact : forall U s x y, s_ok s x -> s_ok s y -> (m_eq (smf U s) x y = true <-> s_equal s x y).
Proof. intros U. exact (proj1 (equals_both U)). Qed.
Print Assumptions C31_equals_exact.
(** C31: Equals is symmetric and transitive. *)
Theorem C31_symmetric : forall U s x y, s_ok s x -> s_ok s y -> m_eq (smf U s) x y = m_eq (smf U s) y x.
Proof.
  intros U s x y Hx Hy. apply Bool.eq_iff_eq_true. rewrite !C31_equals_exact by assumption.
  split; apply (proj1 (rel_sym_both _ _ cval_same_sym same_content_sym)).
Qed.
Print Assumptions C31_symmetric.
Theorem C31_transitive : forall U s x y z, s_ok s x -> s_ok s y -> s_ok s z ->
  m_eq (smf U s) x y = true -> m_eq (smf U s) y z = true -> m_eq (smf U s) x z = true.
Proof.
  intros U s x y z Hx Hy Hz. rewrite !C31_equals_exact by assumption. apply (proj1 (rel_trans_both _ _ cval_same_trans same_content_trans)).
Qed.
Print Assumptions C31_transitive.
(** C31: an object is Equal to an identical object iff no float in it is a NaN and every Varying holds a value.
    (An object compared with itself, through the same pointer, is always Equal.) *)
Theorem C31_reflexive : forall U s x, s_ok s x -> (m_eq (smf U s) x x = true <-> s_clean s x).
Proof. intros U s x Hx. rewrite C31_equals_exact by assumption. apply equal_refl_both. exact Hx. Qed.
Print Assumptions C31_reflexive.
(** C31: Equals with pointers: null is equal only to null. *)
Theorem C31_pointers : forall U s x, m_equals (smf U s) true x x = true /\
  (forall y, m_equals (smf U s) false x y = true -> exists a b, x = Some a /\ y = Some b).
Proof. intros U s x. split; [reflexivity|]. intros y. destruct x, y; cbn; try discriminate. eauto. Qed.
Print Assumptions C31_pointers.

(** C31: DeepCopy, into any object, succeeds, and the copy is identical to the source (and Equal, if the source
    is Equal to itself). *)
Theorem C31_copy : forall U s d x, s_ok s d -> s_ok s x ->
  exists y, m_copy (smf U s) d (Some x) = Done y /\ s_ok s y /\ s_ident s y x /\ (s_clean s x -> m_eq (smf U s) y x = true).
Proof.
  intros U s d x Hd Hx. destruct (proj1 (copy_both U) s d x Hd Hx) as (y & E & Hy & Hi). exists y. split; [exact E|]. split; [exact Hy|].
  split; [exact Hi|]. intros Hc. apply C31_equals_exact; auto. apply ident_equal_both; auto.
Qed.
Print Assumptions C31_copy.
(** C31: Clear, and DeepCopy of a null pointer, make the object identical to a default-constructed one, for definitions
    without optional objects and Varying variables. *)
Theorem C31_clear : forall U s x, s_clearable s -> s_ok s x ->
  exists y, m_clear (smf U s) x = Done y /\ m_copy (smf U s) x None = Done y /\ s_ok s y /\ s_ident s y (m_new (smf U s)).
Proof.
  intros U s x Hc Hx. destruct (proj1 (clear_both U) s x Hc Hx) as (y & E & Hy & Hi). exists y.
  rewrite (proj1 (copy_null_both U)) by exact Hc. auto.
Qed.
Print Assumptions C31_clear.
(** C31: what Clear, and DeepCopy of a null pointer, do in all definitions for which they compile, those with Varying
    variables included: every part is what EntitySpec's [s_cleared] says, at any depth. Of a Varying itself (not of
    one inside an entity), DeepCopy of a null pointer leaves an empty one. *)
Theorem C31_clear_exact : forall U s x, s_has_clear s -> s_ok s x ->
  exists y, m_clear (smf U s) x = Done y /\ s_ok s y /\ s_cleared s x y /\
    (s <> SVarying -> m_copy (smf U s) x None = Done y).
Proof.
  intros U s x Hc Hx. destruct (proj1 (cleared_both U) s x Hc Hx) as (y & E & Hy & Hi). exists y.
  repeat (split; [assumption|]). intros Hv. rewrite (proj1 (copy_null_any U)) by assumption. exact E.
Qed.
Print Assumptions C31_clear_exact.
Theorem C31_varying_null : forall U x, s_ok SVarying x ->
  exists dt ct, m_copy (smf U SVarying) x None = Done (v_of (Empty dt ct)).
Proof. intros U x (a & -> & Ha). destruct (VaryingCodec.emptied_none a) as (dt & ct & E). exists dt, ct. rewrite <- E. exact (VaryingCodec.v_copy_null a). Qed.
Print Assumptions C31_varying_null.

(** C31, findings. A NaN makes an entity different from its own copy. *)
Definition nan3 : cval := CV (VP [x00; x00; xc0; x7f; x00; x00; x00; x00; x00; x00; x00; x00]).
Definition node0 (t : cval) : ty Node := (CV (VS [x6e]), (t, (CV (VP (repeat x00 12)), (CV (VP (repeat x00 12)), tt)))).
Theorem C31_nan_refuted : s_ok Node (node0 nan3) /\ exists y, m_copy (smf ulasts Node) (m_new (smf ulasts Node)) (Some (node0 nan3)) = Done y /\
  m_eq (smf ulasts Node) y (node0 nan3) = false.
Proof. split; [repeat split|]. eexists. split; vm_compute; reflexivity. Qed.
Print Assumptions C31_nan_refuted.
(** A cleared entity with a Varying variable is not the default entity: the Varying keeps its type. *)
Definition WithVarying : schema := SEntity (FClass k_ab SVarying FNil).
Theorem C31_clear_varying_refuted : exists x y, s_ok WithVarying x /\ m_clear (smf ulasts WithVarying) x = Done y /\
  ~ s_ident WithVarying y (m_new (smf ulasts WithVarying)).
Proof.
  exists (v_of (Holds u32_class (num32 x05)), tt), (v_of (Holds u32_class (num32 x00)), tt). split; [|split; [reflexivity|]].
  - split; [|exact I]. eexists. split; [reflexivity|]. split; [vm_compute; auto|reflexivity].
  - intros [(x & y & E1 & E2 & _ & _ & H) _]. cbn [fst] in E1, E2. apply v_of_same in E1. subst x.
    destruct y as [|k c]; [exact H|]. vm_compute in E2. discriminate.
Qed.
Print Assumptions C31_clear_varying_refuted.
Example C31_clear_exact_example : s_has_clear WithVarying /\ s_ok WithVarying (v_of (Holds u32_class (num32 x05)), tt) /\
  s_cleared WithVarying (v_of (Holds u32_class (num32 x05)), tt) (v_of (Holds u32_class (num32 x00)), tt).
Proof.
  split; [repeat split|]. split; [split; [|exact I]; eexists; split; [reflexivity|]; split; [vm_compute; auto|reflexivity]|].
  split; [|exact I]. exists (Holds u32_class (num32 x05)). split; reflexivity.
Qed.

(** C32: for every definition (names of at most 40 bytes, no variables and tables of an entity without variables)
    and every object of the class, in both byte orders: Write succeeds and writes the document of EntitySpec;
    Read of these bytes, whatever follows them and whatever the destination contained (vectors of references:
    nothing), succeeds, gives an identical object, and leaves the reader behind the last byte. *)
Theorem C32_roundtrip : forall U s x init lim fl, s_sound s -> s_ok s x -> s_fits s x ->
  room init lim (len (nodes_bytes fl (s_doc s x))) ->
  exists s0 st, fresh init lim fl = Done s0 /\ m_write (smf U s) 0 x (w_open s0) = Done (true, st) /\
    ws_data (w_stream st) = nodes_bytes fl (s_doc s x) /\
    forall e old post, s_ok s old -> s_dest s old -> read_room e (ws_pos (w_stream st)) (ws_pos (w_stream st) + len post) ->
      exists y st', m_read (smf U s) e 0 old (r_open (RS (ws_data (w_stream st) ++ post) 0 fl)) = Done (true, y, st') /\
        s_ident s y x /\ (s_clean s x -> m_eq (smf U s) y x = true) /\
        r_stream st' = RS (ws_data (w_stream st) ++ post) (ws_pos (w_stream st)) fl.
Proof.
  intros U s x init lim fl Hs Hx Hf Hr. destruct (t_s_roundtrip U s x init lim fl Hs Hx Hf Hr) as (s0 & st & H1 & H2 & H3 & H4).
  exists s0, st. split; [exact H1|]. split; [exact H2|]. split; [exact H3|]. intros e old post Ho Hd Hrr.
  destruct (H4 e old post Ho Hd Hrr) as (y & st' & E & (Y1 & Y2) & Y3). exists y, st'. split; [exact E|]. split; [exact Y2|]. split; [|exact Y3].
  intros Hc. apply C31_equals_exact; auto. apply ident_equal_both; auto.
Qed.
Print Assumptions C32_roundtrip.
(** C32: Write is a decision: of every object, if there is memory for its written form, Write returns true iff every
    Varying in it, at any depth, holds a value; otherwise it returns false, never with undefined behaviour or an exception. *)
Theorem C32_write_exact : forall U s x init lim fl, s_sound s -> s_ok s x -> s_small s x ->
  room init lim (len (nodes_bytes fl (s_doc s x))) ->
  exists s0 b st, fresh init lim fl = Done s0 /\ m_write (smf U s) 0 x (w_open s0) = Done (b, st) /\ (b = true <-> s_full s x).
Proof. exact t_write_exact. Qed.
Print Assumptions C32_write_exact.
(** (The condition of C32_roundtrip is that Write succeeds.) *)
Theorem C32_fits_iff : forall s x, s_fits s x <-> s_small s x /\ s_full s x.
Proof. exact (proj1 fits_iff). Qed.
Print Assumptions C32_fits_iff.
(** C32: all entities of the project meet the conditions on definitions. *)
Theorem C32_project_entities :
  Forall s_sound [Node; NodeGeometry; AttributeLayer; TestEntity; SceneLayer; Scene; Mesh] /\
  Forall s_bounded [Node; NodeGeometry; AttributeLayer; TestEntity; SceneLayer; Scene; Mesh] /\
  Forall s_clearable [Node; NodeGeometry; AttributeLayer; TestEntity; SceneLayer; Scene; Mesh] /\
  (forall x : ty Scene, s_dest Scene x) /\ (forall x : ty Mesh, s_dest Mesh x).
Proof.
  split; [repeat constructor; try discriminate; vm_compute; discriminate|]. split; [repeat constructor|]. split; [repeat constructor|].
  split; intros x; repeat split; exact I.
Qed.
Print Assumptions C32_project_entities.

(** C32, findings. An entity without variables cannot be a variable: its section is written without content, and Read
    refuses it. *)
Definition WithEmpty : schema := SEntity (FClass k_ab E0 FNil).
Theorem C32_empty_entity_refuted : exists s0 st y st', fresh 64 100000 false = Done s0 /\
  m_write (smf ulasts WithEmpty) 0 (tt, tt) (w_open s0) = Done (true, st) /\
  m_read (smf ulasts WithEmpty) env0 0 (tt, tt) (r_open (RS (ws_data (w_stream st)) 0 false)) = Done (false, y, st').
Proof. eexists _, _, _, _. split; [vm_compute; reflexivity|]. split; vm_compute; reflexivity. Qed.
Print Assumptions C32_empty_entity_refuted.
(** A vector of references that is not empty keeps its items: the object read is not Equal to the one written. *)
Definition WithRefs : schema := SEntity (FBase k_ab TEntityRef CtVec FNil).
Theorem C32_references_appended_refuted : let a := VP (repeat x01 16) in let b := VP (repeat x02 16) in
  exists s0 st y st', fresh 64 100000 false = Done s0 /\
  m_write (smf ulasts WithRefs) 0 (CVec [a], tt) (w_open s0) = Done (true, st) /\
  m_read (smf ulasts WithRefs) env0 0 (CVec [b], tt) (r_open (RS (ws_data (w_stream st)) 0 false)) = Done (true, y, st') /\
  y = (CVec [b; a], tt) /\ m_eq (smf ulasts WithRefs) y (CVec [a], tt) = false.
Proof. eexists _, _, _, _. split; [vm_compute; reflexivity|]. split; [vm_compute; reflexivity|]. split; [vm_compute; reflexivity|]. split; vm_compute; reflexivity. Qed.
Print Assumptions C32_references_appended_refuted.

(** C33: Validate reports nothing iff every graph, table, indexed vector and Varying in the object, at any depth, is
    valid: no flagged property is violated (EntitySpec). *)
Theorem C33_validate_exact : forall U s x, s_bounded s -> s_ok s x ->
  exists n0, forall n, (n0 <= n)%nat -> exists log, m_validate (smf U s) n x = Some log /\ (log = [] <-> s_valid s x).
Proof. intros U. exact (proj1 (valid_both U)). Qed.
Print Assumptions C33_validate_exact.

(** The hypotheses are met: a scene with a layer that has a graph with two nodes and a node. *)
Definition layer0 : ty SceneLayer :=
  (CV (VS [x4c]), (g_run er_ops [AddRoot k1; AddEdge k1 k2],
  (UMap [(k1, Some (node0 (CV (VP (repeat x00 12)))))] 1, (UMap [] 0, tt)))).
Definition pk : kkey k_package_ref := exist _ (VP (x01 :: repeat x00 31)) eq_refl.
Definition scene0 : ty Scene := (UMap [(pk, Some layer0)] 1, tt).
Definition scene_doc_len : N := len (nodes_bytes true (s_doc Scene scene0)).
Lemma layer0_ok : s_ok SceneLayer layer0.
Proof.
  split; [vm_compute; auto|]. split; [reflexivity|]. split; [apply (run_ok er_ops (klaws k_entity_ref))|]. split; [split|].
  - repeat constructor. intros [].
  - intros i x [H|[]]. inversion H; subst. repeat split; vm_compute; auto.
  - split; [split; [constructor|intros i x []]|exact I].
Qed.
Example C32_example : s_ok Scene scene0 /\ s_fits Scene scene0 /\ s_clean Scene scene0 /\ room 64 100000 scene_doc_len /\
  exists s0 st y st', fresh 64 100000 true = Done s0 /\ m_write (smf ulasts Scene) 0 scene0 (w_open s0) = Done (true, st) /\
    m_read (smf ulasts Scene) env0 0 (m_new (smf ulasts Scene)) (r_open (RS (ws_data (w_stream st)) 0 true)) = Done (true, y, st') /\
    m_eq (smf ulasts Scene) y scene0 = true /\ m_eq (smf ulasts Scene) (m_new (smf ulasts Scene)) scene0 = false /\
    m_validate (smf ulasts Scene) 100 scene0 = Some [] /\
    m_validate (smf ulasts Scene) 100 (UMap [(pk, Some layer0); (kzero k_package_ref, None)] 1, tt) <> Some [].
Proof.
  split; [split; [split; [repeat constructor; intros []|intros i x [H|[]]; inversion H; subst; exact layer0_ok]|exact I]|].
  split; [split; [split; [vm_compute; reflexivity|]|exact I]|].
  { intros i x [H|[]]; inversion H; subst. split; [split; vm_compute; reflexivity|]. split; [split; [vm_compute; reflexivity|intros ? ? _; exact I]|].
    split; [split; [vm_compute; reflexivity|intros ? ? []]|exact I]. }
  split; [split; [|exact I]|].
  { assert (C : m_eq (smf ulasts SceneLayer) layer0 layer0 = true) by (vm_compute; reflexivity).
    apply C31_reflexive in C; [|exact layer0_ok]. intros i x [H|[]]; inversion H; subst. exact C. }
  split; [repeat split; vm_compute; congruence|].
  eexists _, _, _, _. split; [vm_compute; reflexivity|]. split; [vm_compute; reflexivity|]. split; [vm_compute; reflexivity|].
  repeat split; vm_compute; congruence.
Qed.
(** A table of entities with a Varying, the second entity with an empty one: Write fails there. *)
Definition VTable : schema := STable k_entity_ref no_flags WithVarying.
Definition vtable (last : content) : ty VTable :=
  UMap [(k1, Some (v_of (Holds u32_class (num32 x05)), tt)); (k2, Some (v_of last, tt))] 1.
Example C32_write_exact_example : s_sound VTable /\ s_ok VTable (vtable (Empty 0 0)) /\ s_small VTable (vtable (Empty 0 0)) /\
  ~ s_full VTable (vtable (Empty 0 0)) /\ s_full VTable (vtable (Holds u32_class (num32 x07))) /\
  room 64 100000 (len (nodes_bytes false (s_doc VTable (vtable (Empty 0 0))))) /\
  (exists s0 st, fresh 64 100000 false = Done s0 /\ m_write (smf ulasts VTable) 0 (vtable (Empty 0 0)) (w_open s0) = Done (false, st)) /\
  (exists s0 st, fresh 64 100000 false = Done s0 /\ m_write (smf ulasts VTable) 0 (vtable (Holds u32_class (num32 x07))) (w_open s0) = Done (true, st)).
Proof.
  assert (K : k1 <> k2) by (intros H; apply (f_equal (@proj1_sig _ _)) in H; vm_compute in H; discriminate H).
  split; [repeat split; try discriminate; vm_compute; discriminate|]. split; [split|].
  - unfold is_table, vtable. cbn [t_list map fst]. repeat constructor; [intros [H|[]]; congruence|intros []].
  - intros i x [H|[H|[]]]; inversion H; subst; (split; [|exact I]).
    + exists (Holds u32_class (num32 x05)). split; [reflexivity|]. vm_compute; auto.
    + exists (Empty 0 0). split; [reflexivity|exact I].
  - split; [split; [reflexivity|intros i x [H|[H|[]]]; inversion H; subst; split; exact I]|].
    split; [intros H; destruct (H k2 _ (or_intror (or_introl eq_refl))) as ((k & c & E) & _); discriminate E|].
    split; [intros i x [H|[H|[]]]; inversion H; subst; (split; [|exact I]); [exists u32_class, (num32 x05)|exists u32_class, (num32 x07)]; reflexivity|].
    split; [vm_compute; repeat split; discriminate|]. split; eexists _, _; split; vm_compute; reflexivity.
Qed.
