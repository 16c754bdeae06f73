(** * C41: objects of every class are values: construction, copy, assignment, move, comparison. *)
From Verif Require Import Base Bytes Values Types Keys KeySpec Containers ValueEqSpec StdSet Graph GraphSpec Classes Table TableSpec IndexedVector IndexedVectorSpec
  DynTypes Varying VaryingSpec EntityGen EntitySpec Objects ObjectSpec ObjectFacts
  Properties_Keys Properties_Entity Properties_Varying Properties_Table Properties_Generated.
Open Scope N_scope.

(** C41: for every class, every legal program of constructions, copies, moves, assignments (also of a variable to
    itself), changes, clears, comparisons and destructions runs without an exception or undefined behaviour, every
    operation does what ObjectSpec says, and all variables hold valid objects at the end, whatever the standard library
    leaves in moved-from objects. *)
Theorem C41_programs : forall U s L prog, valid_leftovers L -> legal s prog (fun _ => false) ->
  exists answers E, o_run U s L prog (fun _ => None) = Done (answers, E) /\ o_specs s prog (fun _ => None) answers E /\ vars_ok s E.
Proof.
  intros U s L prog HL Lg. apply (run_ok' U s L HL prog (fun _ => None) (fun _ => false)); [intros i x H; discriminate| |exact Lg].
  intros i. split; [discriminate|congruence].
Qed.
Print Assumptions C41_programs.
(** The same from any state of the variables. *)
Theorem C41_programs_from : forall U s L prog E live, valid_leftovers L -> vars_ok s E -> (forall i, live i = true <-> E i <> None) ->
  legal s prog live -> exists answers E', o_run U s L prog E = Done (answers, E') /\ o_specs s prog E answers E' /\ vars_ok s E'.
Proof. intros U s L prog E live HL. apply run_ok'. exact HL. Qed.
Print Assumptions C41_programs_from.

(** C41: x = x keeps the object if the class has no tables, indexed vectors, Varyings and optional objects. *)
Theorem C41_self_assignment : forall U s x, s_durable s -> s_ok s x -> exists y, s_assign_self U s x = Done y /\ s_ok s y /\ s_ident s y x.
Proof.
  intros U s x D O. destruct (assign_self_ok U s x O) as (y & E & Oy & K). exists y. split; [exact E|]. split; [exact Oy|]. exact (durable_var s x y D O K).
Qed.
Print Assumptions C41_self_assignment.
(** This holds for the classes Node, NodeGeometry, AttributeLayer and TestEntity of the project. *)
Theorem C41_project_entities : Forall s_durable [Node; NodeGeometry; AttributeLayer; TestEntity] /\ ~ s_durable SceneLayer /\ ~ s_durable Scene /\ ~ s_durable Mesh.
Proof. split; [repeat constructor|]. split; [cbn; tauto|]. split; cbn; tauto. Qed.
Print Assumptions C41_project_entities.

(** C41, finding: layer = layer loses all nodes of a scene layer, but not its name and graph: the graph then refers to
    nodes that are gone. *)
Theorem C41_self_assignment_refuted : s_ok SceneLayer layer0 /\ exists y, s_assign_self ulasts SceneLayer layer0 = Done y /\
  m_eq (smf ulasts SceneLayer) y layer0 = false /\ fst y = fst layer0 /\ fst (snd y) = fst (snd layer0) /\ t_list (fst (snd (snd y))) = [] /\
  t_list (fst (snd (snd layer0))) <> [].
Proof. split; [exact layer0_ok|]. eexists. split; [vm_compute; reflexivity|]. repeat split; vm_compute; congruence. Qed.
Print Assumptions C41_self_assignment_refuted.
(** An optional object is replaced by a default one. *)
Definition WithOptional : schema := SEntity (FOpt k_ab TestEntity FNil).
Theorem C41_self_assignment_optional_refuted : let x : ty WithOptional := (Some (te [x41] None), tt) in
  s_ok WithOptional x /\ s_assign_self ulasts WithOptional x = Done (Some (te [] None), tt).
Proof. split; [repeat split; vm_compute; auto|]. vm_compute. reflexivity. Qed.
Print Assumptions C41_self_assignment_optional_refuted.

(** The hypotheses are met: a library that empties what it has moved from, and a program with copies, moves and
    self-assignments of a scene layer. *)
Definition emptying : leftovers := Left
  (fun t c => match c with
              | CV (VS _) => CV (VS []) | COpt _ => COpt None | CVec _ => CVec [] | COptVec _ => COptVec None
              | CIdx _ _ => CIdx [] [] | COptIdx _ => COptIdx None | _ => c end)
  (fun k g => Graph [] []) (fun k T m => UMap [] 0) (fun t o => IVec [] []).
Example C41_example : valid_leftovers emptying /\
  exists prog answers E, legal SceneLayer prog (fun _ => false) /\ o_run ulasts SceneLayer emptying prog (fun _ => None) = Done (answers, E) /\
  answers = [true; false; true; true; false] /\ (exists x, E 3 = Some x /\ m_eq (smf ulasts SceneLayer) x layer0 = true) /\ E 2 = None.
Proof.
  split.
  - split; [|split; [|split; [|split]]].
    + intros t x O. destruct x as [[b|b|b]|o|l|o|l i|o]; cbn; try (split; [exact O|reflexivity]).
      * split; [|reflexivity]. cbn in O. unfold val_ok, shape_ok in *. destruct (dshape t); try contradiction; vm_compute; auto.
      * split; [exact I|reflexivity].
      * split; [split; [constructor|vm_compute; reflexivity]|reflexivity].
      * split; [exact I|reflexivity].
      * split; [split; [split; [constructor|vm_compute; reflexivity]|constructor]|reflexivity].
      * split; [exact I|reflexivity].
    + intros t [[b|b|b]|o|l|o|l i|o] P; cbn in P; try contradiction; reflexivity.
    + intros k g _. split; constructor.
    + intros k T m _. split; [constructor|intros e []].
    + intros t o _. split; [split; [constructor|vm_compute; reflexivity]|constructor].
  - set (prog := [ODefault 1; OSet 1 layer0; OCopyCtor 2 1; OEquals 1 2; OMoveCtor 3 2; OEquals 1 2; OEquals 1 3; OAssign 1 1; OEquals 1 1; OEquals 1 3; ODestroy 2]
      : list (oop (ty SceneLayer))).
    destruct (o_run ulasts SceneLayer emptying prog (fun _ => None)) as [[a E]| |] eqn:R; [|vm_compute in R; discriminate|vm_compute in R; discriminate].
    exists prog, a, E. split.
    { split; [reflexivity|]. split; [exact (conj eq_refl layer0_ok)|]. do 8 (split; [split; reflexivity|]). exact (conj eq_refl Logic.I). }
    split; [exact R|]. vm_compute in R. injection R as <- <-. split; [reflexivity|]. split; [|reflexivity]. eexists. split; [reflexivity|]. vm_compute. reflexivity.
Qed.
