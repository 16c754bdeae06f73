(** * Properties_GenText: the C++ text of the code generator means the class that was defined (C52). *)
From Coq Require Import Strings.String Strings.Ascii.
From Verif Require Import Base Bytes Values Streams Types EntityWriter EntityReader Sections Validator Keys KeySpec Containers
  ValueEq StdSet Graph Classes Table IndexedVector DynTypes Varying EntityGen GenText CppText CppSem GenTextSpec GenCheck GenRun GenTextTheorems.
Local Open Scope string_scope.
Local Open Scope list_scope.

(** ** C52: the two files the generator writes for an entity definition are C++ text; they compile exactly if the definition
    stands for a class, and then every function in them does what the function of that class does, on all objects. *)
Theorem C52_text_means_class : forall W d, well_formed d -> world_ok W d ->
  exists g, load (ed_name d) (header_lines (entity_of d)) (source_lines (entity_of d)) = Some g /\
    (compiles W g = true <-> exists T fs, defines W d T fs) /\
    forall T fs, defines W d T fs -> class_typedefs W g = Some T /\ forall I, means I W g T fs.
Proof.
  intros W d H Ww. exists (prog d). split; [exact (load_prog d (wf_of d H))|]. split; [exact (compiles_iff W d H Ww)|].
  intros T fs D. split; [rewrite (prog_typedefs d W Ww); exact (proj1 D)|]. intros I. exact (means_class W d H I T fs D).
Qed.
Print Assumptions C52_text_means_class.
(** The accessors of a variable refer to that variable. *)
Theorem C52_accessors : forall I W d T v c o, well_formed d -> In v (ed_vars d) ->
  exists g, load (ed_name d) (header_lines (entity_of d)) (source_lines (entity_of d)) = Some g /\
    run_accessor I W g T (v_name v) c o = Done ("v_" ^^ v_name v).
Proof.
  intros I W d T v c o H i. exists (prog d). split; [exact (load_prog d (wf_of d H))|]. exact (accessor_ok I W d T (wf_of d H) v c o i).
Qed.
Print Assumptions C52_accessors.
(** A project: all files compile, and each entity is the class its definition stands for, given the classes before it. *)
Theorem C52_projects : forall W l W', project W l = Some W' -> NoDup (map ed_name l) ->
  (forall n, In n library_headers -> W n = None) ->
  (forall d, In d l -> well_formed d /\ W (ed_name d) = None /\ ~ In (ed_name d) library_headers) ->
  forall a d b, l = a ++ d :: b ->
  exists Wa T fs g, project W a = Some Wa /\ defines Wa d T fs /\ W' (ed_name d) = Some (SEntity fs) /\
    load (ed_name d) (header_lines (entity_of d)) (source_lines (entity_of d)) = Some g /\
    compiles Wa g = true /\ forall I, means I Wa g T fs.
Proof.
  intros W l W' P N L H a d b E. destruct (project_member W l W' a d b P E N L H) as (Wa & T & fs & P1 & P2 & P3 & P4).
  assert (Hd : well_formed d) by (apply H; rewrite E; apply in_or_app; right; left; reflexivity).
  exists Wa, T, fs, (prog d). split; [exact P1|]. split; [exact P3|]. split; [exact P4|]. split; [exact (load_prog d (wf_of d Hd))|].
  split; [apply (compiles_iff Wa d Hd P2); eauto|]. intros I. exact (means_class Wa d Hd I T fs P3).
Qed.
Print Assumptions C52_projects.
(** Definitions the generator writes files for that do not compile: optional variables of a class type ... *)
Theorem C52_optional_class_refuted : forall W d v, well_formed d -> world_ok W d -> In v (ed_vars d) ->
  base_type_variant (v_type v) = None -> v_optional v = true ->
  exists g, load (ed_name d) (header_lines (entity_of d)) (source_lines (entity_of d)) = Some g /\ compiles W g = false.
Proof.
  intros W d v H Ww i B O. exists (prog d). split; [exact (load_prog d (wf_of d H))|]. apply not_true_iff_false. intros C.
  apply (compiles_iff W d H Ww) in C. destruct C as (T & fs & D). destruct (never_defines W d T fs v B i D) as (O' & _). congruence.
Qed.
Print Assumptions C52_optional_class_refuted.
(** ... vectors of class objects ... *)
Theorem C52_class_vector_refuted : forall W d v, well_formed d -> world_ok W d -> In v (ed_vars d) ->
  base_type_variant (v_type v) = None -> v_vector v = true ->
  exists g, load (ed_name d) (header_lines (entity_of d)) (source_lines (entity_of d)) = Some g /\ compiles W g = false.
Proof.
  intros W d v H Ww i B O. exists (prog d). split; [exact (load_prog d (wf_of d H))|]. apply not_true_iff_false. intros C.
  apply (compiles_iff W d H Ww) in C. destruct C as (T & fs & D). destruct (never_defines W d T fs v B i D) as (_ & O' & _). congruence.
Qed.
Print Assumptions C52_class_vector_refuted.
(** ... variables whose type is another entity (and not a template definition of this one) ... *)
Theorem C52_entity_variable_refuted : forall W d v, well_formed d -> world_ok W d -> In v (ed_vars d) ->
  base_type_variant (v_type v) = None -> ~ In (v_type v) (map td_name (ed_templates d)) ->
  exists g, load (ed_name d) (header_lines (entity_of d)) (source_lines (entity_of d)) = Some g /\ compiles W g = false.
Proof.
  intros W d v H Ww i B O. exists (prog d). split; [exact (load_prog d (wf_of d H))|]. apply not_true_iff_false. intros C.
  apply (compiles_iff W d H Ww) in C. destruct C as (T & fs & D). destruct (never_defines W d T fs v B i D) as (_ & _ & O'). auto.
Qed.
Print Assumptions C52_entity_variable_refuted.
(** ... and entity tables with flags: the text says EntityTableFlags, the enum is RegistryFlags. *)
Theorem C52_table_flags_refuted : forall W d t k s, well_formed d -> world_ok W d -> In t (ed_templates d) ->
  td_template t = "EntityTable" -> td_types t = [k; s] -> td_flags t <> [] ->
  exists g, load (ed_name d) (header_lines (entity_of d)) (source_lines (entity_of d)) = Some g /\ compiles W g = false.
Proof.
  intros W d t k s H Ww i E1 E2 E3. exists (prog d). split; [exact (load_prog d (wf_of d H))|]. apply not_true_iff_false. intros C.
  apply (compiles_iff W d H Ww) in C. destruct C as (T & fs & D & _). rewrite (table_with_flags W d t k s i E1 E2 E3) in D. discriminate.
Qed.
Print Assumptions C52_table_flags_refuted.
(** The key in the text is the name up to 255 characters; a longer name is cut to its length modulo 256. *)
Theorem C52_key_names : forall s, (String.length s < 256)%nat <-> key_macro s = list_byte_of_string s.
Proof.
  intros s. split.
  - intros H. apply key_macro_short. lia.
  - intros E. apply (f_equal len) in E. rewrite key_macro_len, bytes_of_string_len in E.
    destruct (Nat.lt_ge_cases (String.length s) 256) as [l|l]; [exact l|]. exfalso.
    pose proof (N.mod_lt (N.of_nat (String.length s)) 256 ltac:(lia)). lia.
Qed.
Print Assumptions C52_key_names.

(** ** Witnesses *)
Fixpoint nodupb (l : list string) : bool := match l with [] => true | x :: r => negb (has x r) && nodupb r end.
Lemma nodupb_ok l : nodupb l = true -> NoDup l.
Proof.
  induction l as [|x l IH]; [constructor|]. cbn [nodupb]. intros H. apply andb_true_iff in H. destruct H as [A B]. constructor; [|exact (IH B)].
  apply negb_true_iff in A. apply GenLex.has_iff. exact A.
Qed.
Definition wellb (d : edef) : bool :=
  ident_ok (ed_name d) && negb (is_type_name (ed_name d)) && negb (has (ed_name d) (own_names ++ map (fun v => "v_" ^^ v_name v) (ed_vars d)))
  && forallb var_ok (ed_vars d) && nodupb (map v_name (ed_vars d))
  && forallb (fun v => negb (has (v_name v) (ed_name d :: own_names ++ map td_name (ed_templates d) ++ map (fun w => "v_" ^^ v_name w) (ed_vars d)))
                       && negb (has (v_type v) (ed_name d :: own_names))) (ed_vars d)
  && forallb (fun p => ident_ok (d_name p)) (ed_deps d) && forallb tdef_ok (ed_templates d) && nodupb (map td_name (ed_templates d))
  && forallb (fun t => negb (is_type_name (td_name t)) && negb (has (td_name t) (ed_name d :: own_names ++ map (fun v => "v_" ^^ v_name v) (ed_vars d)))) (ed_templates d).
Lemma wellb_ok d : wellb d = true -> well_formed d.
Proof.
  unfold wellb. rewrite !andb_true_iff, !negb_true_iff. intros (((((((((A & B) & C) & D) & E) & F) & G) & H) & J) & K).
  repeat split; auto; try (apply nodupb_ok; assumption); try (apply GenLex.has_iff; assumption).
  - rewrite forallb_forall in F. specialize (F v H0). rewrite andb_true_iff, !negb_true_iff in F. apply GenLex.has_iff. tauto.
  - rewrite forallb_forall in F. specialize (F v H0). rewrite andb_true_iff, !negb_true_iff in F. apply GenLex.has_iff. tauto.
  - rewrite forallb_forall in K. specialize (K t H0). rewrite andb_true_iff, !negb_true_iff in K. tauto.
  - rewrite forallb_forall in K. specialize (K t H0). rewrite andb_true_iff, !negb_true_iff in K. apply GenLex.has_iff. tauto.
Qed.
(** The entities of the project: their definitions stand for the classes of EntityGen.v. *)
Example C52_the_project : exists W, project library the_project = Some W /\
  W "AttributeLayer" = Some AttributeLayer /\ W "Mesh" = Some Mesh /\ W "Node" = Some Node /\ W "NodeGeometry" = Some NodeGeometry /\
  W "SceneLayer" = Some SceneLayer /\ W "Scene" = Some Scene /\ W "TestEntity" = Some TestEntity /\
  NoDup (map ed_name the_project) /\ (forall n, In n library_headers -> library n = None) /\
  (forall d, In d the_project -> well_formed d /\ library (ed_name d) = None /\ ~ In (ed_name d) library_headers).
Proof.
  eexists. split; [vm_compute; reflexivity|]. split; [vm_compute; reflexivity|]. split; [vm_compute; reflexivity|].
  split; [vm_compute; reflexivity|]. split; [vm_compute; reflexivity|]. split; [vm_compute; reflexivity|]. split; [vm_compute; reflexivity|].
  split; [vm_compute; reflexivity|]. split; [apply nodupb_ok; vm_compute; reflexivity|]. split.
  - intros n i. repeat (destruct i as [<-|i]; [reflexivity|]). destruct i.
  - intros d i. repeat (destruct i as [<-|i]; [split; [apply wellb_ok; vm_compute; reflexivity|split; [reflexivity|apply GenLex.has_iff; vm_compute; reflexivity]]|]). destruct i.
Qed.
(** The text of one of them, read by the lexer and parser: the bodies of MF::Clear and MF::Equals of TestEntity. *)
Example C52_the_text : exists f, 
  option_map (fun g => mf_def g "Clear" [self g false ByRef "obj"]) (load "TestEntity" (header_lines (entity_of TestEntity_def)) (source_lines (entity_of TestEntity_def)))
  = Some (Some (f, SSeq (SExpr (EAssign (EDot (EId ["obj"]) "v_Name" []) EInit)) (SSeq (SExpr (ECall (EDot (EDot (EId ["obj"]) "v_OptionalText" []) "reset" []) [])) SSkip))).
Proof. eexists. vm_compute. reflexivity. Qed.
(** Definitions that do not compile. *)
Definition bad_optional : edef :=
  EDef "Bad" [Var "nodes" "Nodes" true false false] [include "EntityTable"; include "Node"] [TDef "nodes" "EntityTable" [TN "entity_ref"; TN "Node"] []].
Definition bad_vector : edef :=
  EDef "Bad" [Var "nodes" "Nodes" false true false] [include "EntityTable"; include "Node"] [TDef "nodes" "EntityTable" [TN "entity_ref"; TN "Node"] []].
Definition bad_entity : edef := EDef "Bad" [plain_var "Node" "Only"] [include "Node"] [].
Definition bad_flags : edef :=
  EDef "Bad" [plain_var "nodes" "Nodes"] [include "EntityTable"; include "Node"] [TDef "nodes" "EntityTable" [TN "entity_ref"; TN "Node"] ["ZeroKeys"]].
Definition with_node : world := add_class library "Node" Node.
Example C52_bad : forall d, In d [bad_optional; bad_vector; bad_entity; bad_flags] -> well_formed d /\ world_ok with_node d /\
  exists g, load "Bad" (header_lines (entity_of d)) (source_lines (entity_of d)) = Some g /\ compiles with_node g = false.
Proof.
  intros d i.
  assert (L : forall n, In n library_headers -> with_node n = None) by (intros n j; repeat (destruct j as [<-|j]; [reflexivity|]); destruct j).
  assert (Ww : world_ok with_node d).
  { repeat (destruct i as [<-|i]; [split; [exact L|split; [reflexivity|apply GenLex.has_iff; vm_compute; reflexivity]]|]). destruct i. }
  repeat (destruct i as [<-|i]; [split; [apply wellb_ok; vm_compute; reflexivity|split; [exact Ww|]]; eexists; split; [vm_compute; reflexivity|vm_compute; reflexivity]|]).
  destruct i.
Qed.
