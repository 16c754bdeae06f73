(** * Properties_GenAll: C56, a whole run of the code generator. *)
From Coq Require Import Strings.String.
From Verif Require Import Base Types GenText CppText CppSem GenTextSpec GenRW GenRWSpec GenTypes GenDyn GenDynSpec GenFiles GenFilesSpec GenFilesFacts GenAll GenAllSpec GenAllFacts GenAllTheorems
  Properties_GenText Properties_GenRW Properties_GenDyn.
Local Open Scope string_scope.
Local Open Scope list_scope.
Local Open Scope nat_scope.

(** ** C56: for all lists of data types and all entities the generator can be used with, on both platforms, from any state of the
    files: when a run of the whole generator has finished, the files on the disk, read as a compiler reads them, are programs that mean what the
    data types and the entities stand for (C52 to C55), every data type is tested, and no other file was touched. *)
Theorem C56_generated : forall pl chunk n l W defs W' k fs fs', flushes chunk -> proper l -> dyn_proper l -> 577 <= n -> generable W defs W' ->
  run_generator pl chunk n l (map entity_of defs) k fs = Some (true, fs') ->
  project_says l W W' defs fs' /\
  (forall t, In t (type_names_of l) -> In ("            DynamicValueTester<" ^^ t ^^ ">();") (seen fs' "../Tests/DynamicTypesTests.cpp")) /\
  (forall p, ~ generated defs p -> fs' (list_byte_of_string p) = fs (list_byte_of_string p)).
Proof.
  intros pl chunk n l W defs W' k fs fs' F P D Hn G R. destruct (run_is _ _ _ _ _ _ _ _ R) as (dyn & E & R1). clear R. rename R1 into R.
  destruct (run_shows pl chunk n l dyn defs k fs fs' F P E (proj1 (proj2 G)) (well_of W defs W' G) R) as [A B].
  split; [exact (says l W W' defs n dyn fs' P D Hn G E A)|]. split; [|exact B].
  intros t i. rewrite (A "../Tests/DynamicTypesTests.cpp" (tests_lines l)) by (unfold targets; do 10 right; left; reflexivity). exact (tests_hold l t i).
Qed.
Print Assumptions C56_generated.

(** A run ends, and it finishes unless it is interrupted, if the files can be read. *)
Theorem C56_finishes : forall pl chunk n l ents fs, flushes chunk -> dyn_proper l -> 577 <= n -> readable fs ->
  exists k0, forall k, k0 <= k -> exists fs', run_generator pl chunk n l ents k fs = Some (true, fs').
Proof.
  intros pl chunk n l ents fs F D Hn R. destruct (dyn_ends l n D Hn) as (dyn & E). unfold run_generator. rewrite E.
  destruct (t_finishes pl chunk (map as_bytes (targets l dyn ents)) fs F R) as (k0 & H). exists k0. intros k Hk. destruct (H k Hk) as (fs' & G). exists fs'. rewrite G. reflexivity.
Qed.
Print Assumptions C56_finishes.

(** Windows: after any runs of any versions of the generator, each interrupted anywhere or finished, a run that is not interrupted finishes
    and all files mean what they must. *)
Theorem C56_recovers : forall chunk n l W defs W' fs fs1, readable fs -> runs Windows fs fs1 -> flushes chunk -> proper l -> dyn_proper l -> 577 <= n -> generable W defs W' ->
  exists k0, forall k, k0 <= k -> exists fs2, run_generator Windows chunk n l (map entity_of defs) k fs1 = Some (true, fs2) /\ project_says l W W' defs fs2.
Proof.
  intros chunk n l W defs W' fs fs1 R H F P D Hn G. destruct (dyn_ends l n D Hn) as (dyn & E).
  destruct (t_recovers chunk (map as_bytes (targets l dyn (map entity_of defs))) fs fs1 R H F (byte_paths_distinct l dyn defs (proj1 (proj2 G)) (well_of W defs W' G))
    (byte_lines_plain l n dyn defs P E (well_of W defs W' G))) as (k0 & K). exists k0. intros k Hk. destruct (K k Hk) as (fs2 & A & B). exists fs2. unfold run_generator. rewrite E, A.
  split; [reflexivity|]. apply (says l W W' defs n dyn fs2 P D Hn G E). exact (shown_seen l n dyn defs fs2 P E (well_of W defs W' G) B).
Qed.
Print Assumptions C56_recovers.

(** Running the generator again changes nothing: the second run makes no change to any file. *)
Theorem C56_again : forall pl chunk chunk' n l W defs W' k fs fs', flushes chunk -> proper l -> dyn_proper l -> 577 <= n -> generable W defs W' ->
  run_generator pl chunk n l (map entity_of defs) k fs = Some (true, fs') ->
  exists fs'', run_generator pl chunk' n l (map entity_of defs) 0 fs' = Some (true, fs'') /\ forall p, fs'' p = fs' p.
Proof.
  intros pl chunk chunk' n l W defs W' k fs fs' F P D Hn G R. destruct (run_is _ _ _ _ _ _ _ _ R) as (dyn & E & R1). clear R. rename R1 into R.
  destruct (t_again pl chunk chunk' _ k fs fs' F (byte_paths_distinct l dyn defs (proj1 (proj2 G)) (well_of W defs W' G)) (byte_lines_plain l n dyn defs P E (well_of W defs W' G)) R) as (fs'' & A & B).
  exists fs''. unfold run_generator. rewrite E, A. auto.
Qed.
Print Assumptions C56_again.

(** ** Findings *)
(** An entity with the name of a header of the library replaces that header, although the definition is fine in itself: whatever
    ISD_Varying.h was, afterwards it is the header of the entity. *)
Definition named (n : string) : edef := EDef n [] [] [].
Theorem C56_overwrites_refuted : exists W W', generable W [named "Varying"] W' /\
  forall pl chunk n k fs fs', flushes chunk -> 577 <= n -> run_generator pl chunk n isd_types (map entity_of [named "Varying"]) k fs = Some (true, fs') ->
  seen fs' "../ISD/ISD_Varying.h" = header_lines (entity_of (named "Varying")).
Proof.
  exists (fun _ => None). eexists. split.
  - split; [vm_compute; reflexivity|]. split; [|split; [intros n _; reflexivity|]].
    + split; [apply nodupb_ok; vm_compute; reflexivity|]. intros d [<-|[]]. apply GenLex.has_iff. vm_compute. reflexivity.
    + intros d [<-|[]]. split; [apply wellb_ok; vm_compute; reflexivity|]. split; [reflexivity|]. apply GenLex.has_iff. vm_compute. reflexivity.
  - intros pl chunk n k fs fs' F Hn R. destruct (run_is _ _ _ _ _ _ _ _ R) as (dyn & E & R1). clear R. rename R1 into R.
    apply (last_seen pl chunk isd_types dyn [] (named "Varying") k fs fs' F); [apply wellb_ok; vm_compute; reflexivity|exact R].
Qed.
Print Assumptions C56_overwrites_refuted.
(** An entity with the name of a generated file replaces that file in the same run: the enumeration of the data types is gone. *)
Theorem C56_taken_name_refuted : well_formed (named "DataTypes") /\
  forall pl chunk n l k fs fs', flushes chunk -> run_generator pl chunk n l (map entity_of [named "DataTypes"]) k fs = Some (true, fs') ->
  ~ In "	enum class data_type_index" (seen fs' "../ISD/ISD_DataTypes.h").
Proof.
  assert (Wf : well_formed (named "DataTypes")) by (apply wellb_ok; vm_compute; reflexivity). split; [exact Wf|].
  intros pl chunk n l k fs fs' F R. destruct (run_is _ _ _ _ _ _ _ _ R) as (dyn & E & R1). clear R. rename R1 into R.
  destruct (last_seen pl chunk l dyn [] (named "DataTypes") k fs fs' F Wf R) as [A _]. cbn [named ed_name append] in A. cbn [append] in *. rewrite A. apply GenLex.has_iff. vm_compute. reflexivity.
Qed.
Print Assumptions C56_taken_name_refuted.

(** ** Witnesses *)
(** The data types and the entities of the project. *)
Example C56_the_project : proper isd_types /\ dyn_proper isd_types /\ exists W', generable library the_project W'.
Proof.
  split; [exact isd_types_proper|]. split; [exact isd_types_dyn|]. destruct C52_the_project as (W' & P & _ & _ & _ & _ & _ & _ & _ & Nd & L & D). exists W'.
  split; [exact P|]. split; [|split; [exact L|exact D]]. split; [exact Nd|]. intros d i. repeat (destruct i as [<-|i]; [apply GenLex.has_iff; vm_compute; reflexivity|]). destruct i.
Qed.
(** From an empty disk, a run of the project interrupted after three effects and then one that is not. *)
Example C56_run : exists fs1 k fs2, run_generator Windows (fun d => [d]) 577 isd_types (map entity_of the_project) 3 (fun _ => None) = Some (false, fs1) /\
  run_generator Windows (fun d => [d]) 577 isd_types (map entity_of the_project) k fs1 = Some (true, fs2).
Proof.
  destruct (dyn_ends isd_types 577 isd_types_dyn (le_n _)) as (dyn & E).
  assert (F : flushes (fun d => [d])) by (intros d; apply app_nil_r).
  assert (A : exists fs1, generate Windows (fun d => [d]) (map as_bytes (targets isd_types dyn (map entity_of the_project))) 3 (fun _ => None) = (false, fs1)).
  { unfold targets. cbn [map app as_bytes fst snd generate write_lines]. eexists. reflexivity. }
  destruct A as (fs1 & A). exists fs1.
  destruct (C56_finishes Windows (fun d => [d]) 577 isd_types (map entity_of the_project) fs1 F isd_types_dyn (le_n _)) as (k & K).
  { refine (generate_readable _ _ _ _ _ _ A _). intros p f X. discriminate X. }
  destruct (K k (le_n _)) as (fs2 & R). exists k, fs2. unfold run_generator at 1. rewrite E, A. auto.
Qed.
