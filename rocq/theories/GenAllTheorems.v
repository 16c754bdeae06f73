(** * GenAllTheorems: a finished run of the generator leaves files that say what they must. *)
From Coq Require Import Strings.String.
From Verif Require Import Base Bytes Values Types Keys GenText CppText CppSem GenTextSpec GenTextTheorems GenCheck GenRun GenLex GenRW CppFun GenRWSpec GenRWAst GenRWFile GenRWTheorems GenTypes GenDyn
  CppDyn GenDynSpec GenDynAst GenDynParse GenDynFile GenDynCheck GenDynRun GenDynFind GenDynCalls GenDynTheorems GenData CppData GenDataSpec GenDataFacts GenDataOps GenFiles GenFilesSpec GenFilesFacts GenAll GenAllSpec GenAllFacts Properties_GenText Properties_GenRW Properties_GenData.
Local Open Scope string_scope.
Local Open Scope list_scope.
Local Open Scope nat_scope.

Lemma dyn_ends l n : dyn_proper l -> 577 <= n -> exists dyn, dyn_source n l = Some dyn.
Proof. intros P N. destruct (GenDynTheorems.generated l n P N) as (tab & _ & E). eauto. Qed.
Lemma dynamic_holds l n dyn : dyn_proper l -> 577 <= n -> dyn_source n l = Some dyn -> dynamic_says l (data_header l) (comb_header l) (comb_source l) dyn.
Proof.
  intros HP Hn Ed. destruct (GenDynTheorems.generated l n HP Hn) as (tab & HL & E).
  assert (Q : dyn = dyn_head ++ for_all_combos l dyn_class ++ dyn_table_head ++ map table_line tab ++ dyn_find ++ dyn_functions) by congruence. subst dyn. clear Ed.
  assert (HO : of_list l tab) by (intros e i; apply (tab_entry l tab HL) in i; exact (numbered_name l _ _ (proj1 i))).
  eexists (data_head ++ data_scalars ++ data_limits ++ data_vectors ++ inl_package_ref ++ inl_entity_ref), (enum_text l), _, (a_program l tab).
  split; [unfold data_header; rewrite <- !app_assoc; reflexivity|]. split; [right; left; reflexivity|]. split; [apply GenLex.has_iff; vm_compute; reflexivity|].
  split; [apply program_parses; [exact (proper_names l HP)|]; intros e i; apply (proper_names l HP); exact (HO e i)|].
  split; [apply program_compiles; [exact HP|exact HO|apply HL]|].
  intros W R h HD d k. destruct (found_entry l tab 578 HP HL ltac:(lia) d k) as (r & _ & Hr). exists (type_at (Some r)). split; [exact Hr|].
  intros fuel kc q w Hf. apply (calls_meant h l tab fuel HP HD HL Hf d k _ q w kc Hr).
Qed.
Lemma data_holds : data_says (data_header isd_types) data_source pointers_header.
Proof.
  exists data_genv. split; [exact data_compiled|]. split; [|split; [exact zero_default|split; [exact inf_key|split; [exact sup_key|split; [exact text_keys|]]]]].
  - intros t. destruct (members t) as (_ & A & B & C & D & _). auto.
  - intros k a b. repeat (split; [first [exact (ref_default_text k)|exact (ref_copy_text k a)|exact (ref_move_text k a)|exact (ref_assign_text k a b)|exact (ref_take_text k a b)]|]).
    exact (text_bool k a).
Qed.
Lemma says l W W' defs n dyn fs : proper l -> dyn_proper l -> 577 <= n -> generable W defs W' -> dyn_source n l = Some dyn ->
  (forall p ls, In (p, ls) (targets l dyn (map entity_of defs)) -> seen fs p = ls) -> project_says l W W' defs fs.
Proof.
  intros P HP Hn (Pr & [Nd Fr] & L & D) E S. unfold project_says. cbv zeta.
  assert (T : forall n x ls, In (isd_path n x, ls) (targets l dyn (map entity_of defs)) -> seen fs ("../ISD/ISD_" ^^ n ^^ x) = ls) by (intros m x ls; exact (S _ ls)).
  assert (F : forall n x ls, In (isd_path n x, ls) (targets l dyn []) -> seen fs ("../ISD/ISD_" ^^ n ^^ x) = ls).
  { intros m x ls i. apply T. unfold targets in *. apply in_or_app. left. rewrite app_nil_r in i. exact i. }
  split; [|split; [|split; [|split]]].
  - rewrite (F "EntityWriter" ".h" (w_header l)) by (left; reflexivity). rewrite (F "EntityWriter" ".cpp" (w_source l)) by (right; left; reflexivity). exact (C53_writer_text l P).
  - rewrite (F "EntityReader" ".h" (r_header l)) by (right; right; left; reflexivity). rewrite (F "EntityReader" ".cpp" (r_source l)) by (right; right; right; left; reflexivity). exact (C53_reader_text l P).
  - rewrite (F "DataTypes" ".h" (data_header l)) by (right; right; right; right; left; reflexivity). rewrite (F "CombinedTypes" ".h" (comb_header l)) by (right; right; right; right; right; right; right; left; reflexivity).
    rewrite (F "CombinedTypes" ".cpp" (comb_source l)) by (right; right; right; right; right; right; right; right; left; reflexivity). rewrite (F "DynamicTypes" ".cpp" dyn) by (right; right; right; right; right; right; right; right; right; left; reflexivity). exact (dynamic_holds l n dyn HP Hn E).
  - intros ->. rewrite (F "DataTypes" ".h" (data_header isd_types)) by (right; right; right; right; left; reflexivity). rewrite (F "DataTypes" ".cpp" data_source) by (right; right; right; right; right; left; reflexivity).
    rewrite (F "DataValuePointers" ".h" pointers_header) by (right; right; right; right; right; right; left; reflexivity). exact data_holds.
  - intros a d b X. assert (i : In d defs) by (rewrite X; apply in_or_app; right; left; reflexivity).
    assert (j : forall t, In t (entity_targets (entity_of d)) -> In t (targets l dyn (map entity_of defs))).
    { intros t k. unfold targets. apply in_or_app. right. apply in_flat_map. exists (entity_of d). split; [apply in_map; exact i|exact k]. }
    rewrite (T (ed_name d) ".h" (header_lines (entity_of d))) by (apply j; left; reflexivity).
    rewrite (T (ed_name d) ".cpp" (source_lines (entity_of d))) by (apply j; right; left; reflexivity).
    exact (C52_projects W defs W' Pr Nd L D a d b X).
Qed.

(** ** Runs *)
Lemma shown_seen l n dyn defs fs : proper l -> dyn_source n l = Some dyn -> well defs ->
  (forall p ls, In (p, ls) (map as_bytes (targets l dyn (map entity_of defs))) -> exists f, fs p = Some f /\ shows f (text ls)) ->
  forall p ls, In (p, ls) (targets l dyn (map entity_of defs)) -> seen fs p = ls.
Proof.
  intros P E W H p ls i. destruct (H (list_byte_of_string p) (map list_byte_of_string ls)) as (f & A & B); [apply in_map_iff; exists (p, ls); auto|].
  exact (seen_lines fs p f ls A B (targets_ok l n dyn defs P E W p ls i)).
Qed.
Lemma run_shows pl chunk n l dyn defs k fs fs' : flushes chunk -> proper l -> dyn_source n l = Some dyn -> names_free defs -> well defs ->
  generate pl chunk (map as_bytes (targets l dyn (map entity_of defs))) k fs = (true, fs') ->
  (forall p ls, In (p, ls) (targets l dyn (map entity_of defs)) -> seen fs' p = ls) /\
  (forall p, ~ GenAllSpec.generated defs p -> fs' (list_byte_of_string p) = fs (list_byte_of_string p)).
Proof.
  intros F P E N W G. pose proof (byte_paths_distinct l dyn defs N W) as Nd. pose proof (byte_lines_plain l n dyn defs P E W) as Pl.
  destruct (t_complete _ _ _ _ _ _ F Nd G) as (A & B & _). split.
  - apply (shown_seen l n dyn defs fs' P E W). intros p ls i. exact (updated_shows _ _ _ _ (plain_text _ (Pl p ls i)) (A p ls i)).
  - intros p Np. apply B. rewrite byte_targets. intros i. apply in_map_iff in i. destruct i as (q & Q & i). apply bytes_inj in Q. subst q.
    exact (Np (generated_paths l dyn defs p i)).
Qed.
Lemma well_of W defs W' : generable W defs W' -> well defs.
Proof. intros (_ & _ & _ & D) d i. apply D. exact i. Qed.
(** Every type of the list is tested. *)
Lemma tests_hold l t : In t (type_names_of l) -> In ("            DynamicValueTester<" ^^ t ^^ ">();") (tests_lines l).
Proof.
  intros i. unfold tests_lines. apply in_or_app. right. apply in_or_app. right. apply in_or_app. right. apply in_or_app. left.
  unfold type_names_of, by_base in i. apply in_concat in i. destruct i as (x & i & j). apply in_map_iff in i. destruct i as (b & <- & i).
  apply in_flat_map. exists b. split; [exact i|]. apply in_map_iff in j. destruct j as (v & <- & j). apply in_map_iff. exists v. auto.
Qed.
(** The last file written to a path is the one that is seen. *)
Lemma generate_last pl chunk a b k fs fs' : generate pl chunk (a ++ b) k fs = (true, fs') -> exists k1 fs1, generate pl chunk b k1 fs1 = (true, fs').
Proof.
  revert k fs. induction a as [|[p ls] a IH]; intros k fs E; [exists k, fs; exact E|]. cbn [app generate] in E.
  destruct (write_lines pl chunk (fs p) ls) as [es|]; [|discriminate E]. destruct (play pl es k (fs p)) as [[k'|] f]; [|discriminate E]. exact (IH _ _ E).
Qed.
Lemma last_seen pl chunk l dyn defs d k fs fs' : flushes chunk -> well_formed d ->
  generate pl chunk (map as_bytes (targets l dyn (map entity_of (defs ++ [d])))) k fs = (true, fs') ->
  seen fs' ("../ISD/ISD_" ^^ ed_name d ^^ ".h") = header_lines (entity_of d) /\ seen fs' ("../ISD/ISD_" ^^ ed_name d ^^ ".cpp") = source_lines (entity_of d).
Proof.
  intros F Hd G. unfold targets in G. rewrite (map_app entity_of) in G. change (map entity_of [d]) with [entity_of d] in G. rewrite flat_map_app, app_assoc, (map_app as_bytes) in G. cbn [flat_map] in G. rewrite app_nil_r in G.
  apply generate_last in G. destruct G as (k1 & fs1 & G).
  assert (Nd : NoDup (map fst (map as_bytes (entity_targets (entity_of d))))).
  { cbn [map entity_targets as_bytes fst]. constructor; [|repeat constructor; intros []]. intros [E|[]]. apply bytes_inj in E. unfold isd_path in E. apply app_inj_l, app_inj_l in E. discriminate E. }
  destruct (t_complete _ _ _ _ _ _ F Nd G) as (A & _).
  assert (Q : forall p ls, In (p, ls) (entity_targets (entity_of d)) -> okls ls = true -> seen fs' p = ls).
  { intros p ls i O. destruct (updated_shows pl (map list_byte_of_string ls) (fs1 (list_byte_of_string p)) (fs' (list_byte_of_string p))) as (f & X & Y).
    - apply plain_text. intros x j. apply in_map_iff in j. destruct j as (y & <- & j). unfold okls in O. rewrite forallb_forall in O. apply okl_bytes. exact (O y j).
    - apply A. apply in_map_iff. exists (p, ls). auto.
    - exact (seen_lines fs' p f ls X Y O). }
  split; apply Q; [left; reflexivity|exact (header_ok d Hd)|right; left; reflexivity|exact (source_ok d Hd)].
Qed.
Lemma run_is pl chunk n l ents k fs r : run_generator pl chunk n l ents k fs = Some r ->
  exists dyn, dyn_source n l = Some dyn /\ generate pl chunk (map as_bytes (targets l dyn ents)) k fs = r.
Proof.
  unfold run_generator. destruct (dyn_source n l) as [dyn|]; [|discriminate]. intros E. exists dyn. split; [reflexivity|]. revert E.
  generalize (generate pl chunk (map as_bytes (targets l dyn ents)) k fs). intros x E. congruence.
Qed.
