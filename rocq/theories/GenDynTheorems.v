(** * GenDynTheorems: the generated file of dynamic types does what is meant, for all lists of types. Proofs. *)
From Coq Require Import Strings.String Strings.Ascii.
From Verif Require Import Base Bytes Types GenText CppText CppSem GenTextSpec GenLex GenRW CppFun GenRWEval GenDyn CppDyn GenTypes GenTypesSpec GenTypesFacts
  GenDynSpec GenDynAst GenDynParse GenDynFile GenDynCheck GenDynRun GenDynFind GenDynCalls.
Local Open Scope string_scope.
Local Open Scope list_scope.
Local Open Scope nat_scope.

Section File.
Context {W R : Type} (h : dhost W R) (l : list base_type) (tab : gtable string ctype) (fuel : nat).
Local Notation pg := (a_program l tab).
Definition base : list ddecl := a_table tab :: map cls (rev (combos l)) ++ [a_abstract; a_struct].
Lemma decls_rev : rev (pg_decls pg) = rev a_functions ++ a_find :: base.
Proof.
  unfold a_program. cbn [pg_decls]. change (a_struct :: a_abstract :: all_combos l a_class ++ a_table tab :: a_find :: a_functions)
    with ([a_struct; a_abstract] ++ all_combos l a_class ++ [a_table tab; a_find] ++ a_functions).
  rewrite !rev_app_distr, <- !app_assoc. f_equal. change (rev [a_table tab; a_find]) with [a_find; a_table tab]. cbn [app]. unfold base. do 2 f_equal.
  rewrite all_combos_map, map_rev. reflexivity.
Qed.
(** The declarations in front of a function: [fs] are functions. *)
Definition fun_only (fs : list ddecl) : bool := forallb (fun d => match d with DFun _ _ _ _ _ _ => true | _ => false end) fs.
Lemma skip_struct n fs ds : fun_only fs = true -> find_struct n (fs ++ ds) = find_struct n ds.
Proof. induction fs as [|f r IH]; cbn [app]; intros H; [reflexivity|]. cbn [fun_only forallb] in H. destruct f; try discriminate H. exact (IH H). Qed.
Lemma skip_abstract n fs ds : fun_only fs = true -> find_abstract n (fs ++ ds) = find_abstract n ds.
Proof. induction fs as [|f r IH]; cbn [app]; intros H; [reflexivity|]. cbn [fun_only forallb] in H. destruct f; try discriminate H. exact (IH H). Qed.
Lemma skip_table n fs ds : fun_only fs = true -> find_table n (fs ++ ds) = find_table n ds.
Proof. induction fs as [|f r IH]; cbn [app]; intros H; [reflexivity|]. cbn [fun_only forallb] in H. destruct f; try discriminate H. exact (IH H). Qed.
Lemma skip_object n fs ds : fun_only fs = true -> find_object n (fs ++ ds) = find_object n ds.
Proof. induction fs as [|f r IH]; cbn [app]; intros H; [reflexivity|]. cbn [fun_only forallb] in H. destruct f; try discriminate H. exact (IH H). Qed.
Definition same_body : param * dstmt := match a_struct with DStruct _ _ p s => (p, s) | _ => (Par true tcombo ByRef "other", TSkip) end.
Lemma base_struct : find_struct "type_combo" base = Some (combo_fields, same_body).
Proof. unfold base. change (find_struct "type_combo" (map cls (rev (combos l)) ++ [a_abstract; a_struct]) = Some (combo_fields, same_body)). rewrite find_struct_cls. reflexivity. Qed.
Lemma base_abstract : find_abstract "_dynamicTypeClass" base = Some (methods (fun _ => None)).
Proof. unfold base. change (find_abstract "_dynamicTypeClass" (map cls (rev (combos l)) ++ [a_abstract; a_struct]) = Some (methods (fun _ => None))). rewrite find_abstract_cls. reflexivity. Qed.
Lemma base_object n c : In n (type_names_of l) -> find_object (obj_name n c) base = Some ("_dynamicTypeClass", methods (bodies (combo_type n c))).
Proof.
  intros i. unfold base. change (find_object (obj_name n c) (map cls (rev (combos l)) ++ [a_abstract; a_struct]) = Some ("_dynamicTypeClass", methods (bodies (combo_type n c)))).
  apply find_object_cls. rewrite <- in_rev. apply in_combos. exact i.
Qed.

(** The member functions of an object. *)
Section Virtual.
Context (fs : list ddecl) (Hfs : fun_only fs = true) (n : string) (c : ctype) (Hn : In n (type_names_of l)) (Hg : g_type h n = true).
Local Notation o := (obj_name n c).
Local Notation run := (run_virtual h pg fuel (fs ++ base) o).
Local Notation K := (scope h pg fuel (fs ++ base) (fun _ _ _ _ => None) (run_special h pg fuel)).
Lemma run_meth f args w : run f args w =
  match find_meth f (methods (bodies (combo_type n c))) with
  | Some (Me cc t p _ ps (Some s)) => invoke h K fuel cc t p ps s [] args w
  | _ => None
  end.
Proof. unfold run_virtual. rewrite skip_object, (base_object n c Hn) by exact Hfs. reflexivity. Qed.
Lemma v_new w : run "New" [] w
  = oret (UPtr false None (length (wo_heap w)), World (wo_heap w ++ [Some (n, fresh (g_new h n) c)]) (wo_writer w) (wo_reader w)).
Proof. rewrite run_meth. exact (m_new h K fuel n c Hg w). Qed.
Lemma v_delete a w : run "Delete" [UPtr false None a] w = as_object w a n c (fun _ => oret (UVoid, store_at w a None)).
Proof. rewrite run_meth. exact (m_delete h K fuel n c Hg a w). Qed.
Lemma v_clear a w : run "Clear" [UPtr false None a] w = as_object w a n c (fun _ => oret (UVoid, store_at w a (Some (n, fresh (g_zero h n) c)))).
Proof. rewrite run_meth. apply (m_clear h K fuel n c Hg a w). exact (clear_runs h l tab fuel n c a w Hn Hg). Qed.
Lemma v_write a w : run "Write" [UKey; ULen; UWriter; UPtr true None a] w
  = as_object w a n c (fun v => obind (g_write h n v (wo_writer w)) (fun r => answer (fst r) (World (wo_heap w) (snd r) (wo_reader w)))).
Proof. rewrite run_meth. exact (m_write h K fuel n c Hg true a w). Qed.
Lemma v_read a w : run "Read" [UKey; ULen; UReader; UPtr false None a] w
  = as_object w a n c (fun v => obind (g_read h n v (wo_reader w)) (fun r =>
      answer (fst (fst r)) (World (set_at (wo_heap w) a (Some (n, snd (fst r)))) (wo_writer w) (snd r)))).
Proof. rewrite run_meth. exact (m_read h K fuel n c Hg a w). Qed.
Lemma v_copy a b w : run "Copy" [UPtr false None a; UPtr true None b] w
  = as_object w a n c (fun _ => as_object w b n c (fun v => oret (UVoid, store_at w a (Some (n, v))))).
Proof. rewrite run_meth. exact (m_copy h K fuel n c Hg true a b w). Qed.
Lemma v_equals a b w : run "Equals" [UPtr true None a; UPtr true None b] w
  = as_object w a n c (fun v => as_object w b n c (fun u => answer (g_eq h n v u) w)).
Proof. rewrite run_meth. exact (m_equals h K fuel n c Hg true true a b w). Qed.
Lemma v_type d w : NoDup (type_names_of l) -> numbered (by_base l) d n -> run "Type" [] w = oret (rec d (ct_id c), w).
Proof.
  intros N H. rewrite run_meth. destruct (stat_type h l tab d n c N H) as [S1 S2].
  apply (m_type h K fuel n c d (ct_id c) w combo_fields S1 S2); [|reflexivity]. unfold scope. cbn [k_struct]. rewrite skip_struct, base_struct by exact Hfs. reflexivity.
Qed.
End Virtual.

(** operator== of the pair of ids. *)
Lemma same_runs fs d1 k1 d2 k2 (w : world W R) : fun_only fs = true -> struct_same h pg fuel (fs ++ base) "type_combo" (rec d1 k1) (rec d2 k2) w
  = oret ((d2 =? d1) && (k2 =? k1))%N%bool.
Proof.
  intros Hfs. unfold struct_same. rewrite skip_struct, base_struct by exact Hfs. unfold same_body, a_struct, invoke. cbn. destruct (d2 =? d1)%N; cbn; [|reflexivity].
  destruct (k2 =? k1)%N; reflexivity.
Qed.

(** The lookup. *)
Context (HP : dyn_proper l) (HD : declared l h) (HL : @holds string ctype 577 109 991 tab (entries (by_base l) containers)) (Hfuel : 577 < fuel).
Lemma tab_entry e : In (Some e) tab -> numbered (by_base l) (en_dt e) (en_variant e) /\ en_ct e = ct_id (en_container e).
Proof.
  intros i. apply In_nth_error in i. destruct i as (p & i). destruct HL as (_ & _ & _ & H). apply H in i. apply entries_in in i. destruct i as (i1 & i2).
  split; [exact i1|]. cbn in i2. decompose [or] i2; try contradiction; match goal with E : (_, _) = _ |- _ => injection E as E1 E2; rewrite <- E2, <- E1; reflexivity end.
Qed.
Lemma numbered_name d n : numbered (by_base l) d n -> In n (type_names_of l).
Proof. intros H. apply enum_in in H. rewrite <- enum_names. apply in_map_iff. exists (d, n). auto. Qed.
Lemma found_entry d k : exists r, gen_find 577 109 991 (pred fuel) tab d k = Some r /\
  forall t c, type_at (Some r) = Some (t, c) <-> listed l d k t c.
Proof.
  destruct HP as (_ & _ & HU & HB & HS).
  assert (Len : length (entries (by_base l) containers) < 577).
  { rewrite entries_len. exact HS. }
  destruct (find_spec 577 109 991 tab (entries (by_base l) containers) (pred fuel) d k HL Len ltac:(lia)) as (r & Er & Hr).
  - intros x Hx. apply entries_in in Hx. destruct Hx as (X1 & X2). apply HB in X1.
    assert (Q : (en_ct x <= 33)%N) by (cbn in X2; decompose [or] X2; try contradiction; match goal with E : (_, _) = _ |- _ => injection E as <- _; discriminate end).
    change (2 ^ 31)%N with 2147483648%N in X1. change (2 ^ 64)%N with 18446744073709551616%N. lia.
  - apply entries_unique; [exact HU|]. cbn. repeat constructor; cbn; intuition discriminate.
  - exists r. split; [exact Er|]. intros t c. unfold type_at, listed. split.
    + destruct r as [x|]; [|discriminate]. intros E. injection E as <- <-. destruct (proj1 (Hr x) eq_refl) as (X1 & <- & <-).
      apply entries_in in X1. destruct X1 as (X1 & X2). split; [exact X1|]. cbn in X2. decompose [or] X2; try contradiction; match goal with E : (_, _) = _ |- _ => injection E as E1 E2; rewrite <- E2, <- E1; reflexivity end.
    + intros (X1 & ->). assert (Y : r = Some (Entry d (ct_id c) t c)).
      { apply Hr. split; [|auto]. apply entries_in. cbn [en_dt en_variant en_ct en_container]. split; [exact X1|]. destruct c; cbn; auto 8. }
      rewrite Y. reflexivity.
Qed.
Definition find_function : string -> list dv -> world W R -> O (dv * world W R) :=
  fun f => run_function h pg fuel (a_find :: base) f.
Lemma find_runs d k found w : (forall t c, found = Some (t, c) <-> listed l d k t c) ->
  find_function "_findTypeClass" [UBraces [UEnum "data_type_index" d; UEnum "container_type_index" k]] w
  = oret (class_value (option_map (fun p => obj_name (fst p) (snd p)) found), w).
Proof.
  intros HX. destruct (found_entry d k) as (r & Er & Hr).
  assert (E : type_at (Some r) = found).
  { destruct found as [[t c]|].
    - apply Hr. apply HX. reflexivity.
    - destruct (type_at (Some r)) as [[t c]|] eqn:T; [|reflexivity]. pose proof (proj1 (Hr t c) eq_refl) as Y. apply HX in Y. discriminate Y. }
  change (find_function "_findTypeClass" [UBraces [UEnum "data_type_index" d; UEnum "container_type_index" k]] w)
    with (enter h (scope h pg fuel base (run_virtual h pg fuel base) (run_function h pg fuel base)) fuel a_find
            [UBraces [UEnum "data_type_index" d; UEnum "container_type_index" k]] w).
  rewrite find_braces by (unfold scope; cbn [k_struct]; rewrite base_struct; reflexivity).
  rewrite (find_enters h _ fuel tab w d k (pred fuel) r).
  - rewrite E. destruct found as [[t c]|]; reflexivity.
  - unfold scope. cbn [k_table]. reflexivity.
  - intros e i. destruct (tab_entry e i) as (I1 & I2). unfold scope. cbn [k_virtual]. rewrite I2.
    apply (v_type [] eq_refl (en_variant e) (en_container e) (numbered_name _ _ I1) (en_dt e) w); [apply HP|exact I1].
  - intros d' k'. unfold scope. cbn [k_same]. exact (same_runs [] d' k' d k w eq_refl).
  - unfold scope. cbn [k_class]. rewrite base_abstract. reflexivity.
  - lia.
  - exact Er.
Qed.

(** Every function. *)
Definition before (i : nat) : list ddecl := rev (firstn i a_functions) ++ a_find :: base.
Definition around_fn (i : nat) : around W R := scope h pg fuel (before i) (run_virtual h pg fuel (before i)) (run_function h pg fuel (before i)).
Definition index_of (q : request) : nat :=
  match q with RNew => 0 | RDelete _ => 1 | RClear _ => 2 | RWrite _ => 3 | RRead _ => 4 | RCopy _ _ => 5 | REquals _ _ => 6 end.
Lemma function_entered q args w : run_function h pg fuel (rev a_functions ++ a_find :: base) (function_name q) args w
  = enter h (around_fn (index_of q)) fuel (fn (index_of q)) args w.
Proof. destruct q; reflexivity. Qed.
Lemma around_find i args w : i < 7 -> k_fun (around_fn i) "_findTypeClass" args w = find_function "_findTypeClass" args w.
Proof. intros H. do 7 (destruct i as [|i]; [reflexivity|]). lia. Qed.
Lemma functions_only i : fun_only (rev (firstn i a_functions) ++ [a_find]) = true.
Proof.
  unfold fun_only. rewrite forallb_app. apply andb_true_intro. split; [|reflexivity]. apply forallb_forall. intros x Hx. apply in_rev in Hx.
  assert (Y : In x a_functions) by (rewrite <- (firstn_skipn i a_functions); apply in_or_app; left; exact Hx).
  clear Hx. revert x Y. apply forallb_forall. reflexivity.
Qed.
Lemma before_base i : before i = (rev (firstn i a_functions) ++ [a_find]) ++ base.
Proof. unfold before. rewrite <- app_assoc. reflexivity. Qed.
Lemma around_class i : k_class (around_fn i) "_dynamicTypeClass" = true.
Proof. unfold around_fn, scope. cbn [k_class]. rewrite before_base, skip_abstract, base_abstract by apply functions_only. reflexivity. Qed.
Lemma listed_ok d k t c : listed l d k t c -> In t (type_names_of l) /\ g_type h t = true.
Proof. intros (H & _). apply numbered_name in H. split; [exact H|apply HD; exact H]. Qed.
Lemma answers_boolean b (w : world W R) : boolean_result (answer b w).
Proof. intros v u E. injection E as <- _. eauto. Qed.
Lemma as_boolean (w : world W R) a t c (f : cval -> O (dv * world W R)) : (forall v, boolean_result (f v)) -> boolean_result (as_object w a t c f).
Proof. intros H v u E. unfold as_object in E. destruct (nth_error (wo_heap w) a) as [[[x y]|]|]; try discriminate E. destruct (String.eqb t x && ctype_eqb c (cval_ctype y)); [|discriminate E]. exact (H _ _ _ E). Qed.
Lemma bind_boolean {A} (m : O A) (f : A -> O (dv * world W R)) : (forall v, boolean_result (f v)) -> boolean_result (obind m f).
Proof. intros H v u E. destruct m as [[x| |]|]; try discriminate E. exact (H _ _ _ E). Qed.
Lemma then_as {A} (w : world W R) a t c (f : cval -> O A) (g : A -> O (dv * world W R)) : obind (as_object w a t c f) g = as_object w a t c (fun v => obind (f v) g).
Proof. unfold as_object. destruct (nth_error (wo_heap w) a) as [[[x y]|]|]; try reflexivity. destruct (String.eqb t x && ctype_eqb c (cval_ctype y)); reflexivity. Qed.
Theorem calls_meant d k found q w kc : (forall t c, found = Some (t, c) <-> listed l d k t c) ->
  run_program h pg fuel (function_name q) (arguments kc d k q) w = meant h found q w.
Proof.
  intros HX. assert (HLen : length tab = 577) by apply HL.
  assert (HO : of_list l tab) by (intros e i; apply tab_entry in i; exact (numbered_name _ _ (proj1 i))).
  unfold run_program. rewrite (program_compiles l tab HP HO HLen). rewrite decls_rev, function_entered.
  set (ob := option_map (fun p => obj_name (fst p) (snd p)) found).
  assert (HF : forall i, i < 7 -> k_fun (around_fn i) "_findTypeClass" [UBraces [D d; C k]] w = oret (class_value ob, w)).
  { intros i Hi. rewrite around_find by exact Hi. apply find_runs. exact HX. }
  assert (VV : forall (t : string) (c : ctype), found = Some (t, c) -> In t (type_names_of l) /\ g_type h t = true) by (intros t c E; apply HX in E; exact (listed_ok _ _ _ _ E)).
  assert (N1 : forall x, or_false w (option_map (fun p => obj_name (fst p) (snd p)) (@None (string * ctype))) x = answer false w) by reflexivity.
  destruct q as [|p|p|p|p|p p'|p p']; cbn [index_of].
  - change (arguments kc d k RNew) with [D d; C k]. destruct found as [[t c]|].
    + destruct (VV t c eq_refl) as (T1 & T2). rewrite (f_new h _ fuel d k w ob (HF 0 ltac:(lia)) (around_class 0) (length (wo_heap w)) (World (wo_heap w ++ [Some (t, fresh (g_new h t) c)]) (wo_writer w) (wo_reader w))); [reflexivity|].
      intros o Ho. injection Ho as <-. unfold around_fn, scope. cbn [k_virtual]. rewrite before_base. exact (v_new _ (functions_only 0) t c T1 T2 w).
    + rewrite (f_new h _ fuel d k w ob (HF 0 ltac:(lia)) (around_class 0) 0 w); [reflexivity|]. intros o Ho. discriminate Ho.
  - destruct p as [a|]; [|rewrite (f_null h (around_fn 1) fuel d k w 1 (RDelete None)) by (cbn; auto); destruct found as [[t c]|]; reflexivity].
    destruct found as [[t c]|].
    + destruct (VV t c eq_refl) as (T1 & T2). erewrite (f_delete h _ fuel d k w ob (HF 1 ltac:(lia)) (around_class 1) kc a).
      2:{ intros o Ho. injection Ho as <-. unfold around_fn, scope. cbn [k_virtual]. rewrite before_base. exact (v_delete _ (functions_only 1) t c T1 T2 a w). }
      unfold or_false, then_true. cbn [ob option_map meant]. rewrite then_as. reflexivity.
    + erewrite (f_delete h _ fuel d k w ob (HF 1 ltac:(lia)) (around_class 1) kc a (answer false w)); [reflexivity|]. intros o Ho. discriminate Ho.
  - destruct p as [a|]; [|rewrite (f_null h (around_fn 2) fuel d k w 2 (RClear None)) by (cbn; auto); destruct found as [[t c]|]; reflexivity].
    destruct found as [[t c]|].
    + destruct (VV t c eq_refl) as (T1 & T2). erewrite (f_clear h _ fuel d k w ob (HF 2 ltac:(lia)) (around_class 2) kc a).
      2:{ intros o Ho. injection Ho as <-. unfold around_fn, scope. cbn [k_virtual]. rewrite before_base. exact (v_clear _ (functions_only 2) t c T1 T2 a w). }
      unfold or_false, then_true. cbn [ob option_map meant]. rewrite then_as. reflexivity.
    + erewrite (f_clear h _ fuel d k w ob (HF 2 ltac:(lia)) (around_class 2) kc a (answer false w)); [reflexivity|]. intros o Ho. discriminate Ho.
  - destruct p as [a|]; [|rewrite (f_null h (around_fn 3) fuel d k w 3 (RWrite None)) by (cbn; auto); destruct found as [[t c]|]; reflexivity].
    destruct found as [[t c]|].
    + destruct (VV t c eq_refl) as (T1 & T2). erewrite (f_write h _ fuel d k w ob (HF 3 ltac:(lia)) (around_class 3) kc a).
      2:{ intros o Ho. injection Ho as <-. unfold around_fn, scope. cbn [k_virtual]. rewrite before_base. exact (v_write _ (functions_only 3) t c T1 T2 a w). }
      2:{ apply as_boolean. intros v. apply bind_boolean. intros r. apply answers_boolean. }
      reflexivity.
    + erewrite (f_write h _ fuel d k w ob (HF 3 ltac:(lia)) (around_class 3) kc a (answer false w)); [reflexivity| |apply answers_boolean]. intros o Ho. discriminate Ho.
  - destruct p as [a|]; [|rewrite (f_null h (around_fn 4) fuel d k w 4 (RRead None)) by (cbn; auto); destruct found as [[t c]|]; reflexivity].
    destruct found as [[t c]|].
    + destruct (VV t c eq_refl) as (T1 & T2). erewrite (f_read h _ fuel d k w ob (HF 4 ltac:(lia)) (around_class 4) kc a).
      2:{ intros o Ho. injection Ho as <-. unfold around_fn, scope. cbn [k_virtual]. rewrite before_base. exact (v_read _ (functions_only 4) t c T1 T2 a w). }
      2:{ apply as_boolean. intros v. apply bind_boolean. intros r. apply answers_boolean. }
      reflexivity.
    + erewrite (f_read h _ fuel d k w ob (HF 4 ltac:(lia)) (around_class 4) kc a (answer false w)); [reflexivity| |apply answers_boolean]. intros o Ho. discriminate Ho.
  - destruct p as [a|], p' as [b|].
    2:{ rewrite (f_null3 h (around_fn 5) fuel d k w a 5 (RCopy (Some a) None)) by (cbn; auto). destruct found as [[t c]|]; reflexivity. }
    2:{ rewrite (f_null3 h (around_fn 5) fuel d k w b 5 (RCopy None (Some b))) by (cbn; auto). destruct found as [[t c]|]; reflexivity. }
    2:{ rewrite (f_null2 h (around_fn 5) fuel d k w 5 (RCopy None None)) by (cbn; auto). destruct found as [[t c]|]; reflexivity. }
    destruct found as [[t c]|].
    + destruct (VV t c eq_refl) as (T1 & T2). erewrite (f_copy h _ fuel d k w ob (HF 5 ltac:(lia)) (around_class 5) kc a b).
      2:{ intros o Ho. injection Ho as <-. unfold around_fn, scope. cbn [k_virtual]. rewrite before_base. exact (v_copy _ (functions_only 5) t c T1 T2 a b w). }
      unfold or_false, then_true. cbn [ob option_map meant]. rewrite then_as. unfold as_object. destruct (nth_error (wo_heap w) a) as [[[x y]|]|]; try reflexivity.
      destruct (String.eqb t x && ctype_eqb c (cval_ctype y)); [|reflexivity]. exact (then_as w b t c _ _).
    + erewrite (f_copy h _ fuel d k w ob (HF 5 ltac:(lia)) (around_class 5) kc a b (answer false w)); [reflexivity|]. intros o Ho. discriminate Ho.
  - destruct p as [a|], p' as [b|].
    2:{ rewrite (f_null3 h (around_fn 6) fuel d k w a 6 (REquals (Some a) None)) by (cbn; auto). destruct found as [[t c]|]; reflexivity. }
    2:{ rewrite (f_null3 h (around_fn 6) fuel d k w b 6 (REquals None (Some b))) by (cbn; auto). destruct found as [[t c]|]; reflexivity. }
    2:{ rewrite (f_null2 h (around_fn 6) fuel d k w 6 (REquals None None)) by (cbn; auto). destruct found as [[t c]|]; reflexivity. }
    destruct found as [[t c]|].
    + destruct (VV t c eq_refl) as (T1 & T2). erewrite (f_equals h _ fuel d k w ob (HF 6 ltac:(lia)) (around_class 6) kc a b).
      2:{ intros o Ho. injection Ho as <-. unfold around_fn, scope. cbn [k_virtual]. rewrite before_base. exact (v_equals _ (functions_only 6) t c T1 T2 a b w). }
      2:{ apply as_boolean. intros v. apply as_boolean. intros r. apply answers_boolean. }
      reflexivity.
    + erewrite (f_equals h _ fuel d k w ob (HF 6 ltac:(lia)) (around_class 6) kc a b (answer false w)); [reflexivity| |apply answers_boolean]. intros o Ho. discriminate Ho.
Qed.
End File.

(** The file is generated, for every budget of the generator that is not too small. *)
Lemma generated (l : list base_type) n : dyn_proper l -> 577 <= n -> exists tab, @holds string ctype 577 109 991 tab (entries (by_base l) containers) /\
  dyn_source n l = Some (dyn_head ++ for_all_combos l dyn_class ++ dyn_table_head ++ map table_line tab ++ dyn_find ++ dyn_functions).
Proof.
  intros HP Hn. assert (Len : length (entries (by_base l) containers) < 577) by (rewrite entries_len; apply HP).
  destruct (holds_fill 577 109 991 n Hn (entries (by_base l) containers) (repeat None 577) [] (holds_empty 577 109 991)) as (tab & E & Ht); [cbn [length]; lia|].
  exists tab. split; [exact Ht|]. unfold dyn_source, dyn_table, gen_table. change (type_lists l) with (by_base l). rewrite E. reflexivity.
Qed.
Theorem dynamic_types (l : list base_type) n {W R} (h : dhost W R) : dyn_proper l -> declared l h -> 577 <= n ->
  exists text pg, dyn_source n l = Some text /\
    parse_program [enum_text l; container_enum_text] (comb_header l) (comb_source l) text = Some pg /\ compiles pg = true /\
    forall d k, exists found, (forall t c, found = Some (t, c) <-> listed l d k t c) /\
      forall fuel kc q w, 577 < fuel -> run_program h pg fuel (function_name q) (arguments kc d k q) w = meant h found q w.
Proof.
  intros HP HD Hn. destruct (generated l n HP Hn) as (tab & HL & E). exists (dyn_head ++ for_all_combos l dyn_class ++ dyn_table_head ++ map table_line tab ++ dyn_find ++ dyn_functions), (a_program l tab).
  assert (HO : of_list l tab) by (intros e i; apply (tab_entry l tab HL) in i; exact (numbered_name l _ _ (proj1 i))).
  split; [exact E|]. split; [|split].
  - apply program_parses; [exact (proper_names l HP)|]. intros e i. apply (proper_names l HP). exact (HO e i).
  - apply program_compiles; [exact HP|exact HO|apply HL].
  - intros d k. destruct (found_entry l tab 578 HP HL ltac:(lia) d k) as (r & _ & Hr). exists (type_at (Some r)). split; [exact Hr|].
    intros fuel kc q w Hf. apply (calls_meant h l tab fuel HP HD HL Hf d k _ q w kc Hr).
Qed.
