(** * GenDynRun: the member functions of the generated classes, executed. Proofs. *)
From Coq Require Import Strings.String Strings.Ascii.
From Verif Require Import Base Types GenText CppText CppSem GenTextSpec GenLex GenRW CppFun GenRWEval GenDyn CppDyn GenTypes GenTypesSpec GenTypesFacts
  GenDynSpec GenDynAst GenDynParse GenDynFile GenDynCheck.
Local Open Scope string_scope.
Local Open Scope list_scope.
Local Open Scope nat_scope.

Lemma combo_named n c : type_named (combo_type n c) = Some (c, n). Proof. destruct c; reflexivity. Qed.
Lemma ctype_eqb_refl c : ctype_eqb c c = true. Proof. destruct c; reflexivity. Qed.
Lemma ctype_eqb_eq c d : ctype_eqb c d = true -> c = d. Proof. destruct c, d; try discriminate; reflexivity. Qed.
Lemma objtype_refl n c : objtype_eqb n c (c, n) = true.
Proof. unfold objtype_eqb. cbn [fst snd]. rewrite tyeqb_refl, ctype_eqb_refl. reflexivity. Qed.
(** An object as the specification sees it. *)
Section AsObject.
Context {W R : Type}.
Lemma as_object_at {A} (w : world W R) a t c (f : cval -> O A) : as_object w a t c f = obind (Some (object_at (wo_heap w) a t c)) f.
Proof.
  unfold as_object, object_at. destruct (nth_error (wo_heap w) a) as [[[u v]|]|]; try reflexivity.
  change (tyeqb t u) with (String.eqb t u). destruct (String.eqb t u && ctype_eqb c (cval_ctype v)); reflexivity.
Qed.
Lemma object_ctype hp a t c v : object_at hp a t c = Done v -> cval_ctype v = c.
Proof.
  unfold object_at. destruct (nth_error hp a) as [[[u x]|]|]; try discriminate. destruct (tyeqb t u && ctype_eqb c (cval_ctype x)) eqn:E; [|discriminate].
  intros H. injection H as ->. apply andb_prop in E. destruct E as [_ E]. symmetry. exact (ctype_eqb_eq _ _ E).
Qed.
End AsObject.

Section Methods.
Context {W R : Type} (h : dhost W R) (K : around W R) (fuel : nat) (n : string) (c : ctype).
Context (Hn : g_type h n = true).
Local Notation t := (combo_type n c).
Local Notation inv rt rp ps b := (invoke h K fuel false rt rp ps b []).

Lemma m_new w : inv tvoid ByPtr [] (TSeq (TReturn (DNew t)) TSkip) [] w
  = oret (UPtr false None (length (wo_heap w)), World (wo_heap w ++ [Some (n, fresh (g_new h n) c)]) (wo_writer w) (wo_reader w)).
Proof. unfold invoke. cbn. rewrite ?combo_named, ?Hn. reflexivity. Qed.
Lemma m_delete a w : inv tvoid ByValue [pptr false "data"] (TSeq (TDelete (DCast false t true (DName ["data"]))) TSkip) [UPtr false None a] w
  = as_object w a n c (fun _ => oret (UVoid, store_at w a None)).
Proof.
  rewrite as_object_at. unfold invoke. cbn. rewrite ?combo_named, ?Hn. cbn. unfold heap_of. cbn [snd].
  destruct (object_at (wo_heap w) a n c); reflexivity.
Qed.
Lemma m_write k a w :
  inv tbool ByValue (pkey ++ [Par false (Ct ["EntityWriter"] []) ByRef "writer"; pptr true "data"])
    (TSeq (TReturn (DMethod (DName ["writer"]) "Write" [[t]] [DName ["key"]; DName ["key_length"]; obj_at true t "data"])) TSkip) [UKey; ULen; UWriter; UPtr k None a] w
  = as_object w a n c (fun v => obind (g_write h n v (wo_writer w)) (fun r => answer (fst r) (World (wo_heap w) (snd r) (wo_reader w)))).
Proof.
  rewrite as_object_at. unfold invoke. cbn. rewrite ?combo_named, ?Hn. cbn. unfold heap_of. cbn [snd].
  destruct (object_at (wo_heap w) a n c) as [v| |] eqn:E; cbn; try reflexivity.
  rewrite ?combo_named, ?objtype_refl. cbn. unfold heap_of. cbn [snd]. rewrite E. cbn.
  destruct (g_write h n v (wo_writer w)) as [[[b x]| |]|]; reflexivity.
Qed.
Lemma m_read a w :
  inv tbool ByValue (pkey ++ [Par false (Ct ["EntityReader"] []) ByRef "reader"; pptr false "data"])
    (TSeq (TReturn (DMethod (DName ["reader"]) "Read" [[t]] [DName ["key"]; DName ["key_length"]; obj_at false t "data"])) TSkip) [UKey; ULen; UReader; UPtr false None a] w
  = as_object w a n c (fun v => obind (g_read h n v (wo_reader w)) (fun r =>
      answer (fst (fst r)) (World (set_at (wo_heap w) a (Some (n, snd (fst r)))) (wo_writer w) (snd r)))).
Proof.
  rewrite as_object_at. unfold invoke. cbn. rewrite ?combo_named, ?Hn. cbn. unfold heap_of. cbn [snd].
  destruct (object_at (wo_heap w) a n c) as [v| |] eqn:E; cbn; try reflexivity. rewrite ?combo_named, ?objtype_refl. cbn. unfold heap_of. cbn [snd]. rewrite E. cbn.
  destruct (g_read h n v (wo_reader w)) as [[[[b x] y]| |]|]; reflexivity.
Qed.
Lemma m_copy k a b w :
  inv tvoid ByValue [pptr false "dest"; pptr true "src"] (TSeq (TExpr (DAssign (obj_at false t "dest") (obj_at true t "src"))) TSkip) [UPtr false None a; UPtr k None b] w
  = as_object w a n c (fun _ => as_object w b n c (fun v => oret (UVoid, store_at w a (Some (n, v))))).
Proof.
  rewrite as_object_at. unfold invoke. cbn. rewrite ?combo_named, ?Hn. cbn. unfold heap_of. cbn [snd].
  destruct (object_at (wo_heap w) a n c) as [v| |] eqn:E; cbn; try reflexivity. rewrite as_object_at, ?combo_named, ?Hn. cbn. unfold heap_of. cbn [snd].
  destruct (object_at (wo_heap w) b n c) as [u| |] eqn:F; cbn; try reflexivity. rewrite tyeqb_refl, ctype_eqb_refl. cbn [andb]. unfold heap_of. cbn [snd].
  rewrite E, F. cbn. destruct c; reflexivity.
Qed.
Lemma m_equals j k a b w :
  inv tbool ByValue [pptr true "dataA"; pptr true "dataB"] (TSeq (TReturn (DOp OEq (obj_at true t "dataA") (obj_at true t "dataB"))) TSkip) [UPtr j None a; UPtr k None b] w
  = as_object w a n c (fun v => as_object w b n c (fun u => answer (g_eq h n v u) w)).
Proof.
  rewrite as_object_at. unfold invoke. cbn. rewrite ?combo_named, ?Hn. cbn. unfold heap_of. cbn [snd].
  destruct (object_at (wo_heap w) a n c) as [v| |] eqn:E; cbn; try reflexivity. rewrite as_object_at, ?combo_named, ?Hn. cbn. unfold heap_of. cbn [snd].
  destruct (object_at (wo_heap w) b n c) as [u| |] eqn:F; cbn; try reflexivity. rewrite tyeqb_refl, ctype_eqb_refl. cbn [andb]. unfold heap_of. cbn [snd].
  rewrite E, F. cbn. reflexivity.
Qed.
Lemma m_clear a w :
  k_fun K "clear_combined_type" [ULoc false n c a] w = as_object w a n c (fun _ => oret (UVoid, store_at w a (Some (n, fresh (g_zero h n) c)))) ->
  inv tvoid ByValue [pptr false "data"] (TSeq (TExpr (DCall "clear_combined_type" [obj_at false t "data"])) TSkip) [UPtr false None a] w
  = as_object w a n c (fun _ => oret (UVoid, store_at w a (Some (n, fresh (g_zero h n) c)))).
Proof.
  rewrite as_object_at. intros F. unfold invoke. cbn. rewrite ?combo_named, ?Hn. cbn. unfold heap_of. cbn [snd].
  destruct (object_at (wo_heap w) a n c) as [v| |] eqn:E; cbn; try reflexivity. rewrite F. reflexivity.
Qed.
Lemma m_type d k w fs : k_stat K "combined_type_information" t "type_index" = Some (UEnum "data_type_index" d) ->
  k_stat K "combined_type_information" t "container_index" = Some (UEnum "container_type_index" k) ->
  k_struct K "type_combo" = Some fs -> fs = [(Ct ["data_type_index"] [], "data_type"); (Ct ["container_type_index"] [], "container_type")] ->
  inv tcombo ByValue [] (TSeq (TReturn (DBraces [info_of t "type_index"; info_of t "container_index"])) TSkip) [] w
  = oret (URec "type_combo" [("data_type", UEnum "data_type_index" d); ("container_type", UEnum "container_type_index" k)], w).
Proof. intros A B C ->. unfold invoke. cbn. rewrite A, B. cbn. rewrite C. reflexivity. Qed.
End Methods.

(** clear_combined_type. *)
Section Clear.
Context {W R : Type} (h : dhost W R) (l : list base_type) (tab : gtable string ctype) (fuel : nat).
Local Notation pg := (a_program l tab).
Lemma special_found ps n c : In (n, c) ps ->
  find_special "clear_combined_type" n c (map (fun p => a_clear (fst p) (snd p)) ps) = Some (a_clear n c).
Proof.
  induction ps as [|[m d] r IH]; intros i; [destruct i|]. cbn [map find_special]. unfold a_clear at 1 2. cbn [fst snd so_name so_type].
  change (streqb "clear_combined_type" "clear_combined_type") with true. cbn [andb]. rewrite combo_named. unfold objtype_eqb. cbn [fst snd].
  destruct (tyeqb n m && ctype_eqb c d) eqn:E.
  - apply andb_prop in E. destruct E as [E1 E2]. apply String.eqb_eq in E1. apply ctype_eqb_eq in E2. subst. reflexivity.
  - destruct i as [i|i]; [injection i as -> ->; rewrite tyeqb_refl, ctype_eqb_refl in E; discriminate E|exact (IH i)].
Qed.
Lemma clear_runs n c a (w : world W R) : In n (type_names_of l) -> g_type h n = true ->
  run_special h pg fuel "clear_combined_type" [ULoc false n c a] w = as_object w a n c (fun _ => oret (UVoid, store_at w a (Some (n, fresh (g_zero h n) c)))).
Proof.
  intros i Hn. rewrite as_object_at. unfold run_special, a_program. cbn [pg_specials]. rewrite all_combos_map, special_found by (apply in_combos; exact i).
  unfold invoke, a_clear. cbn [so_params so_body bind_params convert_to]. rewrite ?combo_named, ?objtype_refl. cbn [andb orb negb existsb app].
  destruct c; cbn; unfold static_of, heap_of; cbn; rewrite ?Hn; cbn; unfold heap_of; cbn [snd]; rewrite ?tyeqb_refl; cbn;
    (destruct (object_at (wo_heap w) a n _) as [v| |] eqn:E; cbn; try reflexivity;
     pose proof (object_ctype _ _ _ _ _ E) as Q; destruct v; cbn in Q; try discriminate Q; reflexivity).
Qed.
End Clear.

(** The constants. *)
Lemma lookup_found {A} n (v : A) l : In (n, v) l -> NoDup (map fst l) -> lookup n l = Some v.
Proof.
  induction l as [|[m u] r IH]; intros i N; [destruct i|]. cbn [lookup]. inversion N as [|? ? N1 N2]; subst. destruct (streqb n m) eqn:E.
  - apply String.eqb_eq in E. subst m. destruct i as [i|i]; [injection i as ->; reflexivity|]. exfalso. apply N1. apply in_map_iff. exists (n, v). auto.
  - destruct i as [i|i]; [injection i as -> ->; rewrite streqb_refl in E; discriminate E|exact (IH i N2)].
Qed.
Lemma info_found ps n c : In (n, c) ps ->
  find_info "combined_type_information" (combo_type n c) (map (fun p => a_info (fst p) (snd p)) ps) = Some (a_info n c).
Proof.
  induction ps as [|[m d] r IH]; intros i; [destruct i|]. cbn [map find_info]. unfold a_info at 1 2. cbn [fst snd if_name if_type].
  change (streqb "combined_type_information" "combined_type_information") with true. cbn [andb].
  destruct (cty_eqb (combo_type m d) (combo_type n c)) eqn:E.
  - apply combo_eqb in E. destruct E as [-> ->]. reflexivity.
  - destruct i as [i|i]; [|exact (IH i)]. injection i as -> ->. assert (X : cty_eqb (combo_type n c) (combo_type n c) = true) by (apply combo_eqb; auto). congruence.
Qed.
Lemma stat_type {W R} (h : dhost W R) l tab d n c : NoDup (type_names_of l) -> numbered (by_base l) d n ->
  static_of h (a_program l tab) "combined_type_information" (combo_type n c) "type_index" = Some (UEnum "data_type_index" d) /\
  static_of h (a_program l tab) "combined_type_information" (combo_type n c) "container_index" = Some (UEnum "container_type_index" (ct_id c)).
Proof.
  intros N H. apply enum_in in H.
  assert (i : In n (type_names_of l)) by (rewrite <- enum_names; apply in_map_iff; exists (d, n); auto).
  unfold static_of. change (streqb "combined_type_information" "data_type_information") with false. cbv iota. unfold a_program at 1 3. cbn [pg_infos].
  rewrite all_combos_map, info_found by (apply in_combos; exact i). split.
  - cbn [a_info if_consts lookup]. change (streqb "type_index" "type_index") with true. cbv iota. unfold enumerator.
    change (streqb "data_type_index" "data_type_index") with true. cbv iota. cbn [pg_enums a_program a_enum lookup].
    change (streqb "data_type_index" "data_type_index") with true. cbv iota. rewrite (lookup_found _ d); [reflexivity| |].
    + apply in_map_iff. exists (d, n). auto.
    + rewrite map_map. cbn [fst]. rewrite <- (map_map snd (fun n => "dt_" ^^ n)), enum_names.
      apply FinFun.Injective_map_NoDup; [|exact N]. intros a b e. cbn [append] in e. injection e. auto.
  - destruct c; reflexivity.
Qed.
