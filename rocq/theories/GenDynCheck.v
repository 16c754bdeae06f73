(** * GenDynCheck: the generated files of the dynamic types compile. Proofs. *)
From Coq Require Import Strings.String Strings.Ascii.
From Verif Require Import Base Types GenText CppText CppSem GenTextSpec GenLex GenRW CppFun GenRWEval GenDyn CppDyn GenTypes GenTypesSpec GenTypesFacts
  GenDynSpec GenDynAst GenDynParse GenDynFile.
Local Open Scope string_scope.
Local Open Scope list_scope.
Local Open Scope nat_scope.

(** ** Combinations as a list of pairs *)
Definition combos (l : list base_type) : list (string * ctype) := flat_map (fun n => map (pair n) containers6) (type_names_of l).
Lemma all_combos_map {A} l (f : string -> ctype -> A) : all_combos l f = map (fun p => f (fst p) (snd p)) (combos l).
Proof.
  unfold all_combos, combos. induction (type_names_of l) as [|n r IH]; cbn [flat_map]; [reflexivity|]. rewrite map_app, <- IH, map_map. reflexivity.
Qed.
Lemma in_containers6 c : In c containers6. Proof. destruct c; cbn; tauto. Qed.
Lemma nodup_containers6 : NoDup containers6. Proof. repeat constructor; cbn; intuition discriminate. Qed.
Lemma in_combos l n c : In (n, c) (combos l) <-> In n (type_names_of l).
Proof.
  unfold combos. rewrite in_flat_map. split.
  - intros (m & i & j). apply in_map_iff in j. destruct j as (d & e & _). injection e as -> ->. exact i.
  - intros i. exists n. split; [exact i|]. apply in_map. apply in_containers6.
Qed.
Lemma nodup_flat {A B} (f : A -> list B) l : NoDup l -> (forall x, In x l -> NoDup (f x)) ->
  (forall x y z, In x l -> In y l -> In z (f x) -> In z (f y) -> x = y) -> NoDup (flat_map f l).
Proof.
  induction l as [|x l IH]; intros N F D; cbn [flat_map]; [constructor|]. inversion N as [|? ? N1 N2]; subst. apply app_nodup.
  - apply F. left. reflexivity.
  - apply IH; [exact N2|intros y i; apply F; right; exact i|]. intros y z w i j. apply D; right; assumption.
  - intros z i j. apply in_flat_map in j. destruct j as (y & j & k). assert (x = y) by (apply (D x y z); [left; reflexivity|right; exact j|exact i|exact k]).
    subst y. exact (N1 j).
Qed.
Lemma nodup_combos l : NoDup (type_names_of l) -> NoDup (combos l).
Proof.
  intros N. apply nodup_flat; [exact N| |].
  - intros n _. apply FinFun.Injective_map_NoDup; [intros a b e; injection e; auto|exact nodup_containers6].
  - intros a b z _ _ i j. apply in_map_iff in i. apply in_map_iff in j. destruct i as (c & <- & _). destruct j as (d & e & _). injection e. auto.
Qed.

(** ** Names *)
Definition chars := list_ascii_of_string.
Lemma chars_app a b : chars (a ^^ b) = chars a ++ chars b.
Proof. induction a as [|x a IH]; cbn; [reflexivity|]. f_equal. exact IH. Qed.
Lemma chars_inj a b : chars a = chars b -> a = b.
Proof. intros E. rewrite <- (string_of_list_ascii_of_string a), <- (string_of_list_ascii_of_string b). f_equal. exact E. Qed.
Lemma tail_inj a b s : a ^^ s = b ^^ s -> a = b.
Proof. intros E. apply chars_inj. apply (f_equal chars) in E. rewrite !chars_app in E. exact (app_inv_tail _ _ _ E). Qed.
Lemma suffix_inj (x : string) a b c d : "_dt_" ^^ a ^^ "_ct_" ^^ ct_name c ^^ x = "_dt_" ^^ b ^^ "_ct_" ^^ ct_name d ^^ x -> a = b /\ c = d.
Proof.
  intros E. cbn [append] in E. injection E as E.
  assert (K : a ^^ ("_ct_" ^^ ct_name c) = b ^^ ("_ct_" ^^ ct_name d)) by (apply (tail_inj _ _ x); rewrite !app_assoc_s; exact E).
  apply (f_equal (fun s => rev (chars s))) in K. rewrite !chars_app, !rev_app_distr in K.
  destruct c, d; cbn in K; try discriminate K; (split; [|reflexivity]);
    (repeat (injection K as K)); apply chars_inj; rewrite <- (rev_involutive (chars a)), <- (rev_involutive (chars b)); f_equal; exact K.
Qed.
Lemma cls_inj a b c d : cls_name a c = cls_name b d -> a = b /\ c = d. Proof. apply suffix_inj. Qed.
Lemma obj_inj a b c d : obj_name a c = obj_name b d -> a = b /\ c = d. Proof. apply suffix_inj. Qed.
Lemma cls_not_obj a b c d : cls_name a c <> obj_name b d.
Proof.
  intros E. unfold cls_name, obj_name in E. rewrite <- !app_assoc_s in E. apply (f_equal (fun s => rev (chars s))) in E.
  rewrite (chars_app _ "_DynamicTypeClass"), (chars_app _ "_DynamicTypeObject"), !rev_app_distr in E. discriminate E.
Qed.
Lemma streqb_refl a : streqb a a = true. Proof. apply String.eqb_refl. Qed.
Lemma streqb_ne a b : a <> b -> streqb a b = false. Proof. intros H. apply String.eqb_neq. exact H. Qed.
Lemma combo_eqb a b c d : cty_eqb (combo_type a c) (combo_type b d) = true <-> a = b /\ c = d.
Proof.
  split.
  - destruct c, d; cbn; intros H; try discriminate H; rewrite ?andb_true_r in H; try (apply String.eqb_eq in H; auto).
    all: try (apply andb_prop in H; destruct H as [_ H]; discriminate H).
  - intros [-> ->]. destruct d; cbn; rewrite ?tyeqb_refl; reflexivity.
Qed.

(** ** All different *)
Lemma member_iff n l : member n l = true <-> In n l.
Proof.
  induction l as [|x l IH]; cbn [member In]; [split; [discriminate|tauto]|]. rewrite orb_true_iff, IH. unfold streqb. rewrite String.eqb_eq. intuition.
Qed.
Lemma alldiff_iff l : alldiff l = true <-> NoDup l.
Proof.
  induction l as [|x l IH]; cbn [alldiff]; [split; [constructor|reflexivity]|]. rewrite andb_true_iff, IH, negb_true_iff.
  assert (K : member x l = false <-> ~ In x l) by (rewrite <- member_iff; destruct (member x l); split; congruence). rewrite K. split.
  - intros [A B]. constructor; assumption.
  - intros N. inversion N; auto.
Qed.
Lemma alldiff_combos ps : NoDup ps -> alldiff_types (map (fun p => combo_type (fst p) (snd p)) ps) = true.
Proof.
  induction ps as [|[a c] r IH]; intros N; cbn [map alldiff_types]; [reflexivity|]. inversion N as [|? ? N1 N2]; subst. rewrite (IH N2), andb_true_r. apply negb_true_iff.
  match goal with |- ?x = false => destruct x eqn:E; [|reflexivity] end. exfalso. apply existsb_exists in E. destruct E as (t & i & e).
  apply in_map_iff in i. destruct i as ([b d] & <- & i). cbn [fst snd] in e. apply combo_eqb in e. destruct e as [-> ->]. exact (N1 i).
Qed.

(** ** Declarations *)
Definition cls (p : string * ctype) : ddecl := a_class (fst p) (snd p).
Lemma find_abstract_cls n ps ds : find_abstract n (map cls ps ++ ds) = find_abstract n ds.
Proof. induction ps as [|p r IH]; cbn [map app]; [reflexivity|]. exact IH. Qed.
Lemma find_struct_cls n ps ds : find_struct n (map cls ps ++ ds) = find_struct n ds.
Proof. induction ps as [|p r IH]; cbn [map app]; [reflexivity|]. exact IH. Qed.
Lemma find_object_cls n c ps ds : In (n, c) ps ->
  find_object (obj_name n c) (map cls ps ++ ds) = Some ("_dynamicTypeClass", methods (bodies (combo_type n c))).
Proof.
  induction ps as [|[m d] r IH]; intros i; [destruct i|]. cbn [map app]. unfold cls at 1. unfold a_class. cbn [fst snd find_object].
  destruct (streqb (obj_name n c) (obj_name m d)) eqn:E.
  - apply String.eqb_eq in E. apply obj_inj in E. destruct E as [-> ->]. reflexivity.
  - destruct i as [i|i]; [injection i as -> ->; rewrite streqb_refl in E; discriminate E|exact (IH i)].
Qed.
Lemma class_ok seen p : find_abstract "_dynamicTypeClass" seen = Some (methods (fun _ => None)) -> decl_ok seen (cls p) = true.
Proof. intros H. unfold cls, a_class, decl_ok. rewrite H. generalize (combo_type (fst p) (snd p)). intros t. vm_compute. reflexivity. Qed.
Lemma classes_ok ps rest : forall seen, find_abstract "_dynamicTypeClass" seen = Some (methods (fun _ => None)) ->
  decls_ok seen (map cls ps ++ rest) = decls_ok (map cls (rev ps) ++ seen) rest.
Proof.
  induction ps as [|p r IH]; intros seen H; [reflexivity|]. cbn [map app decls_ok rev]. rewrite (class_ok seen p H). cbn [andb].
  rewrite IH by exact H. rewrite map_app, <- app_assoc. reflexivity.
Qed.
Lemma functions_ok seen fs : forallb (fun d => match d with DFun _ _ _ _ _ _ => true | _ => false end) fs = true -> decls_ok seen fs = true.
Proof.
  revert seen. induction fs as [|f r IH]; intros seen H; [reflexivity|]. cbn [forallb] in H. apply andb_prop in H. destruct H as [H1 H2].
  destruct f; try discriminate H1. cbn [decls_ok decl_ok andb]. apply IH. exact H2.
Qed.
Lemma names_cls ps : flat_map names_of (map cls ps) = flat_map (fun p => [cls_name (fst p) (snd p); obj_name (fst p) (snd p)]) ps.
Proof. induction ps as [|p r IH]; cbn [map flat_map]; [reflexivity|]. rewrite IH. reflexivity. Qed.
Definition before4 (s : string) : string :=
  match s with String a (String b (String c (String d _))) => String a (String b (String c (String d ""))) | _ => "" end.
Lemma cls_front a c : before4 (cls_name a c) = "_dt_". Proof. reflexivity. Qed.
Lemma obj_front a c : before4 (obj_name a c) = "_dt_". Proof. reflexivity. Qed.
Lemma nodup_names ps (f1 f2 : list string) : NoDup ps -> NoDup (f1 ++ f2) -> (forall x, In x (f1 ++ f2) -> before4 x <> "_dt_") ->
  NoDup (f1 ++ flat_map (fun p => [cls_name (fst p) (snd p); obj_name (fst p) (snd p)]) ps ++ f2).
Proof.
  intros N F H.
  assert (K : NoDup (flat_map (fun p => [cls_name (fst p) (snd p); obj_name (fst p) (snd p)]) ps)).
  { apply nodup_flat; [exact N| |].
    - intros [a c] _. cbn [fst snd]. constructor; [|constructor; [intros []|constructor]]. intros [e|[]]. exact (cls_not_obj a a c c (eq_sym e)).
    - intros [a c] [b d] z _ _ i j. cbn [fst snd In] in i, j. destruct i as [<-|[<-|[]]]; destruct j as [j|[j|[]]].
      + apply cls_inj in j. destruct j as [-> ->]. reflexivity.
      + exfalso. exact (cls_not_obj a b c d (eq_sym j)).
      + exfalso. exact (cls_not_obj b a d c j).
      + apply obj_inj in j. destruct j as [-> ->]. reflexivity. }
  assert (D : forall x, In x (f1 ++ f2) -> ~ In x (flat_map (fun p => [cls_name (fst p) (snd p); obj_name (fst p) (snd p)]) ps)).
  { intros x i j. apply in_flat_map in j. destruct j as ([a c] & _ & j). cbn [fst snd In] in j. apply (H x i).
    destruct j as [<-|[<-|[]]]; [apply cls_front|apply obj_front]. }
  assert (F1 : NoDup f1 /\ NoDup f2 /\ forall x, In x f1 -> ~ In x f2).
  { clear K D H. induction f1 as [|x f1 IH]; [split; [constructor|split; [exact F|intros ? []]]|]. cbn [app] in F. inversion F as [|? ? F3 F4]; subst.
    destruct (IH F4) as (Q1 & Q2 & Q3). split; [constructor; [intros i; apply F3; apply in_app_iff; auto|exact Q1]|]. split; [exact Q2|].
    intros y [<-|i]; [intros j; apply F3; apply in_app_iff; auto|exact (Q3 y i)]. }
  destruct F1 as (Q1 & Q2 & Q3). apply app_nodup; [exact Q1| |].
  - apply app_nodup; [exact K|exact Q2|]. intros x i j. apply (D x); [apply in_app_iff; auto|exact i].
  - intros x i j. apply in_app_iff in j. destruct j as [j|j]; [apply (D x); [apply in_app_iff; auto|exact j]|exact (Q3 x i j)].
Qed.
Lemma enum_names l : map snd (type_enum (by_base l)) = type_names_of l.
Proof.
  unfold type_enum, type_names_of. generalize 0%N. induction (by_base l) as [|vs r IH]; intros b; cbn [number_types concat map]; [reflexivity|].
  rewrite map_app, IH. f_equal. generalize 0%N. induction vs as [|v vs IHv]; intros m; cbn [number_variants map]; [reflexivity|]. rewrite IHv. reflexivity.
Qed.
Definition of_list (l : list base_type) (tab : gtable string ctype) : Prop := forall e, In (Some e) tab -> In (en_variant e) (type_names_of l).
Lemma program_compiles l tab : dyn_proper l -> of_list l tab -> length tab = 577 -> compiles (a_program l tab) = true.
Proof.
  intros (P1 & P2 & P3 & P4 & P5) T Len. unfold compiles, a_program. cbn [pg_enums pg_infos pg_specials pg_decls].
  assert (E1 : alldiff (map fst [a_enum l; a_containers]) = true) by reflexivity.
  assert (E2 : forallb enum_ok [a_enum l; a_containers] = true).
  { cbn [forallb]. replace (enum_ok a_containers) with true by reflexivity. rewrite andb_true_r. unfold enum_ok, a_enum. cbn [snd].
    apply andb_true_intro. split.
    - apply alldiff_iff. rewrite map_map. cbn [fst]. rewrite <- (map_map snd (fun n => "dt_" ^^ n)), enum_names.
      apply FinFun.Injective_map_NoDup; [|exact P2]. intros a b e. cbn [append] in e. injection e. auto.
    - apply forallb_forall. intros x i. apply in_map_iff in i. destruct i as ([d n] & <- & i). cbn [fst snd]. apply enum_in in i.
      apply N.ltb_lt. exact (P4 d n i). }
  pose proof (nodup_combos l P2) as NC.
  assert (E3 : alldiff_types (map if_type (all_combos l a_info)) = true) by (rewrite all_combos_map, map_map; exact (alldiff_combos _ NC)).
  assert (E4 : alldiff_types (map so_type (all_combos l a_clear)) = true) by (rewrite all_combos_map, map_map; exact (alldiff_combos _ NC)).
  rewrite E1, E2, E3, E4. cbn [andb]. clear E1 E2 E3 E4. rewrite all_combos_map. fold cls. change (fun p : string * ctype => a_class (fst p) (snd p)) with cls.
  apply andb_true_intro. split.
  - apply alldiff_iff.
    change (a_struct :: a_abstract :: map cls (combos l) ++ a_table tab :: a_find :: a_functions) with ([a_struct; a_abstract] ++ map cls (combos l) ++ (a_table tab :: a_find :: a_functions)).
    rewrite !flat_map_app, names_cls. apply nodup_names; [exact NC| |].
    + change (flat_map names_of (a_table tab :: a_find :: a_functions)) with ("_dynamicTypeClassHashTable" :: flat_map names_of (a_find :: a_functions)).
      apply alldiff_iff. vm_compute. reflexivity.
    + change (flat_map names_of (a_table tab :: a_find :: a_functions)) with ("_dynamicTypeClassHashTable" :: flat_map names_of (a_find :: a_functions)).
      apply Forall_forall. vm_compute. repeat constructor; discriminate.
  - cbn [decls_ok]. change (decl_ok [] a_struct) with true. change (decl_ok [a_struct] a_abstract) with true. cbn [andb].
    rewrite classes_ok by reflexivity. cbn [decls_ok]. apply andb_true_intro. split; [|apply functions_ok; reflexivity].
    unfold a_table, decl_ok. rewrite map_length, Len. cbn [andb]. rewrite find_abstract_cls. change (N.of_nat 577 <=? 577)%N with true. cbn [andb].
    change (find_abstract "_dynamicTypeClass" [a_abstract; a_struct]) with (Some (methods (fun _ => None))). cbn [andb].
    apply forallb_forall. intros x i. apply in_map_iff in i. destruct i as ([e|] & <- & i); [|reflexivity]. cbn [slot_object].
    rewrite find_object_cls; [reflexivity|]. apply in_rev. rewrite rev_involutive. apply in_combos. exact (T e i).
Qed.
