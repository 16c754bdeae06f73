(** * GenCheck: which generated files compile. Proofs. *)
From Coq Require Import Strings.String Strings.Ascii.
From Verif Require Import Base Bytes Values Streams Types EntityWriter EntityReader Sections Validator Keys KeySpec Containers
  ValueEq StdSet Graph Classes Table IndexedVector DynTypes Varying EntityGen GenText CppText CppSem GenTextSpec GenLex GenParse GenDecls GenHeader.
Local Open Scope string_scope.
Local Open Scope list_scope.

(** ** The files, read *)
Definition prog (d : edef) : program :=
  Prog (ed_name d) (map file_of ("Types" :: map d_name (filter d_include (ed_deps d))))
    (map file_of (["Types"; "EntityWriter"; "EntityReader"; "EntityValidator"; ed_name d] ++ map d_name (filter (fun p => negb (d_include p)) (ed_deps d))))
    (header_items d) (body_items d) (mf_decls (ed_name d)) (source_items (entity_of d)).
Lemma streqb_refl n : streqb n n = true.
Proof. exact (String.eqb_refl n). Qed.
Lemma streqb_eq a b : streqb a b = true <-> a = b.
Proof. exact (String.eqb_eq a b). Qed.
Lemma streqb_ne a b : a <> b -> streqb a b = false.
Proof. exact (proj2 (String.eqb_neq a b)). Qed.

Record wf (d : edef) : Prop := {
  wf_name : ident_ok (ed_name d) = true;
  wf_notype : is_type_name (ed_name d) = false;
  wf_own : ~ In (ed_name d) (own_names ++ map (fun v => "v_" ^^ v_name v) (ed_vars d));
  wf_vars : forall v, In v (ed_vars d) -> var_ok v = true;
  wf_nodup : NoDup (map v_name (ed_vars d));
  wf_vname : forall v, In v (ed_vars d) -> ~ In (v_name v) (ed_name d :: own_names ++ map td_name (ed_templates d) ++ map (fun w => "v_" ^^ v_name w) (ed_vars d));
  wf_vtype : forall v, In v (ed_vars d) -> ~ In (v_type v) (ed_name d :: own_names);
  wf_deps : forall p, In p (ed_deps d) -> ident_ok (d_name p) = true;
  wf_tdefs : forall t, In t (ed_templates d) -> tdef_ok t = true;
  wf_tnodup : NoDup (map td_name (ed_templates d));
  wf_tname : forall t, In t (ed_templates d) -> is_type_name (td_name t) = false;
  wf_tname2 : forall t, In t (ed_templates d) -> ~ In (td_name t) (ed_name d :: own_names ++ map (fun v => "v_" ^^ v_name v) (ed_vars d)) }.
Lemma wf_of d : well_formed d -> wf d.
Proof.
  intros (A & B & C & D & E & F & G & H & I & J).
  rewrite forallb_forall in D, G, H. constructor; auto; intros v i; try apply (F v i); try apply (J v i).
Qed.
Section Wf.
Context (d : edef) (Wf : wf d).

Lemma var_parts v : In v (ed_vars d) ->
  variable_ok v = true /\ ident_ok (v_name v) = true /\ type_ok (v_type v) = true /\ (N.of_nat (String.length (v_name v)) < 256)%N.
Proof.
  intros i. pose proof (wf_vars d Wf v i) as H. unfold var_ok in H. rewrite !andb_true_iff in H. destruct H as (((A & B) & C) & D).
  repeat split; auto. apply N.ltb_lt. exact D.
Qed.
Lemma var_good v : In v (ed_vars d) -> vgood v /\ variable_ok v = true.
Proof.
  intros i. destruct (var_parts v i) as (A & B & C & _). split; [|exact A]. split.
  - exact (good_ident _ B).
  - apply type_good. exact C.
  - exact (proj2 (proj2 (type_word _ C))).
Qed.
Lemma name_good : good (ed_name d) (Id (ed_name d)).
Proof. apply good_ident. exact (wf_name d Wf). Qed.
Lemma deps_good p : In p (ed_deps d) -> good (d_name p) (Id (d_name p)).
Proof. intros i. apply good_ident. exact (wf_deps d Wf p i). Qed.

Lemma class_body_skip q l r : (forall i, In i l -> match i with IClass _ _ => False | _ => True end) -> class_body q (l ++ r) = class_body q r.
Proof.
  induction l as [|i l IH]; intros H; [reflexivity|]. cbn [app class_body].
  assert (G : forall j, In j l -> match j with IClass _ _ => False | _ => True end) by (intros j k; apply H; right; exact k).
  pose proof (H i (or_introl eq_refl)) as N. destruct i; try exact (IH G). destruct N.
Qed.
Lemma load_prog : load (ed_name d) (header_lines (entity_of d)) (source_lines (entity_of d)) = Some (prog d).
Proof.
  unfold load.
  rewrite (header_parses d name_good var_good deps_good (wf_tdefs d Wf)).
  rewrite (source_parses (entity_of d) name_good var_good (fun p i => good_noquote _ _ (deps_good p i))).
  rewrite (header_includes d name_good var_good deps_good (wf_tdefs d Wf)).
  rewrite (source_includes (entity_of d) name_good var_good (fun p i => good_noquote _ _ (deps_good p i))).
  change (streqb "ISD" "ISD" && streqb "ISD" "ISD") with true. cbn [negb].
  unfold header_items at 1 2. rewrite !class_body_skip by (intros i H; apply in_map_iff in H; destruct H as (n & <- & _); exact Logic.I).
  cbn [app class_body qeqb]. rewrite !streqb_refl. cbn [andb]. reflexivity.
Qed.

(** ** Members *)
Definition TNs : list string := map td_name (ed_templates d).
Definition kind (v : variable) : fkind := kind_of TNs (vtype v).
Lemma usings_app a b : usings (a ++ b) = usings a ++ usings b.
Proof. apply flat_map_app. Qed.
Lemma members_app a b : members (a ++ b) = members a ++ members b.
Proof. apply flat_map_app. Qed.
Lemma forwards_app a b : forwards (a ++ b) = forwards a ++ forwards b.
Proof. apply flat_map_app. Qed.
Lemma funcs_app a b : funcs (a ++ b) = funcs a ++ funcs b.
Proof. apply flat_map_app. Qed.
Lemma prog_usings : usings (body_items d) = map (fun t => (td_name t, tdef_type t)) (ed_templates d).
Proof.
  unfold body_items. rewrite !usings_app.
  change (usings [IPublic]) with (@nil (string * cty)). change (usings (op_decls (ed_name d))) with (@nil (string * cty)).
  replace (usings (flat_map (fun v => [field_item v]) (ed_vars d))) with (@nil (string * cty))
    by (generalize (ed_vars d); induction l as [|v l IH]; [reflexivity|exact IH]).
  replace (usings (flat_map (fun v => [accessor_item true v; accessor_item false v]) (ed_vars d))) with (@nil (string * cty))
    by (generalize (ed_vars d); induction l as [|v l IH]; [reflexivity|exact IH]).
  cbn [app]. rewrite ?app_nil_r. generalize (ed_templates d). induction l as [|t l IH]; [reflexivity|]. cbn. f_equal. exact IH.
Qed.
Lemma prog_usings_names : map fst (usings (g_body (prog d))) = TNs.
Proof. cbn [g_body prog]. rewrite prog_usings, map_map. reflexivity. Qed.
Lemma prog_members : members (body_items d) = map (fun v => ("v_" ^^ v_name v, vtype v, is_simple_base v)) (ed_vars d).
Proof.
  unfold body_items. rewrite !members_app.
  change (members [IPublic]) with (@nil (string * cty * bool)). change (members (op_decls (ed_name d))) with (@nil (string * cty * bool)).
  replace (members (flat_map (fun v => [accessor_item true v; accessor_item false v]) (ed_vars d))) with (@nil (string * cty * bool))
    by (generalize (ed_vars d); induction l as [|v l IH]; [reflexivity|exact IH]).
  replace (members (map (fun t => IUsing (td_name t) (tdef_type t)) (ed_templates d))) with (@nil (string * cty * bool))
    by (generalize (ed_templates d); induction l as [|v l IH]; [reflexivity|exact IH]).
  cbn [app]. rewrite !app_nil_r. generalize (ed_vars d). induction l as [|v l IH]; [reflexivity|]. cbn. f_equal. exact IH.
Qed.
Lemma prog_kinds : member_kinds (prog d) = map (fun v => ("v_" ^^ v_name v, kind v)) (ed_vars d).
Proof. unfold member_kinds. rewrite prog_usings_names. cbn [g_body prog]. rewrite prog_members, map_map. reflexivity. Qed.
Lemma assoc_map {A} (f : variable -> A) l v : NoDup (map v_name l) -> In v l ->
  assoc ("v_" ^^ v_name v) (map (fun w => ("v_" ^^ v_name w, f w)) l) = Some (f v).
Proof.
  induction l as [|w l IH]; cbn [map assoc]; [intros _ []|]. intros N [->|i].
  - rewrite String.eqb_refl. reflexivity.
  - inversion N as [|x y N1 N2]. subst. destruct (String.eqb_spec ("v_" ^^ v_name v) ("v_" ^^ v_name w)) as [e|e].
    + exfalso. apply N1. cbn in e. injection e as e. rewrite <- e. apply in_map. exact i.
    + apply IH; assumption.
Qed.
Lemma member_kind v : In v (ed_vars d) -> assoc ("v_" ^^ v_name v) (member_kinds (prog d)) = Some (kind v).
Proof. intros i. rewrite prog_kinds. apply assoc_map; [exact (wf_nodup d Wf)|exact i]. Qed.
Lemma member_of_var c v : In v (ed_vars d) -> member_of (prog d) c ("v_" ^^ v_name v) = Some (YLv c (kind v)).
Proof. intros i. unfold member_of. rewrite (member_kind v i). reflexivity. Qed.

Lemma tn_not_base n : In n TNs -> is_type_name n = false.
Proof. intros H. apply in_map_iff in H. destruct H as (t & <- & i). exact (wf_tname d Wf t i). Qed.
(** The kind of a variable. *)
Lemma kind_base v t : base_type_variant (v_type v) = Some t -> kind v = KBase t (container v).
Proof.
  intros E. unfold kind, vtype, vty.
  assert (H : has (v_type v) TNs = false).
  { apply has_iff. intros i. apply tn_not_base in i. unfold is_type_name in i. rewrite E in i. discriminate. }
  destruct (container v); cbn -[base_type_variant has]; rewrite H, E; reflexivity.
Qed.
Lemma kind_class v : base_type_variant (v_type v) = None ->
  kind v = match container v with CtNone => KCls (v_type v) | CtOpt => KOpt (v_type v) | _ => KOther end.
Proof.
  intros E. unfold kind, vtype, vty. destruct (container v); cbn -[base_type_variant has]; destruct (has (v_type v) TNs); rewrite ?E; reflexivity.
Qed.
End Wf.

(** ** Well-typed statements *)
Lemma kind_base_refl t c : kind_eqb (KBase t c) (KBase t c) = true.
Proof. cbn. destruct (dtype_dec t t); [|congruence]. destruct (ctype_dec c c); [reflexivity|congruence]. Qed.
Lemma kind_cls_refl n : kind_eqb (KCls n) (KCls n) = true.
Proof. exact (streqb_refl n). Qed.
Definition keeps (g : program) r V (s : stmt) : Prop := tcs g r V s = Some V.
Lemma tcs_seqs g r V b : forall ss, (forall s, In s ss -> keeps g r V s) -> tcs g r V (seqs ss b) = tcs g r V b.
Proof.
  induction ss as [|s ss IH]; intros H; [reflexivity|]. cbn [seqs fold_right tcs].
  rewrite (H s (or_introl eq_refl)). apply IH. intros x i. apply H. right. exact i.
Qed.
Definition no_decl (s : stmt) : Prop := match s with SExpr _ | SIf _ _ _ => True | _ => False end.
Lemma no_decl_keeps g r V s V' : no_decl s -> tcs g r V s = Some V' -> V' = V.
Proof.
  destruct s; cbn [no_decl]; try contradiction; intros _; cbn [tcs].
  - destruct (tc g V e); congruence.
  - destruct (tc g V c) as [t|]; [|discriminate]. destruct (negb (testable t)); [discriminate|].
    destruct (tcs g r V s1); [|discriminate]. destruct (tcs g r V s2); congruence.
Qed.
Lemma tcs_fails g r V b s : forall ss, In s ss -> (forall x, In x ss -> no_decl x) -> tcs g r V s = None -> tcs g r V (seqs ss b) = None.
Proof.
  induction ss as [|x ss IH]; intros i H E; [destruct i|]. cbn [seqs fold_right tcs].
  destruct (tcs g r V x) as [V'|] eqn:F; [|reflexivity].
  rewrite (no_decl_keeps g r V x V' (H x (or_introl eq_refl)) F). destruct i as [->|i]; [congruence|].
  apply IH; auto. intros y j. apply H. right. exact j.
Qed.

Section Bodies.
Context (g : program) (e : string) (v : variable) (k : fkind).
Context (Hm : forall c, member_of g c (String "v" (String "_" (v_name v))) = Some (YLv c k)).
Context (Hk : kind_of (map fst (usings (g_body g))) (vtype v) = k).
Definition fits : Prop :=
  (is_base v = true /\ exists t, k = KBase t (container v)) \/
  (is_base v = false /\ k = KCls (v_type v) /\ v_optional v = false /\
   (forall f, scope_of g [v_type v; "MF"; f] = Some (KCls (v_type v), f)) /\ (forall f, scope_of g [e; v_type v; "MF"; f] = Some (KCls (v_type v), f))).
Ltac tcn := cbn -[member_of scope_of kind_of kind_eqb vtype]; cbn [kind_eqb] in *.

Lemma clear_keeps (F : fits) : forall s, In s (clear_ast v) ->
  keeps g (Some (false, RVoid, ByValue)) [("obj", YLv false KSelf)] s.
Proof.
  intros s [<-|[]]. unfold keeps. destruct F as [(B & t & Ek)|(B & Ek & O & S1 & S2)]; rewrite B.
  - destruct (v_optional v) eqn:Eo; cbn -[member_of scope_of kind_of kind_eqb vtype]; rewrite Hm, Ek; cbn -[kind_eqb]; [|reflexivity].
    unfold container. rewrite Eo. destruct (v_vector v), (v_indexed v); reflexivity.
  - cbn -[member_of scope_of kind_of kind_eqb vtype]. rewrite Hm, Ek, S1. cbn. rewrite streqb_refl. reflexivity.
Qed.
Lemma copy_keeps (F : fits) : forall s, In s (copy_ast v) ->
  keeps g (Some (false, RVoid, ByValue)) [("dest", YLv false KSelf); ("source", YPtr true KSelf)] s.
Proof.
  intros s [<-|[]]. unfold keeps. destruct F as [(B & t & Ek)|(B & Ek & O & S1 & S2)]; rewrite B.
  - cbn -[member_of scope_of kind_of kind_eqb vtype]. rewrite !Hm, Ek. cbn -[kind_eqb]. rewrite kind_base_refl. reflexivity.
  - rewrite O. cbn -[member_of scope_of kind_of kind_eqb vtype]. rewrite !Hm, Ek, S1. cbn. rewrite streqb_refl. reflexivity.
Qed.
Lemma equals_keeps (F : fits) : forall s, In s (equals_ast e v) ->
  keeps g (Some (false, RBool, ByValue)) [("lvar", YPtr true KSelf); ("rvar", YPtr true KSelf)] s.
Proof.
  intros s [<-|[]]. unfold keeps. destruct F as [(B & t & Ek)|(B & Ek & O & S1 & S2)]; rewrite B.
  - cbn -[member_of scope_of kind_of kind_eqb vtype]. rewrite !Hm, Ek. cbn -[kind_eqb]. rewrite kind_base_refl. reflexivity.
  - rewrite O. cbn -[member_of scope_of kind_of kind_eqb vtype]. rewrite !Hm, Ek, S2. cbn. rewrite streqb_refl. reflexivity.
Qed.
Lemma writer_keeps (F : fits) V : (V = [] /\ is_base v = true) \/ V = [("section_writer", YWriterPtr)] -> forall s, In s (writer_ast e v) ->
  keeps g (Some (false, RBool, ByValue)) (V ++ [("success", YBool); ("obj", YLv true KSelf); ("writer", YWriter)]) s.
Proof.
  intros HV s i. unfold keeps, writer_ast in *. destruct F as [(B & t & Ek)|(B & Ek & O & S1 & S2)]; rewrite B in i.
  - destruct i as [<-|[<-|[]]]; (destruct HV as [[-> _]| ->]); cbn -[member_of scope_of kind_of kind_eqb vtype];
      rewrite ?Hm, ?Hk, ?Ek; cbn -[kind_eqb]; rewrite ?kind_base_refl; reflexivity.
  - destruct HV as [[_ B2]| ->]; [congruence|]. rewrite O in i.
    destruct i as [<-|[<-|[<-|[<-|[<-|[]]]]]]; cbn -[member_of scope_of kind_of kind_eqb vtype];
      rewrite ?Hm, ?Hk, ?Ek, ?S2; cbn; rewrite ?streqb_refl; reflexivity.
Qed.
Lemma reader_keeps (F : fits) V : (V = [] /\ is_base v = true) \/ V = [("section_reader", YReaderPtr)] -> forall s, In s (reader_ast e v) ->
  keeps g (Some (false, RBool, ByValue)) (V ++ [("success", YBool); ("obj", YLv false KSelf); ("reader", YReader)]) s.
Proof.
  intros HV s i. unfold keeps, reader_ast in *. destruct F as [(B & t & Ek)|(B & Ek & O & S1 & S2)]; rewrite B in i.
  - destruct i as [<-|[<-|[]]]; (destruct HV as [[-> _]| ->]); cbn -[member_of scope_of kind_of kind_eqb vtype];
      rewrite ?Hm, ?Hk, ?Ek; cbn -[kind_eqb]; rewrite ?kind_base_refl; reflexivity.
  - destruct HV as [[_ B2]| ->]; [congruence|]. rewrite O in i.
    destruct i as [<-|[<-|[<-|[]]]]; cbn -[member_of scope_of kind_of kind_eqb vtype];
      rewrite ?Hm, ?Hk, ?Ek, ?S2; cbn; rewrite ?streqb_refl; reflexivity.
Qed.
Lemma validator_keeps (F : fits) : forall s, In s (validator_ast v) ->
  keeps g (Some (false, RBool, ByValue)) [("success", YBool); ("obj", YLv true KSelf); ("validator", YValidator)] s.
Proof.
  intros s i. unfold keeps, validator_ast in *. destruct F as [(B & t & Ek)|(B & Ek & O & S1 & S2)]; rewrite B in i; [destruct i|].
  rewrite O in i. destruct i as [<-|[<-|[]]]; cbn -[member_of scope_of kind_of kind_eqb vtype];
      rewrite ?Hm, ?Hk, ?Ek, ?S1; cbn; rewrite ?streqb_refl; reflexivity.
Qed.
(** What does not fit: optional objects are not accepted by Clear, objects of a class that is no typedef not by Equals. *)
Lemma scope_kind q j f : scope_of g q = Some (j, f) -> j = KSelf \/ exists x, j = KCls x.
Proof.
  unfold scope_of. destruct q as [|a [|b [|c [|x [|y q]]]]]; try discriminate.
  - destruct (streqb a "MF"); [|discriminate]. intros H. injection H as <- <-. auto.
  - destruct (negb (streqb b "MF")); [discriminate|]. destruct (has a _ || _); [|discriminate]. intros H. injection H as <- <-. eauto.
  - destruct (negb _); [discriminate|]. destruct (has b _); [|discriminate]. intros H. injection H as <- <-. eauto.
Qed.
Lemma clear_fails r : is_base v = false -> k = KOpt (v_type v) ->
  exists s, In s (clear_ast v) /\ tcs g r [("obj", YLv false KSelf)] s = None.
Proof.
  intros B Ek. unfold clear_ast. rewrite B. eexists. split; [left; reflexivity|]. cbn -[member_of scope_of kind_of kind_eqb vtype].
  rewrite Hm, Ek. destruct (scope_of g [v_type v; "MF"; "Clear"]) as [[j f]|] eqn:E; [|reflexivity].
  unfold mf_call. destruct (streqb f "Clear"); [|reflexivity]. cbn [andb variable_of].
  destruct (scope_kind _ _ _ E) as [->|[x ->]]; reflexivity.
Qed.
Lemma tc_call2 V q a b : tc g V (ECall (EId q) [a; b]) =
  match tc g V a, tc g V b, scope_of g q with Some x, Some y, Some (k, f) => mf_call k f [x; y] | _, _, _ => None end.
Proof. destruct a; reflexivity. Qed.
Lemma equals_fails r : is_base v = false -> (forall f, scope_of g [e; v_type v; "MF"; f] = None) ->
  exists s, In s (equals_ast e v) /\ tcs g r [("lvar", YPtr true KSelf); ("rvar", YPtr true KSelf)] s = None.
Proof.
  intros B S. unfold equals_ast. rewrite B. eexists. split; [left; reflexivity|].
  assert (N : forall V a b, tc g V (ECall (EId [e; v_type v; "MF"; "Equals"]) [a; b]) = None).
  { intros V a b. rewrite tc_call2, S. destruct (tc g V a), (tc g V b); reflexivity. }
  destruct (v_optional v); unfold sif; cbn [tcs]; change (tc g ?V (ENot ?a)) with (match tc g V a with Some t => if testable t then Some YBool else None | None => None end);
    rewrite N; reflexivity.
Qed.
Lemma clear_no_decl : forall s, In s (clear_ast v) -> no_decl s.
Proof. intros s [<-|[]]. destruct (is_base v), (v_optional v); exact Logic.I. Qed.
Lemma equals_no_decl : forall s, In s (equals_ast e v) -> no_decl s.
Proof. intros s [<-|[]]. destruct (is_base v), (v_optional v); exact Logic.I. Qed.
End Bodies.

(** ** Names *)
Lemma append_cancel a b c : a ^^ c = b ^^ c -> a = b.
Proof.
  assert (L : forall x y, String.length (x ^^ y) = (String.length x + String.length y)%nat)
    by (induction x as [|z x IH]; intros y; cbn; [reflexivity|rewrite IH; reflexivity]).
  revert b. induction a as [|x a IH]; intros [|y b] H; cbn in H.
  - reflexivity.
  - exfalso. apply (f_equal String.length) in H. cbn in H. rewrite L in H. lia.
  - exfalso. apply (f_equal String.length) in H. cbn in H. rewrite L in H. lia.
  - injection H as -> H. f_equal. apply IH. exact H.
Qed.
Lemma file_inj a b : file_of a = file_of b -> a = b.
Proof. unfold file_of. cbn [append]. intros H. injection H as H. exact (append_cancel _ _ _ H). Qed.
Lemma has_files n l : has (file_of n) (map file_of l) = has n l.
Proof.
  destruct (has n l) eqn:E.
  - apply has_true. apply has_true in E. apply in_map. exact E.
  - apply has_iff. apply has_iff in E. intros H. apply in_map_iff in H. destruct H as (m & e & i). apply file_inj in e. subst m. auto.
Qed.
Lemma has_app n a b : has n (a ++ b) = has n a || has n b.
Proof. unfold has. apply existsb_app. Qed.

Section Program.
Context (d : edef) (Wf : wf d).
Lemma complete_s_prog n : complete_s (prog d) n =
  has n (["Types"; "EntityWriter"; "EntityReader"; "EntityValidator"; ed_name d] ++ map d_name (filter (fun p => negb (d_include p)) (ed_deps d)))
  || has n ("Types" :: map d_name (filter d_include (ed_deps d))).
Proof.
  unfold complete_s. cbn [g_sincl g_name g_hincl prog]. rewrite !has_files. f_equal.
  replace (has (ed_name d) _) with true; [reflexivity|]. symmetry. apply has_true. cbn. auto 10.
Qed.
Lemma complete_h_prog n : complete_h (prog d) n = has n ("Types" :: map d_name (filter d_include (ed_deps d))).
Proof. unfold complete_h. cbn [g_hincl prog]. apply has_files. Qed.
Lemma prog_forwards : forwards (g_head (prog d)) = map d_name (filter (fun p => negb (d_include p)) (ed_deps d)) ++ ["EntityWriter"; "EntityReader"; "EntityValidator"].
Proof.
  cbn [g_head prog]. unfold header_items. rewrite forwards_app. f_equal.
  generalize (map d_name (filter (fun p => negb (d_include p)) (ed_deps d))). induction l as [|x l IH]; [reflexivity|]. cbn. f_equal. exact IH.
Qed.
Lemma seen_prog n : ~ In n library_headers -> seen_h (prog d) n = depends d n.
Proof.
  intros N. unfold seen_h. rewrite prog_forwards. cbn [g_hincl prog]. rewrite has_files. unfold depends.
  change ("Types" :: ?l) with (["Types"] ++ l). rewrite !has_app.
  replace (has n ["Types"]) with false by (symmetry; apply has_iff; intros [<-|[]]; apply N; cbn; auto).
  replace (has n ["EntityWriter"; "EntityReader"; "EntityValidator"]) with false
    by (symmetry; apply has_iff; cbn; intros H; apply N; cbn; tauto).
  rewrite orb_false_r. cbn [orb]. apply Bool.eq_true_iff_eq. rewrite orb_true_iff, !has_true, !in_map_iff. split.
  - intros [(p & e & i)|(p & e & i)]; apply filter_In in i; exists p; tauto.
  - intros (p & e & i). destruct (d_include p) eqn:E; [left|right]; exists p; rewrite filter_In, E; auto.
Qed.
End Program.
(** What is visible matters only for names that mean something. *)
Lemma class_type_ext W G G' T : (forall n, ~ In n library_headers -> G n = G' n) -> (forall n, In n library_headers -> W n = None) ->
  forall c, class_type W G T c = class_type W G' T c.
Proof.
  intros HG HW. fix F 1. intros [q args].
  destruct q as [|n [|n2 q]]; try reflexivity.
  assert (E : (if negb (G n) then None else W n) = (if negb (G' n) then None else W n)).
  { destruct (in_dec string_dec n library_headers) as [i|i]; [rewrite (HW n i); destruct (G n), (G' n); reflexivity|rewrite (HG n i); reflexivity]. }
  assert (E1 : G "DirectedGraph" = G' "DirectedGraph") by (apply HG; cbn; intuition discriminate).
  assert (E2 : G "IndexedVector" = G' "IndexedVector") by (apply HG; cbn; intuition discriminate).
  assert (E3 : G "EntityTable" = G' "EntityTable") by (apply HG; cbn; intuition discriminate).
  assert (Z : forall (A : Type) (x y z w : option A),
    (G n = G' n -> x = y) -> (streqb n "DirectedGraph" = false -> streqb n "IndexedVector" = false -> streqb n "EntityTable" = false -> x = None /\ y = None) ->
    (if negb (G n) then None else x) = (if negb (G' n) then None else y)).
  { intros A x y _ _ H1 H2. destruct (streqb n "DirectedGraph") eqn:N1; [apply streqb_eq in N1; subst n; rewrite E1, (H1 E1); reflexivity|].
    destruct (streqb n "IndexedVector") eqn:N2; [apply streqb_eq in N2; subst n; rewrite E2, (H1 E2); reflexivity|].
    destruct (streqb n "EntityTable") eqn:N3; [apply streqb_eq in N3; subst n; rewrite E3, (H1 E3); reflexivity|].
    destruct (H2 eq_refl eq_refl eq_refl) as [-> ->]. destruct (G n), (G' n); reflexivity. }
  destruct args as [|a1 args].
  - cbn. destruct (assoc n T); [reflexivity|]. destruct (G n), (G' n); cbn in E; congruence.
  - destruct a1 as [|k [|k2 ks]]; [destruct args as [|[|? [|? ?]] [|? [|? ?]]]; reflexivity| |destruct args as [|[|? [|? ?]] [|? [|? ?]]]; reflexivity].
    destruct args as [|a2 args].
    + cbn [class_type]. apply (Z _ _ _ None None); [reflexivity|]. intros -> -> _. split; reflexivity.
    + destruct args as [|a3 args].
      * destruct a2 as [|v [|v2 vs]].
        -- cbn [class_type]. apply (Z _ _ _ None None); [reflexivity|]. intros -> _ _. split; reflexivity.
        -- cbn [class_type]. apply (Z _ _ _ None None); [intros _; rewrite (F v); reflexivity|]. intros -> _ ->. split; reflexivity.
        -- cbn [class_type]. apply (Z _ _ _ None None); [reflexivity|]. intros -> _ _. split; reflexivity.
      * destruct a2 as [|v [|v2 vs]]; [destruct args; reflexivity| |destruct args; reflexivity].
        destruct args as [|a4 args]; [|reflexivity].
        cbn [class_type]. apply (Z _ _ _ None None); [intros _; rewrite (F v); reflexivity|]. intros _ _ ->. split; reflexivity.
Qed.
Lemma typedefs_ext W G G' : (forall n, ~ In n library_headers -> G n = G' n) -> (forall n, In n library_headers -> W n = None) ->
  forall l T, typedefs W G T l = typedefs W G' T l.
Proof.
  intros HG HW. induction l as [|[n c] l IH]; intros T; [reflexivity|]. cbn [typedefs]. rewrite (class_type_ext W G G' T HG HW c).
  destruct (class_type W G' T c); [apply IH|reflexivity].
Qed.

(** ** The whole program *)
Section Whole.
Context (d : edef) (Wf : wf d).
Let g := prog d.
Definition acceptable (v : variable) : Prop :=
  is_base v = true \/ (is_base v = false /\ In (v_type v) (TNs d) /\ v_optional v = false /\ v_vector v = false).
Lemma own_ne n : In n own_names -> streqb n (ed_name d) = false.
Proof. intros i. apply streqb_ne. intros ->. apply (wf_own d Wf). apply in_or_app. left. exact i. Qed.
Lemma own_ne2 n : In n own_names -> streqb (ed_name d) n = false.
Proof. intros i. apply streqb_ne. intros e. apply (wf_own d Wf). apply in_or_app. left. rewrite e. exact i. Qed.
Lemma is_base_variant v : is_base v = true <-> exists t, base_type_variant (v_type v) = Some t.
Proof. unfold is_base. destruct (base_type_variant (v_type v)) as [t|]; split; [eauto|auto|discriminate|intros [t E]; discriminate]. Qed.
Lemma is_base_none v : is_base v = false <-> base_type_variant (v_type v) = None.
Proof. unfold is_base. destruct (base_type_variant (v_type v)) as [t|]; split; congruence. Qed.
Lemma scope_type x f : scope_of g [x; "MF"; f] = if has x (TNs d) || complete_s g x then Some (KCls x, f) else None.
Proof. unfold scope_of. unfold g. rewrite prog_usings_names. reflexivity. Qed.
Lemma scope_own x f : scope_of g [ed_name d; x; "MF"; f] = if has x (TNs d) then Some (KCls x, f) else None.
Proof. unfold scope_of. unfold g at 2. rewrite prog_usings_names. cbn [g_name g prog]. rewrite streqb_refl. reflexivity. Qed.
Lemma fits_ok v : In v (ed_vars d) -> acceptable v -> fits g (ed_name d) v (kind d v).
Proof.
  intros i [B|(B & T & O & V)].
  - left. split; [exact B|]. apply is_base_variant in B. destruct B as [t E]. exists t. apply (kind_base d Wf). exact E.
  - right. split; [exact B|]. apply is_base_none in B. split; [|split; [exact O|]].
    + rewrite (kind_class d v B). unfold container. rewrite O, V. reflexivity.
    + apply has_true in T. split; intros f; [rewrite scope_type|rewrite scope_own]; rewrite T; reflexivity.
Qed.
Lemma mem_ok v : In v (ed_vars d) -> forall c, member_of g c (String "v" (String "_" (v_name v))) = Some (YLv c (kind d v)).
Proof. intros i c. exact (member_of_var d Wf c v i). Qed.
Lemma kind_ok v : kind_of (map fst (usings (g_body g))) (vtype v) = kind d v.
Proof. unfold g. rewrite prog_usings_names. reflexivity. Qed.

(** The functions of MF. *)
Lemma has_entity v : In v (ed_vars d) -> is_base v = false -> vars_have_entity (entity_of d) = true.
Proof. intros i B. unfold vars_have_entity. apply existsb_exists. exists v. split; [exact i|]. rewrite B. reflexivity. Qed.
Lemma in_flat {A B} (f : A -> list B) l (P : B -> Prop) : (forall x, In x l -> forall y, In y (f x) -> P y) -> forall y, In y (flat_map f l) -> P y.
Proof. intros H y i. apply in_flat_map in i. destruct i as (x & j & k). exact (H x j y k). Qed.
Lemma tcs_app r V a b : forall c, tcs g r V (seqs (a ++ b) c) = tcs g r V (seqs a (seqs b c)).
Proof. intros c. unfold seqs. rewrite fold_right_app. reflexivity. Qed.
Section Ok.
Context (H : forall v, In v (ed_vars d) -> acceptable v).
Lemma clear_body_ok : tcs g (Some (false, RVoid, ByValue)) [("obj", YLv false KSelf)] (blk (flat_map clear_ast (ed_vars d))) = Some [("obj", YLv false KSelf)].
Proof.
  unfold blk. rewrite tcs_seqs; [reflexivity|]. apply in_flat. intros v i.
  apply (clear_keeps g (ed_name d) v _ (mem_ok v i) (fits_ok v i (H v i))).
Qed.
Lemma copy_body_ok : tcs g (Some (false, RVoid, ByValue)) [("dest", YLv false KSelf); ("source", YPtr true KSelf)]
  (blk (sif (ENot (EId ["source"])) (blk [SExpr (ECall (EId ["MF"; "Clear"]) [EId ["dest"]]); SReturn None]) :: flat_map copy_ast (ed_vars d)))
  = Some [("dest", YLv false KSelf); ("source", YPtr true KSelf)].
Proof.
  unfold blk at 1. rewrite tcs_seqs; [reflexivity|]. intros s [<-|i]; [reflexivity|]. revert s i. apply in_flat. intros v i.
  apply (copy_keeps g (ed_name d) v _ (mem_ok v i) (fits_ok v i (H v i))).
Qed.
Lemma equals_body_ok : tcs g (Some (false, RBool, ByValue)) [("lvar", YPtr true KSelf); ("rvar", YPtr true KSelf)]
  (blk ([sif (EEq (EId ["lvar"]) (EId ["rvar"])) (ret true); sif (EOr (ENot (EId ["lvar"])) (ENot (EId ["rvar"]))) (ret false)]
     ++ flat_map (equals_ast (ed_name d)) (ed_vars d) ++ [ret true]))
  = Some [("lvar", YPtr true KSelf); ("rvar", YPtr true KSelf)].
Proof.
  unfold blk. rewrite tcs_app. rewrite tcs_seqs by (intros s [<-|[<-|[]]]; reflexivity). rewrite tcs_app.
  rewrite tcs_seqs; [reflexivity|]. apply in_flat. intros v i.
  apply (equals_keeps g (ed_name d) v _ (mem_ok v i) (fits_ok v i (H v i))).
Qed.
Lemma complete_writer : complete_s g "EntityWriter" = true.
Proof. unfold g. rewrite complete_s_prog. reflexivity. Qed.
Lemma complete_reader : complete_s g "EntityReader" = true.
Proof. unfold g. rewrite complete_s_prog. reflexivity. Qed.
Lemma write_body_ok : exists V, tcs g (Some (false, RBool, ByValue)) [("obj", YLv true KSelf); ("writer", YWriter)]
  (blk (SBool "success" (EBool true) :: (if vars_have_entity (entity_of d) then [SPtr "EntityWriter" "section_writer" ENull] else [])
     ++ flat_map (writer_ast (ed_name d)) (ed_vars d) ++ [ret true])) = Some V.
Proof.
  unfold blk. destruct (vars_have_entity (entity_of d)) eqn:E.
  - exists [("section_writer", YWriterPtr); ("success", YBool); ("obj", YLv true KSelf); ("writer", YWriter)].
    cbn -[complete_s flat_map g]. rewrite complete_writer. cbn [andb]. change (fold_right SSeq SSkip ?l) with (seqs l SSkip). rewrite tcs_app.
    rewrite tcs_seqs; [reflexivity|]. apply in_flat. intros v i.
    exact (writer_keeps g (ed_name d) v _ (mem_ok v i) (kind_ok v) (fits_ok v i (H v i)) [("section_writer", YWriterPtr)] (or_intror eq_refl)).
  - exists [("success", YBool); ("obj", YLv true KSelf); ("writer", YWriter)].
    cbn -[complete_s flat_map g]. change (fold_right SSeq SSkip ?l) with (seqs l SSkip). rewrite tcs_app.
    rewrite tcs_seqs; [reflexivity|]. apply in_flat. intros v i.
    refine (writer_keeps g (ed_name d) v _ (mem_ok v i) (kind_ok v) (fits_ok v i (H v i)) [] (or_introl (conj eq_refl _))).
    destruct (is_base v) eqn:B; [reflexivity|]. rewrite (has_entity v i B) in E. discriminate.
Qed.
Lemma read_body_ok : exists V, tcs g (Some (false, RBool, ByValue)) [("obj", YLv false KSelf); ("reader", YReader)]
  (blk (SBool "success" (EBool true) :: (if vars_have_entity (entity_of d) then [SPtr "EntityReader" "section_reader" ENull] else [])
     ++ flat_map (reader_ast (ed_name d)) (ed_vars d) ++ [ret true])) = Some V.
Proof.
  unfold blk. destruct (vars_have_entity (entity_of d)) eqn:E.
  - exists [("section_reader", YReaderPtr); ("success", YBool); ("obj", YLv false KSelf); ("reader", YReader)].
    cbn -[complete_s flat_map g]. rewrite complete_reader. cbn [andb]. change (fold_right SSeq SSkip ?l) with (seqs l SSkip). rewrite tcs_app.
    rewrite tcs_seqs; [reflexivity|]. apply in_flat. intros v i.
    exact (reader_keeps g (ed_name d) v _ (mem_ok v i) (kind_ok v) (fits_ok v i (H v i)) [("section_reader", YReaderPtr)] (or_intror eq_refl)).
  - exists [("success", YBool); ("obj", YLv false KSelf); ("reader", YReader)].
    cbn -[complete_s flat_map g]. change (fold_right SSeq SSkip ?l) with (seqs l SSkip). rewrite tcs_app.
    rewrite tcs_seqs; [reflexivity|]. apply in_flat. intros v i.
    refine (reader_keeps g (ed_name d) v _ (mem_ok v i) (kind_ok v) (fits_ok v i (H v i)) [] (or_introl (conj eq_refl _))).
    destruct (is_base v) eqn:B; [reflexivity|]. rewrite (has_entity v i B) in E. discriminate.
Qed.
Lemma validate_body_ok : exists V, tcs g (Some (false, RBool, ByValue)) [("obj", YLv true KSelf); ("validator", YValidator)]
  (blk (SBool "success" (EBool true) :: flat_map validator_ast (ed_vars d) ++ [ret true])) = Some V.
Proof.
  exists [("success", YBool); ("obj", YLv true KSelf); ("validator", YValidator)]. unfold blk.
  cbn -[complete_s flat_map g]. change (fold_right SSeq SSkip ?l) with (seqs l SSkip). rewrite tcs_app.
  rewrite tcs_seqs; [reflexivity|]. apply in_flat. intros v i.
  exact (validator_keeps g (ed_name d) v _ (mem_ok v i) (fits_ok v i (H v i))).
Qed.
End Ok.

(** The functions are declared and defined. *)
Lemma self_eq c p x y : param_eqb (Par c (ct (ed_name d)) p x) (Par c (ct (ed_name d)) p y) = true.
Proof. unfold param_eqb. cbn. rewrite streqb_refl. destruct c, p; reflexivity. Qed.
Lemma defined_hd n ps c f l s : f_body f = BCode s -> fname_eqb (f_name f) n && params_eqb (f_params f) ps && Bool.eqb (f_const f) c = true ->
  defined n ps c (f :: l) = Some (f, s).
Proof. intros B E. cbn [defined]. rewrite B, E. reflexivity. Qed.
Lemma defined_tl n ps c f l : fname_eqb (f_name f) n = false -> defined n ps c (f :: l) = defined n ps c l.
Proof. intros E. cbn [defined]. rewrite E. destruct (f_body f); reflexivity. Qed.
Definition fn_of (i : item) : func := match i with IFun r n ps c b => Fn r n ps c b | _ => Fn None (FName []) [] false BDecl end.
Definition code_of (i : item) : stmt := match i with IFun _ _ _ _ (BCode s) => s | _ => SSkip end.
Lemma funcs_src : funcs (g_src g) = [fn_of (clear_item (entity_of d)); fn_of (copy_item (entity_of d)); fn_of (equals_item (entity_of d));
  fn_of (write_item (entity_of d)); fn_of (read_item (entity_of d)); fn_of (validate_item (entity_of d))].
Proof. reflexivity. Qed.
Ltac mfdef := unfold mf_def; rewrite funcs_src; change (g_name g) with (ed_name d); unfold self, other; change (g_name g) with (ed_name d);
  repeat rewrite defined_tl by (cbn; rewrite streqb_refl; reflexivity);
  apply defined_hd; [reflexivity|]; cbn; unfold param_eqb; cbn; rewrite !streqb_refl; reflexivity.
Lemma def_clear : mf_def g "Clear" [self g false ByRef "obj"] = Some (fn_of (clear_item (entity_of d)), code_of (clear_item (entity_of d))).
Proof. mfdef. Qed.
Lemma def_copy : mf_def g "DeepCopy" [self g false ByRef "dest"; self g true ByPtr "source"] = Some (fn_of (copy_item (entity_of d)), code_of (copy_item (entity_of d))).
Proof. mfdef. Qed.
Lemma def_equals : mf_def g "Equals" [self g true ByPtr "lvar"; self g true ByPtr "rvar"] = Some (fn_of (equals_item (entity_of d)), code_of (equals_item (entity_of d))).
Proof. mfdef. Qed.
Lemma def_write : mf_def g "Write" [self g true ByRef "obj"; other "EntityWriter" "writer"] = Some (fn_of (write_item (entity_of d)), code_of (write_item (entity_of d))).
Proof. mfdef. Qed.
Lemma def_read : mf_def g "Read" [self g false ByRef "obj"; other "EntityReader" "reader"] = Some (fn_of (read_item (entity_of d)), code_of (read_item (entity_of d))).
Proof. mfdef. Qed.
Lemma def_validate : mf_def g "Validate" [self g true ByRef "obj"; other "EntityValidator" "validator"] = Some (fn_of (validate_item (entity_of d)), code_of (validate_item (entity_of d))).
Proof. mfdef. Qed.
Lemma mf_declared s : In s (mf_sigs g) -> let '(f, r, ps) := s in declared (Fn (Some (false, r, ByValue)) (FName [f]) ps false BDecl) (funcs (g_mf g)) = true.
Proof.
  cbn [mf_sigs g_name g prog g_mf mf_decls funcs flat_map func_of app].
  intros [<-|[<-|[<-|[<-|[<-|[<-|[]]]]]]]; cbn; unfold param_eqb; cbn; rewrite ?streqb_refl; reflexivity.
Qed.
(** The parameters. *)
Lemma par_self c p x : p = ByRef \/ p = ByPtr -> param_type g (Par c (ct (ed_name d)) p x) = Some (match p with ByPtr => YPtr c KSelf | _ => YLv c KSelf end).
Proof. intros [-> | ->]; unfold param_type; cbn [name_type p_type p_pass ct g_name g prog]; rewrite streqb_refl; reflexivity. Qed.
Lemma par_other n x : In n ["EntityWriter"; "EntityReader"; "EntityValidator"] ->
  param_type g (Par false (ct n) ByRef x) = Some (if streqb n "EntityWriter" then YWriter else if streqb n "EntityReader" then YReader else YValidator).
Proof.
  intros i. unfold param_type. cbn [name_type p_type p_pass p_const ct g_name g prog].
  rewrite own_ne by (revert i; cbn; tauto). destruct i as [<-|[<-|[<-|[]]]]; reflexivity.
Qed.
Ltac funok B := unfold fun_ok; cbn [fst snd fn_of clear_item copy_item equals_item write_item read_item validate_item mf_item f_params f_ret param_types p_name e_name entity_of];
  rewrite ?par_self by auto; rewrite ?par_other by (cbn; tauto); cbn [app code_of mf_item clear_item copy_item equals_item write_item read_item validate_item e_variables entity_of e_name];
  exact B.
Lemma fun_ok_some f V E : param_types g (f_params (fst f)) = Some V -> tcs g (f_ret (fst f)) (V ++ []) (snd f) = Some E -> fun_ok g [] f = true.
Proof. intros A B. unfold fun_ok. rewrite A, B. reflexivity. Qed.
Ltac params := cbn [fst fn_of clear_item copy_item equals_item write_item read_item validate_item mf_item f_params param_types p_name e_name entity_of];
  rewrite ?par_self by auto; rewrite ?par_other by (cbn; tauto); reflexivity.
Lemma mfs_ok : (forall v, In v (ed_vars d) -> acceptable v) -> forallb (mf_ok g) (mf_sigs g) = true.
Proof.
  intros H. apply forallb_forall. intros s i. pose proof (mf_declared s i) as D. destruct s as [[f r] ps]. unfold mf_ok. rewrite D. cbn [andb].
  destruct i as [E|[E|[E|[E|[E|[E|[]]]]]]]; injection E as <- <- <-.
  - rewrite def_clear. apply andb_true_intro. split; [reflexivity|]. eapply fun_ok_some; [params|]. exact (clear_body_ok H).
  - rewrite def_copy. apply andb_true_intro. split; [reflexivity|]. eapply fun_ok_some; [params|]. exact (copy_body_ok H).
  - rewrite def_equals. apply andb_true_intro. split; [reflexivity|]. eapply fun_ok_some; [params|]. exact (equals_body_ok H).
  - rewrite def_write. apply andb_true_intro. split; [reflexivity|]. destruct (write_body_ok H) as [V E]. eapply fun_ok_some; [params|]. exact E.
  - rewrite def_read. apply andb_true_intro. split; [reflexivity|]. destruct (read_body_ok H) as [V E]. eapply fun_ok_some; [params|]. exact E.
  - rewrite def_validate. apply andb_true_intro. split; [reflexivity|]. destruct (validate_body_ok H) as [V E]. eapply fun_ok_some; [params|]. exact E.
Qed.

(** The functions of the class itself. *)
Definition accessors (v : variable) : list func := [fn_of (accessor_item true v); fn_of (accessor_item false v)].
Lemma funcs_body : funcs (g_body g) = map fn_of (filter (fun i => match i with IFun _ _ _ _ _ => true | _ => false end) (op_decls (ed_name d))) ++ flat_map accessors (ed_vars d).
Proof.
  cbn [g_body g prog]. unfold body_items. rewrite !funcs_app.
  change (funcs [IPublic]) with (@nil func).
  replace (funcs (flat_map (fun v => [field_item v]) (ed_vars d))) with (@nil func)
    by (generalize (ed_vars d); induction l as [|v l IH]; [reflexivity|exact IH]).
  replace (funcs (map (fun t => IUsing (td_name t) (tdef_type t)) (ed_templates d))) with (@nil func)
    by (generalize (ed_templates d); induction l as [|v l IH]; [reflexivity|exact IH]).
  cbn [app]. match goal with |- ?a ++ ?b = ?a' ++ ?b' => change a' with a; replace b' with b; [reflexivity|] end.
  generalize (ed_vars d). induction l as [|v l IH]; [reflexivity|]. cbn. do 2 f_equal. exact IH.
Qed.
Lemma funcs_head : funcs (g_head g) = map fn_of (inline_items (ed_name d)).
Proof.
  cbn [g_head g prog]. unfold header_items. rewrite funcs_app.
  replace (funcs (map IForward (map d_name (filter (fun p => negb (d_include p)) (ed_deps d))))) with (@nil func); [reflexivity|].
  generalize (map d_name (filter (fun p => negb (d_include p)) (ed_deps d))). induction l as [|x l IH]; [reflexivity|exact IH].
Qed.
Lemma ops_ok : forallb (op_ok g) (ops g) = true.
Proof.
  apply forallb_forall. intros s i. unfold op_ok.
  unfold declared. rewrite funcs_body, funcs_head. unfold rval, self. change (g_name g) with (ed_name d).
  assert (F : forall r q c b E, tcs g r [("rval", YLv true KSelf); ("this", YPtr c KSelf)] b = Some E ->
    fun_ok g [("this", YPtr c KSelf)] (Fn r q [Par true (ct (ed_name d)) ByRef "rval"] c (BCode b), b) = true).
  { intros r q c b E H. unfold fun_ok. cbn [fst snd f_params f_ret param_types p_name]. rewrite par_self by auto. cbn [app]. rewrite H. reflexivity. }
  destruct i as [<-|[<-|[<-|[<-|[]]]]]; change (g_name g) with (ed_name d); apply andb_true_intro; split;
    try (rewrite existsb_app; apply orb_true_intro; left; cbn; unfold param_eqb; cbn; rewrite !streqb_refl; cbn; reflexivity).
  - unfold inline_items. cbn [map fn_of]. rewrite defined_hd with (s := blk [copy_this]);
      [|reflexivity|cbn; unfold param_eqb; cbn; rewrite !streqb_refl; reflexivity].
    apply andb_true_intro. split; [reflexivity|]. eapply F. reflexivity.
  - unfold inline_items. cbn [map fn_of]. rewrite !defined_tl by reflexivity. rewrite defined_hd with (s := blk [copy_this; SReturn (Some (EDeref EThis))]);
      [|reflexivity|cbn; unfold param_eqb; cbn; rewrite !streqb_refl; reflexivity].
    apply andb_true_intro. split; [cbn; rewrite streqb_refl; reflexivity|]. eapply F. cbn. rewrite streqb_refl. reflexivity.
  - unfold inline_items. cbn [map fn_of]. rewrite !defined_tl by (cbn; rewrite ?streqb_refl; reflexivity). rewrite defined_hd with (s := blk [SReturn (Some equals_this)]);
      [|reflexivity|cbn; unfold param_eqb; cbn; rewrite !streqb_refl; reflexivity].
    apply andb_true_intro. split; [reflexivity|]. eapply F. reflexivity.
  - unfold inline_items. cbn [map fn_of]. rewrite !defined_tl by (cbn; rewrite ?streqb_refl; reflexivity). rewrite defined_hd with (s := blk [SReturn (Some (ENot equals_this))]);
      [|reflexivity|cbn; unfold param_eqb; cbn; rewrite !streqb_refl; reflexivity].
    apply andb_true_intro. split; [reflexivity|]. eapply F. reflexivity.
Qed.
Lemma kind_cases v : acceptable v -> (exists t, base_type_variant (v_type v) = Some t /\ kind d v = KBase t (container v)) \/
  (base_type_variant (v_type v) = None /\ In (v_type v) (TNs d) /\ kind d v = KCls (v_type v)).
Proof.
  intros [B|(B & T & O & V)].
  - apply is_base_variant in B. destruct B as [t E]. left. exists t. split; [exact E|]. exact (kind_base d Wf v t E).
  - right. apply is_base_none in B. split; [exact B|]. split; [exact T|]. rewrite (kind_class d v B). unfold container. rewrite O, V. reflexivity.
Qed.
Lemma inlines_ok : (forall v, In v (ed_vars d) -> acceptable v) -> forallb (inline_ok g) (funcs (g_body g)) = true.
Proof.
  intros H. rewrite funcs_body, forallb_app. apply andb_true_intro. split; [reflexivity|]. apply forallb_forall.
  apply in_flat. intros v i f j.
  assert (K : forall c, returns g (Some (c, vrty v, ByRef)) (Some (YLv c (kind d v))) = true).
  { intros c. assert (C : c || negb c = true) by (destruct c; reflexivity). unfold vrty. destruct (is_bool v) eqn:B.
    - unfold is_bool in B. apply andb_true_iff in B. destruct B as [B1 B2]. apply streqb_eq in B1.
      rewrite (kind_base d Wf v TBool) by (rewrite B1; reflexivity). unfold returns. destruct (container v); try discriminate.
      rewrite kind_base_refl. exact C.
    - pose proof (kind_ok v) as KO.
      assert (E : kind_eqb (kind d v) (kind d v) = true).
      { destruct (kind_cases v (H v i)) as [(t & _ & ->)|(_ & _ & ->)]; [apply kind_base_refl|apply kind_cls_refl]. }
      unfold returns. rewrite KO. 
      destruct (kind_cases v (H v i)) as [(t & _ & K)|(_ & _ & K)]; rewrite K in *; rewrite E, C;
        destruct (vtype v) as [[|n [|? ?]] [|? ?]]; reflexivity. }
  destruct j as [<-|[<-|[]]]; unfold inline_ok, fun_ok; cbn -[returns member_of]; rewrite (mem_ok v i); rewrite K; reflexivity.
Qed.
Lemma members_ok : (forall v, In v (ed_vars d) -> acceptable v) -> forallb (member_ok g) (member_kinds g) = true.
Proof.
  intros H. unfold g. rewrite prog_kinds. apply forallb_forall. intros m i. apply in_map_iff in i. destruct i as (v & <- & i).
  unfold member_ok. cbn [snd]. rewrite prog_usings_names, !complete_h_prog.
  destruct (kind_cases v (H v i)) as [(t & _ & ->)|(_ & T & ->)]; [reflexivity|]. apply has_true in T. rewrite T. reflexivity.
Qed.
Lemma distinct_nodup l : NoDup l -> distinct l = true.
Proof.
  induction 1 as [|x l N _ IH]; [reflexivity|]. cbn [distinct]. rewrite IH. apply has_iff in N. rewrite N. reflexivity.
Qed.
Lemma forwards_body : forwards (g_body g) = ["MF"].
Proof.
  cbn [g_body g prog]. unfold body_items. rewrite !forwards_app.
  replace (forwards (flat_map (fun v => [field_item v]) (ed_vars d))) with (@nil string)
    by (generalize (ed_vars d); induction l as [|v l IH]; [reflexivity|exact IH]).
  replace (forwards (map (fun t => IUsing (td_name t) (tdef_type t)) (ed_templates d))) with (@nil string)
    by (generalize (ed_templates d); induction l as [|v l IH]; [reflexivity|exact IH]).
  replace (forwards (flat_map (fun v => [accessor_item true v; accessor_item false v]) (ed_vars d))) with (@nil string)
    by (generalize (ed_vars d); induction l as [|v l IH]; [reflexivity|exact IH]).
  reflexivity.
Qed.
Lemma nodup_app {A} (a b : list A) : NoDup a -> NoDup b -> (forall x, In x a -> ~ In x b) -> NoDup (a ++ b).
Proof.
  induction 1 as [|x a N _ IH]; intros B H; [exact B|]. cbn [app]. constructor.
  - intros i. apply in_app_or in i. destruct i as [i|i]; [exact (N i)|exact (H x (or_introl eq_refl) i)].
  - apply IH; [exact B|]. intros y i. apply H. right. exact i.
Qed.
Lemma fun_names_in n : In n (fun_names g) -> n = ed_name d \/ exists v, In v (ed_vars d) /\ n = v_name v.
Proof.
  unfold fun_names. rewrite funcs_body, flat_map_app. intros i. apply in_app_or in i. destruct i as [i|i].
  - left. cbn in i. intuition congruence.
  - right. apply in_flat_map in i. destruct i as (f & i & j). apply in_flat_map in i. destruct i as (v & i & [<-|[<-|[]]]);
      cbn in j; destruct j as [<-|[]]; eauto.
Qed.
Lemma names_fine : names_ok g = true.
Proof.
  unfold names_ok. unfold g. rewrite prog_usings_names, prog_kinds, map_map. fold g. rewrite forwards_body. cbn [fst].
  apply andb_true_intro. split; [apply andb_true_intro; split|].
  - apply distinct_nodup. apply nodup_app; [exact (wf_tnodup d Wf)| |].
    + apply nodup_app; [| constructor; [intros []|constructor]|].
      * assert (M : map (fun v => "v_" ^^ v_name v) (ed_vars d) = map (fun n => "v_" ^^ n) (map v_name (ed_vars d))) by (rewrite map_map; reflexivity).
        rewrite M. apply FinFun.Injective_map_NoDup; [|exact (wf_nodup d Wf)]. intros x y e. cbn in e. congruence.
      * intros x i [<-|[]]. apply in_map_iff in i. destruct i as (v & e & _). discriminate e.
    + intros x i j. unfold TNs in i. apply in_map_iff in i. destruct i as (t & <- & i). apply (wf_tname2 d Wf t i).
      apply in_app_or in j. right. apply in_or_app. destruct j as [j|[<-|[]]]; [right; exact j|left; left; reflexivity].
  - apply negb_true_iff. apply not_true_iff_false. intros E. apply existsb_exists in E. destruct E as (n & i & h). apply has_true in h.
    apply fun_names_in in h. destruct h as [->|(v & k & ->)].
    + apply in_app_or in i. destruct i as [i|i]; [|apply in_app_or in i; destruct i as [i|[e|[]]]].
      * unfold TNs in i. apply in_map_iff in i. destruct i as (t & e & i). apply (wf_tname2 d Wf t i). left. exact (eq_sym e).
      * apply (wf_own d Wf). apply in_or_app. right. exact i.
      * apply (wf_own d Wf). apply in_or_app. left. left. exact e.
    + apply (wf_vname d Wf v k). right. apply in_app_or in i. destruct i as [i|i]; [|apply in_app_or in i; destruct i as [i|[e|[]]]].
      * apply in_or_app. right. apply in_or_app. left. exact i.
      * apply in_or_app. right. apply in_or_app. right. exact i.
      * apply in_or_app. left. left. exact e.
  - apply negb_true_iff. apply has_iff. intros i. change (g_name g) with (ed_name d) in i.
    apply in_app_or in i. destruct i as [i|i]; [|apply in_app_or in i; destruct i as [i|[e|[]]]].
    + unfold TNs in i. apply in_map_iff in i. destruct i as (t & e & i). apply (wf_tname2 d Wf t i). left. exact (eq_sym e).
    + apply (wf_own d Wf). apply in_or_app. right. exact i.
    + apply (wf_own d Wf). apply in_or_app. left. left. exact e.
Qed.
Lemma prog_typedefs W : world_ok W d -> class_typedefs W g = defined_classes W d.
Proof.
  intros (H & _). unfold class_typedefs, defined_classes, g. cbn [g_body prog]. rewrite prog_usings.
  apply typedefs_ext; [|exact H]. intros n N. apply seen_prog. exact N.
Qed.
Lemma compiles_ok W T : world_ok W d -> defined_classes W d = Some T -> (forall v, In v (ed_vars d) -> acceptable v) -> compiles W g = true.
Proof.
  intros Ww HT H. unfold compiles. rewrite (prog_typedefs W Ww), HT.
  rewrite names_fine, (members_ok H), (inlines_ok H), (mfs_ok H), ops_ok.
  unfold g at 1. rewrite complete_s_prog. cbn [g_name prog]. replace (has (ed_name d) _) with true; [reflexivity|].
  symmetry. apply has_true. cbn. auto 10.
Qed.
Lemma mf_body_fails s V : In s (mf_sigs g) -> forall f r ps b x, s = (f, r, ps) -> mf_def g f ps = Some (b, x) ->
  param_types g (f_params b) = Some V -> tcs g (f_ret b) (V ++ []) x = None -> forallb (mf_ok g) (mf_sigs g) = false.
Proof.
  intros i f r ps b x -> D P E. apply not_true_iff_false. intros A. rewrite forallb_forall in A. specialize (A _ i).
  unfold mf_ok in A. rewrite D in A. rewrite !andb_true_iff in A. destruct A as (_ & _ & A). unfold fun_ok in A. cbn [fst snd] in A.
  rewrite P, E in A. discriminate.
Qed.
Lemma compiles_only W : world_ok W d -> compiles W g = true -> (exists T, defined_classes W d = Some T) /\ forall v, In v (ed_vars d) -> acceptable v.
Proof.
  intros Ww C. unfold compiles in C. rewrite (prog_typedefs W Ww) in C. destruct (defined_classes W d) as [T|]; [|discriminate].
  split; [eauto|]. rewrite !andb_true_iff in C. destruct C as (((((_ & _) & M) & _) & F) & _).
  intros v i. destruct (is_base v) eqn:B; [left; exact B|]. right. split; [exact B|].
  pose proof (proj1 (is_base_none v) B) as E. pose proof (kind_class d v E) as K.
  assert (M' : member_ok g ("v_" ^^ v_name v, kind d v) = true).
  { rewrite forallb_forall in M. apply M. unfold g. rewrite prog_kinds. apply in_map_iff. exists v. auto. }
  destruct (container v) eqn:Ec; rewrite K in M'; try discriminate M'.
  - assert (O : v_optional v = false /\ v_vector v = false) by (unfold container in Ec; destruct (v_optional v), (v_vector v), (v_indexed v); try discriminate; auto).
    split; [|exact O]. destruct (has (v_type v) (TNs d)) eqn:Ht; [apply has_true; exact Ht|]. exfalso.
    assert (S : forall f, scope_of g [ed_name d; v_type v; "MF"; f] = None) by (intros f; rewrite scope_own, Ht; reflexivity).
    destruct (equals_fails g (ed_name d) v (Some (false, RBool, ByValue)) B S) as (s & j & N).
    enough (Z : forallb (mf_ok g) (mf_sigs g) = false) by congruence.
    eapply mf_body_fails; [right; right; left; reflexivity|reflexivity|exact def_equals|params|].
    change (tcs g (Some (false, RBool, ByValue)) [("lvar", YPtr true KSelf); ("rvar", YPtr true KSelf)]
      (seqs ([sif (EEq (EId ["lvar"]) (EId ["rvar"])) (ret true); sif (EOr (ENot (EId ["lvar"])) (ENot (EId ["rvar"]))) (ret false)]
        ++ flat_map (equals_ast (ed_name d)) (ed_vars d) ++ [ret true]) SSkip) = None).
    rewrite tcs_app. rewrite tcs_seqs by (intros x [<-|[<-|[]]]; reflexivity). rewrite tcs_app.
    eapply tcs_fails; [apply in_flat_map; exists v; split; [exact i|exact j]| |exact N].
    apply in_flat. intros w _. apply equals_no_decl.
  - exfalso. destruct (clear_fails g v _ (mem_ok v i) (Some (false, RVoid, ByValue)) B K) as (s & j & N).
    enough (Z : forallb (mf_ok g) (mf_sigs g) = false) by congruence.
    eapply mf_body_fails; [left; reflexivity|reflexivity|exact def_clear|params|].
    change (tcs g (Some (false, RVoid, ByValue)) [("obj", YLv false KSelf)] (seqs (flat_map clear_ast (ed_vars d)) SSkip) = None).
    eapply tcs_fails; [apply in_flat_map; exists v; split; [exact i|exact j]| |exact N].
    apply in_flat. intros w _. apply clear_no_decl.
Qed.
End Whole.
