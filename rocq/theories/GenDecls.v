(** * GenDecls: the declarations in the generated files, parsed. Proofs. *)
From Coq Require Import Strings.String Strings.Ascii.
From Verif Require Import Base Types GenText CppText CppSem GenTextSpec GenLex GenParse.
Local Open Scope string_scope.
Local Open Scope list_scope.

(** ** Lists of declarations *)
Record dparses (n : nat) (ts : list tok) (is : list item) : Prop := {
  dp_len : (length is <= length ts)%nat;
  dp_run : forall rest k,
    pdecls (pnest (S n)) (length is + k) (ts ++ rest)
    = match pdecls (pnest (S n)) k rest with Some (b, r) => Some (is ++ b, r) | None => None end }.
Lemma dparses_nil n : dparses n [] [].
Proof.
  split; [cbn; lia|]. intros rest k. cbn [length Nat.add app].
  destruct (pdecls (pnest (S n)) k rest) as [[b r]|]; reflexivity.
Qed.
Lemma dparses_app n t1 s1 t2 s2 : dparses n t1 s1 -> dparses n t2 s2 -> dparses n (t1 ++ t2) (s1 ++ s2).
Proof.
  intros A B. split.
  - rewrite !app_length. pose proof (dp_len _ _ _ A). pose proof (dp_len _ _ _ B). lia.
  - intros rest k. rewrite <- app_assoc. rewrite app_length, <- Nat.add_assoc.
    rewrite (dp_run _ _ _ A), (dp_run _ _ _ B).
    destruct (pdecls (pnest (S n)) k rest) as [[b r]|]; [|reflexivity]. rewrite <- app_assoc. reflexivity.
Qed.
Lemma dparses_flat {A} n (f : A -> list tok) (g : A -> list item) l :
  (forall x, In x l -> dparses n (f x) (g x)) -> dparses n (flat_map f l) (flat_map g l).
Proof.
  induction l as [|x l IH]; intros H; cbn [flat_map]; [exact (dparses_nil n)|].
  apply dparses_app; [apply H; left; reflexivity|]. apply IH. intros y i. apply H. right. exact i.
Qed.
Lemma dparses_one n t ts i :
  t <> Sy RBrace -> (forall rest, pnest (S n) (t :: ts ++ rest) = Some (i, rest)) -> dparses n (t :: ts) [i].
Proof.
  intros N H. split; [cbn; lia|]. intros rest k. cbn [length Nat.add app].
  assert (G : pdecls (pnest (S n)) (S k) (t :: ts ++ rest) = (pbind (pnest (S n)) (fun a => pbind (pdecls (pnest (S n)) k) (fun b => pret (a :: b)))) (t :: ts ++ rest)).
  { destruct t as [?|?|?|[]|?]; try reflexivity. congruence. }
  rewrite G. unfold pbind. rewrite H. unfold pret. destruct (pdecls (pnest (S n)) k rest) as [[b r]|]; reflexivity.
Qed.
Lemma dparses_cons n t ts i us is :
  t <> Sy RBrace -> (forall rest, pnest (S n) (t :: ts ++ rest) = Some (i, rest)) -> dparses n us is -> dparses n (t :: ts ++ us) (i :: is).
Proof. intros N H D. exact (dparses_app n (t :: ts) [i] us is (dparses_one n t ts i N H) D). Qed.
Lemma pdecls_mono p k : forall l x j, pdecls p k l = Some x -> (k <= j)%nat -> pdecls p j l = Some x.
Proof.
  induction k as [|k IH]; intros l x j H Hj.
  - destruct l as [|[?|?|?|[]|?] l]; cbn in H; try discriminate. destruct j; exact H.
  - destruct j as [|j]; [lia|].
    assert (C : (exists r, l = Sy RBrace :: r) \/ (forall m, pdecls p (S m) l = (pbind p (fun a => pbind (pdecls p m) (fun b => pret (a :: b)))) l)).
    { destruct l as [|[?|?|?|[]|?] l]; try (right; reflexivity). left. eauto. }
    destruct C as [[r ->]|C]; [exact H|]. rewrite C in H |- *. unfold pbind in *.
    destruct (p l) as [[a r]|]; [|discriminate].
    destruct (pdecls p k r) as [[b r2]|] eqn:E; [|discriminate]. rewrite (IH _ _ j E) by lia. exact H.
Qed.
Lemma dparses_block n ts is rest : dparses n ts is ->
  pdecls (pnest (S n)) (length (ts ++ Sy RBrace :: rest)) (ts ++ Sy RBrace :: rest) = Some (is, rest).
Proof.
  intros H. apply pdecls_mono with (k := (length is + 0)%nat).
  - rewrite (dp_run _ _ _ H). cbn [pdecls]. rewrite app_nil_r. reflexivity.
  - rewrite app_length. pose proof (dp_len _ _ _ H). lia.
Qed.

(** ** Functions with a body *)
Lemma pfun_code ret n l ps r s rest :
  pformals l = Some (ps, Sy LBrace :: r) -> pblock (pstmt depth) (length r) r = Some (s, rest) ->
  pfun ret n l = Some (IFun ret n ps false (BCode s), rest).
Proof. intros A B. unfold pfun, pbind. rewrite A. cbn [pconst pbody]. unfold pbind. rewrite B. reflexivity. Qed.
Lemma pfun_code_const ret n l ps r s rest :
  pformals l = Some (ps, Kw KConst :: Sy LBrace :: r) -> pblock (pstmt depth) (length r) r = Some (s, rest) ->
  pfun ret n l = Some (IFun ret n ps true (BCode s), rest).
Proof. intros A B. unfold pfun, pbind. rewrite A. cbn [pconst pbody]. unfold pbind. rewrite B. reflexivity. Qed.

(** A class with its members. *)
Lemma class_item n e ts is rest : dparses n ts is ->
  pnest (S (S n)) (Kw KClass :: Id e :: Sy LBrace :: ts ++ Sy RBrace :: Sy Semi :: rest) = Some (IClass [e] is, rest).
Proof.
  intros D. change (pnest (S (S n))) with (pdecl (fun l => pdecls (pnest (S n)) (List.length l) l)).
  unfold pdecl, pbind, pret.
  match goal with |- context [qname depth ?l] => change (qname depth l) with (Some ([e], Sy LBrace :: ts ++ Sy RBrace :: Sy Semi :: rest)) end.
  cbv beta iota. cbn [need sym_eqb]. rewrite (dparses_block n ts is _ D). reflexivity.
Qed.
Lemma nested_item n e f ts is rest : dparses n ts is ->
  pnest (S (S n)) (Kw KClass :: Id e :: Sy Colons :: Id f :: Sy LBrace :: ts ++ Sy RBrace :: Sy Semi :: rest) = Some (IClass [e; f] is, rest).
Proof.
  intros D. change (pnest (S (S n))) with (pdecl (fun l => pdecls (pnest (S n)) (List.length l) l)).
  unfold pdecl, pbind, pret.
  match goal with |- context [qname depth ?l] => change (qname depth l) with (Some ([e; f], Sy LBrace :: ts ++ Sy RBrace :: Sy Semi :: rest)) end.
  cbv beta iota. cbn [need sym_eqb]. rewrite (dparses_block n ts is _ D). reflexivity.
Qed.

(** ** The source file *)
Definition ct (n : string) : cty := Ct [n] [].
Definition mf_item (e : string) (r : rty) (f : string) (ps : list param) (ss : list stmt) : item :=
  IFun (Some (false, r, ByValue)) (FName [e; "MF"; f]) ps false (BCode (blk ss)).
Definition clear_item (e : entity) : item :=
  mf_item (e_name e) RVoid "Clear" [Par false (ct (e_name e)) ByRef "obj"] (flat_map clear_ast (e_variables e)).
Definition copy_item (e : entity) : item :=
  mf_item (e_name e) RVoid "DeepCopy" [Par false (ct (e_name e)) ByRef "dest"; Par true (ct (e_name e)) ByPtr "source"]
    (sif (ENot (EId ["source"])) (blk [SExpr (ECall (EId ["MF"; "Clear"]) [EId ["dest"]]); SReturn None]) :: flat_map copy_ast (e_variables e)).
Definition equals_item (e : entity) : item :=
  mf_item (e_name e) RBool "Equals" [Par true (ct (e_name e)) ByPtr "lvar"; Par true (ct (e_name e)) ByPtr "rvar"]
    ([sif (EEq (EId ["lvar"]) (EId ["rvar"])) (ret true); sif (EOr (ENot (EId ["lvar"])) (ENot (EId ["rvar"]))) (ret false)]
     ++ flat_map (equals_ast (e_name e)) (e_variables e) ++ [ret true]).
Definition write_item (e : entity) : item :=
  mf_item (e_name e) RBool "Write" [Par true (ct (e_name e)) ByRef "obj"; Par false (ct "EntityWriter") ByRef "writer"]
    (SBool "success" (EBool true) :: (if vars_have_entity e then [SPtr "EntityWriter" "section_writer" ENull] else [])
     ++ flat_map (writer_ast (e_name e)) (e_variables e) ++ [ret true]).
Definition read_item (e : entity) : item :=
  mf_item (e_name e) RBool "Read" [Par false (ct (e_name e)) ByRef "obj"; Par false (ct "EntityReader") ByRef "reader"]
    (SBool "success" (EBool true) :: (if vars_have_entity e then [SPtr "EntityReader" "section_reader" ENull] else [])
     ++ flat_map (reader_ast (e_name e)) (e_variables e) ++ [ret true]).
Definition validate_item (e : entity) : item :=
  mf_item (e_name e) RBool "Validate" [Par true (ct (e_name e)) ByRef "obj"; Par false (ct "EntityValidator") ByRef "validator"]
    (SBool "success" (EBool true) :: flat_map validator_ast (e_variables e) ++ [ret true]).
Definition source_items (e : entity) : list item :=
  [clear_item e; copy_item e; equals_item e; write_item e; read_item e; validate_item e].

Ltac toks := unfold tokens; cbn [map app]; lex_all; vm_compute; reflexivity.
Section Source.
Context (e : entity) (He : good (e_name e) (Id (e_name e))).
Context (Hv : forall v, In v (e_variables e) -> vgood v /\ variable_ok v = true).


(** A function of MF: its first line, its body. *)
Lemma mf_fun (void : bool) n f F ps body ss :
  parses body ss -> (forall X, pformals (Sy LPar :: F ++ Sy LBrace :: X) = Some (ps, Sy LBrace :: X)) ->
  dparses 39 ((Kw (if void then KVoid else KBool) :: Id n :: Sy Colons :: Id "MF" :: Sy Colons :: Id f :: Sy LPar :: F ++ [Sy LBrace]) ++ body ++ [Sy RBrace])
    [mf_item n (if void then RVoid else RBool) f ps ss].
Proof.
  intros B Hf. cbn [app]. apply dparses_one; [destruct void; discriminate|]. intros rest.
  transitivity (pfun (Some (false, if void then RVoid else RBool, ByValue)) (FName [n; "MF"; f]) (Sy LPar :: F ++ Sy LBrace :: body ++ Sy RBrace :: rest)).
  - do 3 (rewrite <- ?app_assoc; cbn [app]). destruct void; reflexivity.
  - eapply pfun_code; [apply Hf|]. exact (parses_block body ss rest B).
Qed.
Lemma ret_parses (b : bool) : parses [Kw KReturn; Kw (if b then KTrue else KFalse); Sy Semi] [ret b].
Proof. destruct b; parse_all. Qed.
Lemma tok_ret : tokens [ "        return true;"; "        }"; "" ] = [Kw KReturn; Kw KTrue; Sy Semi] ++ [Sy RBrace].
Proof. reflexivity. Qed.

Lemma clear_item_ok : dparses 39 (tokens (source_clear e)) [clear_item e].
Proof.
  unfold source_clear. rewrite !tokens_app, tokens_flat.
  assert (E : tokens [ "    void " ^^ e_name e ^^ "::MF::Clear( " ^^ e_name e ^^ " &obj )"; "        {"; "        // direct clear calls on variables and Entities" ]
    = [Kw KVoid; Id (e_name e); Sy Colons; Id "MF"; Sy Colons; Id "Clear"; Sy LPar] ++ [Id (e_name e); Sy Amp; Id "obj"; Sy RPar] ++ [Sy LBrace]) by toks.
  rewrite E. change (tokens [ "        }"; "" ]) with [Sy RBrace].
  refine (mf_fun true _ _ _ _ _ _ _ _); [|reflexivity].
  apply parses_flat. intros v i. apply clear_parses. exact (proj1 (Hv v i)).
Qed.
Lemma copy_item_ok : dparses 39 (tokens (source_copy e)) [copy_item e].
Proof.
  unfold source_copy. rewrite !tokens_app, tokens_flat.
  assert (E : tokens [ "    void " ^^ e_name e ^^ "::MF::DeepCopy( " ^^ e_name e ^^ " &dest, const " ^^ e_name e ^^ " *source )"; "        {";
      "        // just call Clear if source is nullptr"; "        if( !source )"; "            {"; "            MF::Clear( dest );"; "            return;"; "            }" ]
    = ([Kw KVoid; Id (e_name e); Sy Colons; Id "MF"; Sy Colons; Id "DeepCopy"; Sy LPar] ++
       [Id (e_name e); Sy Amp; Id "dest"; Sy Comma; Kw KConst; Id (e_name e); Sy Star; Id "source"; Sy RPar] ++ [Sy LBrace]) ++
      [Kw KIf; Sy LPar; Sy Bang; Id "source"; Sy RPar; Sy LBrace; Id "MF"; Sy Colons; Id "Clear"; Sy LPar; Id "dest"; Sy RPar; Sy Semi;
       Kw KReturn; Sy Semi; Sy RBrace]) by toks.
  rewrite E. change (tokens [ "        }"; "" ]) with [Sy RBrace]. rewrite <- (app_assoc (_ ++ _ ++ [Sy LBrace])). rewrite (app_assoc _ _ [Sy RBrace]).
  refine (mf_fun true _ _ _ _ _ _ _ _); [|reflexivity].
  apply (parses_app _ [_]); [parse_all|].
  apply parses_flat. intros v i. apply copy_parses. exact (proj1 (Hv v i)).
Qed.
Lemma equals_item_ok : dparses 39 (tokens (source_equals e)) [equals_item e].
Proof.
  unfold source_equals. rewrite !tokens_app, tokens_flat, tok_ret.
  match goal with |- context [tokens ?l] => assert (E : tokens l
    = ([Kw KBool; Id (e_name e); Sy Colons; Id "MF"; Sy Colons; Id "Equals"; Sy LPar] ++
       [Kw KConst; Id (e_name e); Sy Star; Id "lvar"; Sy Comma; Kw KConst; Id (e_name e); Sy Star; Id "rvar"; Sy RPar] ++ [Sy LBrace]) ++
      [Kw KIf; Sy LPar; Id "lvar"; Sy EqEq; Id "rvar"; Sy RPar; Kw KReturn; Kw KTrue; Sy Semi;
       Kw KIf; Sy LPar; Sy Bang; Id "lvar"; Sy BarBar; Sy Bang; Id "rvar"; Sy RPar; Kw KReturn; Kw KFalse; Sy Semi]) by toks end.
  rewrite E. clear E. rewrite <- (app_assoc (_ ++ _ ++ [Sy LBrace])). rewrite (app_assoc _ _ [Sy RBrace]), (app_assoc _ _ [Sy RBrace]).
  refine (mf_fun false _ _ _ _ _ _ _ _); [|reflexivity].
  apply parses_app; [parse_all|]. apply parses_app; [|exact (ret_parses true)].
  apply parses_flat. intros v i. apply equals_parses; [exact (proj1 (Hv v i))|exact He].
Qed.
Lemma write_item_ok : dparses 39 (tokens (source_write e)) [write_item e].
Proof.
  unfold source_write. rewrite !tokens_app, tokens_flat, tok_ret. change (tokens [""]) with (@nil tok).
  match goal with |- context [tokens ?l] => assert (E : tokens l
    = ([Kw KBool; Id (e_name e); Sy Colons; Id "MF"; Sy Colons; Id "Write"; Sy LPar] ++
       [Kw KConst; Id (e_name e); Sy Amp; Id "obj"; Sy Comma; Id "EntityWriter"; Sy Amp; Id "writer"; Sy RPar] ++ [Sy LBrace]) ++
      [Kw KBool; Id "success"; Sy Eq; Kw KTrue; Sy Semi]) by toks end.
  rewrite E. clear E. rewrite <- (app_assoc (_ ++ _ ++ [Sy LBrace])). rewrite app_nil_l.
  do 3 rewrite (app_assoc _ _ [Sy RBrace]).
  refine (mf_fun false _ _ _ _ _ _ _ _); [|reflexivity].
  apply (parses_app _ [_]); [parse_all|]. apply parses_app.
  { destruct (vars_have_entity e); [|exact parses_nil]. lex_parse. }
  apply parses_app; [|exact (ret_parses true)].
  apply parses_flat. intros v i. destruct (Hv v i). apply writer_parses; assumption.
Qed.
Lemma read_item_ok : dparses 39 (tokens (source_read e)) [read_item e].
Proof.
  unfold source_read. rewrite !tokens_app, tokens_flat, tok_ret. change (tokens [""]) with (@nil tok).
  match goal with |- context [tokens ?l] => assert (E : tokens l
    = ([Kw KBool; Id (e_name e); Sy Colons; Id "MF"; Sy Colons; Id "Read"; Sy LPar] ++
       [Id (e_name e); Sy Amp; Id "obj"; Sy Comma; Id "EntityReader"; Sy Amp; Id "reader"; Sy RPar] ++ [Sy LBrace]) ++
      [Kw KBool; Id "success"; Sy Eq; Kw KTrue; Sy Semi]) by toks end.
  rewrite E. clear E. rewrite <- (app_assoc (_ ++ _ ++ [Sy LBrace])). rewrite app_nil_l.
  do 3 rewrite (app_assoc _ _ [Sy RBrace]).
  refine (mf_fun false _ _ _ _ _ _ _ _); [|reflexivity].
  apply (parses_app _ [_]); [parse_all|]. apply parses_app.
  { destruct (vars_have_entity e); [|exact parses_nil]. lex_parse. }
  apply parses_app; [|exact (ret_parses true)].
  apply parses_flat. intros v i. destruct (Hv v i). apply reader_parses; assumption.
Qed.
Lemma validate_item_ok : dparses 39 (tokens (source_validate e)) [validate_item e].
Proof.
  unfold source_validate. rewrite !tokens_app, tokens_flat, tok_ret.
  match goal with |- context [tokens ?l] => assert (E : tokens l
    = ([Kw KBool; Id (e_name e); Sy Colons; Id "MF"; Sy Colons; Id "Validate"; Sy LPar] ++
       [Kw KConst; Id (e_name e); Sy Amp; Id "obj"; Sy Comma; Id "EntityValidator"; Sy Amp; Id "validator"; Sy RPar] ++ [Sy LBrace]) ++
      [Kw KBool; Id "success"; Sy Eq; Kw KTrue; Sy Semi]) by toks end.
  rewrite E. clear E. rewrite <- (app_assoc (_ ++ _ ++ [Sy LBrace])). rewrite (app_assoc _ _ [Sy RBrace]), (app_assoc _ _ [Sy RBrace]).
  refine (mf_fun false _ _ _ _ _ _ _ _); [|reflexivity].
  apply (parses_app _ [_]); [parse_all|]. apply parses_app; [|exact (ret_parses true)].
  apply parses_flat. intros v i. apply validator_parses. exact (proj1 (Hv v i)).
Qed.
End Source.

(** ** Lines that are no directives *)
Fixpoint plain (s : string) : bool :=
  match s with EmptyString => true | String c r => if space c then plain r else negb (Ascii.eqb c "#") end.
Lemma word_hash a : is_directive [word a] = false.
Proof.
  unfold word. generalize keywords. induction l as [|[n k] l IH]; cbn; [reflexivity|]. destruct (String.eqb a n); [reflexivity|exact IH].
Qed.
Lemma word_hash2 a l : is_directive (word a :: l) = false.
Proof. exact (word_hash a). Qed.
Lemma id_not_directive : forall s a, is_directive (lx (MId a) s) = false.
Proof.
  induction s as [|c s IH]; intros a; cbn [lx]; [exact (word_hash a)|].
  destruct (id_char c); [apply IH|]. apply word_hash2.
Qed.
Lemma str_not_directive : forall s a, is_directive (lx (MStr a) s) = false.
Proof.
  induction s as [|c s IH]; intros a; cbn [lx]; [reflexivity|]. destruct (Ascii.eqb c """"); [reflexivity|]. apply IH.
Qed.
Lemma sym1_hash c : Ascii.eqb c "#" = false -> forall l, is_directive (sym1 c :: l) = false.
Proof. destruct c as [[|] [|] [|] [|] [|] [|] [|] [|]]; cbn; intros H l; try discriminate H; reflexivity. Qed.
Lemma sym2_hash c d y : sym2 c d = Some y -> y <> Hash.
Proof.
  destruct c as [[|] [|] [|] [|] [|] [|] [|] [|]]; cbn; try discriminate;
    destruct d as [[|] [|] [|] [|] [|] [|] [|] [|]]; cbn; try discriminate; intros H; injection H as <-; discriminate.
Qed.
Lemma plain_not_directive : forall s, plain s = true -> is_directive (lex_line s) = false.
Proof.
  unfold lex_line. induction s as [|c s IH]; cbn [plain lx]; intros H; [reflexivity|].
  destruct (id_char c); [apply id_not_directive|]. destruct (space c); [exact (IH H)|].
  destruct (Ascii.eqb c """"); [apply str_not_directive|].
  assert (N : Ascii.eqb c "#" = false) by (destruct (Ascii.eqb c "#"); [discriminate|reflexivity]).
  destruct s as [|d s]; [apply (sym1_hash c N)|]. destruct (comment c d); [reflexivity|].
  destruct (sym2 c d) as [y|] eqn:E; [|apply (sym1_hash c N)].
  pose proof (sym2_hash c d y E) as Y. destruct y; try reflexivity. congruence.
Qed.
Lemma plain_includes l : forallb plain l = true -> includes l = [].
Proof.
  induction l as [|s l IH]; intros H; [reflexivity|]. cbn [forallb] in H. apply andb_prop in H. destruct H as [H1 H2].
  change (s :: l) with ([s] ++ l). rewrite includes_app, (IH H2). unfold includes, directives. cbn [map filter].
  rewrite (plain_not_directive s H1). reflexivity.
Qed.
Lemma plain_good s t r : good s t -> plain (s ^^ r) = true.
Proof.
  intros (C & E & _). destruct s as [|c s]; [congruence|]. cbn in C |- *. apply andb_prop in C. destruct C as [C _].
  revert C. destruct c as [[|] [|] [|] [|] [|] [|] [|] [|]]; vm_compute; congruence.
Qed.
Lemma includes_flat {A} (f : A -> list string) l : includes (flat_map f l) = flat_map (fun x => includes (f x)) l.
Proof. induction l as [|x l IH]; cbn [flat_map]; [reflexivity|]. rewrite includes_app, IH. reflexivity. Qed.
Lemma flat_map_nil {A B} (f : A -> list B) l : (forall x, In x l -> f x = []) -> flat_map f l = [].
Proof. induction l as [|x l IH]; intros H; cbn; [reflexivity|]. rewrite H by (left; reflexivity). apply IH. intros y i. apply H. right. exact i. Qed.
Lemma flat_map_ext_in {A B} (f g : A -> list B) l : (forall x, In x l -> f x = g x) -> flat_map f l = flat_map g l.
Proof. induction l as [|x l IH]; intros H; cbn; [reflexivity|]. rewrite H by (left; reflexivity). f_equal. apply IH. intros y i. apply H. right. exact i. Qed.
Ltac plain_lines :=
  apply plain_includes; cbn [forallb plain append space]; repeat (apply andb_true_intro; split); try reflexivity;
  cbn; try reflexivity; try (eapply plain_good; eassumption).

Lemma noquote_app a b : noquote (a ^^ b) = noquote a && noquote b.
Proof. induction a as [|c a IH]; cbn; [reflexivity|]. rewrite IH. apply andb_assoc. Qed.
Lemma include_line n : noquote n = true ->
  lex_line ("#include " ^^ dq ^^ "ISD_" ^^ n ^^ ".h" ^^ dq) = [Sy Hash; Id "include"; Str (file_of n)].
Proof.
  intros H. assert (N : noquote (file_of n) = true) by (unfold file_of; rewrite !noquote_app, H; reflexivity).
  transitivity (lx MNone (text [L ("#include " ^^ dq); Q (file_of n); L dq])).
  - unfold lex_line. f_equal. unfold file_of. cbn [text]. rewrite app_nil_s, !app_assoc_s. reflexivity.
  - apply plex_ok; [cbn; auto|]. reflexivity.
Qed.
Lemma include_lines_tokens (l : list string) : (forall n, In n l -> noquote n = true) ->
  tokens (flat_map (fun n => ["#include " ^^ dq ^^ "ISD_" ^^ n ^^ ".h" ^^ dq]) l) = [] /\
  includes (flat_map (fun n => ["#include " ^^ dq ^^ "ISD_" ^^ n ^^ ".h" ^^ dq]) l) = map file_of l.
Proof.
  induction l as [|n l IH]; intros H; [split; reflexivity|]. cbn [flat_map].
  destruct IH as [A B]; [intros m i; apply H; right; exact i|]. rewrite tokens_app, includes_app, A, B.
  unfold tokens, includes, directives. cbn [map]. rewrite (include_line n) by (apply H; left; reflexivity). split; reflexivity.
Qed.

Section SourceFile.
Context (e : entity) (He : good (e_name e) (Id (e_name e))).
Context (Hv : forall v, In v (e_variables e) -> vgood v /\ variable_ok v = true).
Context (Hd : forall d, In d (e_deps e) -> noquote (d_name d) = true).

Lemma deps_lines (b : bool) :
  flat_map (fun d => if d_include d then if b then ["#include " ^^ dq ^^ "ISD_" ^^ d_name d ^^ ".h" ^^ dq] else [] else
                     if b then [] else ["#include " ^^ dq ^^ "ISD_" ^^ d_name d ^^ ".h" ^^ dq]) (e_deps e)
  = flat_map (fun n => ["#include " ^^ dq ^^ "ISD_" ^^ n ^^ ".h" ^^ dq]) (map d_name (filter (fun d => Bool.eqb b (d_include d)) (e_deps e))).
Proof.
  clear Hd. generalize (e_deps e). induction l as [|d l IH]; [reflexivity|]. cbn [flat_map filter]. rewrite IH. destruct b, (d_include d); reflexivity.
Qed.
Lemma deps_noquote b n : In n (map d_name (filter (fun d => Bool.eqb b (d_include d)) (e_deps e))) -> noquote n = true.
Proof. intros H. apply in_map_iff in H. destruct H as (d & <- & i). apply filter_In in i. apply Hd. apply i. Qed.

Lemma source_head_tokens : tokens (source_head e) = [Kw KNamespace; Id "ISD"; Sy LBrace].
Proof.
  unfold source_head. rewrite !tokens_app. rewrite (deps_lines false).
  rewrite (proj1 (include_lines_tokens _ (deps_noquote false))).
  change (tokens [""; "namespace ISD"; "    {"]) with [Kw KNamespace; Id "ISD"; Sy LBrace].
  match goal with |- tokens ?l ++ _ = _ => replace (tokens l) with (@nil tok); [reflexivity|] end.
  unfold tokens. cbn [map]. rewrite (include_line (e_name e)) by exact (good_noquote _ _ He). reflexivity.
Qed.
Lemma source_parses : parse (source_lines e) = Some ("ISD", source_items e).
Proof.
  unfold parse, source_lines. rewrite !tokens_app, source_head_tokens. cbn [app]. unfold pfile.
  assert (D : dparses 39 (tokens (source_clear e) ++ tokens (source_copy e) ++ tokens (source_equals e) ++ tokens (source_write e)
    ++ tokens (source_read e) ++ tokens (source_validate e)) (source_items e)).
  { unfold source_items.
    apply (dparses_app 39 _ [_]); [apply clear_item_ok; assumption|].
    apply (dparses_app 39 _ [_]); [apply copy_item_ok; assumption|].
    apply (dparses_app 39 _ [_]); [apply equals_item_ok; assumption|].
    apply (dparses_app 39 _ [_]); [apply write_item_ok; assumption|].
    apply (dparses_app 39 _ [_]); [apply read_item_ok; assumption|].
    apply validate_item_ok; assumption. }
  change (tokens ["    };"]) with [Sy RBrace; Sy Semi].
  rewrite !app_assoc in D. rewrite !app_assoc.
  change depth with 40%nat. rewrite (dparses_block 39 _ _ [Sy Semi] D). reflexivity.
Qed.
Lemma source_includes : includes (source_lines e)
  = map file_of (["Types"; "EntityWriter"; "EntityReader"; "EntityValidator"; e_name e] ++ map d_name (filter (fun d => negb (d_include d)) (e_deps e))).
Proof.
  unfold source_lines, source_head. rewrite !includes_app, (deps_lines false), (proj2 (include_lines_tokens _ (deps_noquote false))).
  assert (Z : forall l, forallb plain l = true -> includes l = []) by exact plain_includes.
  assert (C : includes (source_clear e) = []).
  { unfold source_clear. rewrite !includes_app, includes_flat. rewrite flat_map_nil; [plain_lines|].
    intros v i. destruct (Hv v i) as [[Hn Ht _] _]. unfold clear_call. destruct (is_base v), (v_optional v); plain_lines. }
  assert (C2 : includes (source_copy e) = []).
  { unfold source_copy. rewrite !includes_app, includes_flat. rewrite flat_map_nil; [plain_lines|].
    intros v i. destruct (Hv v i) as [[Hn Ht _] _]. unfold copy_call. destruct (is_base v), (v_optional v); plain_lines. }
  assert (C3 : includes (source_equals e) = []).
  { unfold source_equals. rewrite !includes_app, includes_flat. rewrite flat_map_nil; [plain_lines|].
    intros v i. destruct (Hv v i) as [[Hn Ht _] _]. unfold equals_call. destruct (is_base v), (v_optional v); plain_lines. }
  assert (C4 : includes (source_write e) = []).
  { unfold source_write. rewrite !includes_app, includes_flat. rewrite flat_map_nil; [destruct (vars_have_entity e); plain_lines|].
    intros v i. destruct (Hv v i) as [[Hn Ht _] _]. unfold writer_call. destruct (is_base v), (v_optional v); plain_lines. }
  assert (C5 : includes (source_read e) = []).
  { unfold source_read. rewrite !includes_app, includes_flat. rewrite flat_map_nil; [destruct (vars_have_entity e); plain_lines|].
    intros v i. destruct (Hv v i) as [[Hn Ht _] _]. unfold reader_call. destruct (is_base v), (v_optional v); plain_lines. }
  assert (C6 : includes (source_validate e) = []).
  { unfold source_validate. rewrite !includes_app, includes_flat. rewrite flat_map_nil; [plain_lines|].
    intros v i. destruct (Hv v i) as [[Hn Ht _] _]. unfold validator_call. destruct (is_base v), (v_optional v); plain_lines. }
  rewrite C, C2, C3, C4, C5, C6. change (includes ["    };"]) with (@nil string).
  change (includes [""; "namespace ISD"; "    {"]) with (@nil string). rewrite !app_nil_r.
  match goal with |- includes ?l ++ _ = _ => replace (includes l) with (map file_of ["Types"; "EntityWriter"; "EntityReader"; "EntityValidator"; e_name e]) end.
  - rewrite <- map_app. rewrite (filter_ext _ (fun d => negb (d_include d))); [reflexivity|].
    intros d. destruct (d_include d); reflexivity.
  - unfold includes, directives. cbn [map]. rewrite (include_line (e_name e)) by exact (good_noquote _ _ He). reflexivity.
Qed.
End SourceFile.
