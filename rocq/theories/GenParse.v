(** * GenParse: the generated files, parsed. Proofs. *)
From Coq Require Import Strings.String Strings.Ascii.
From Verif Require Import Base Types GenText CppText CppSem GenTextSpec GenLex.
Local Open Scope string_scope.
Local Open Scope list_scope.

Lemma tokens_app a b : tokens (a ++ b) = tokens a ++ tokens b.
Proof. unfold tokens. rewrite map_app, filter_app, concat_app. reflexivity. Qed.
Lemma directives_app a b : directives (a ++ b) = directives a ++ directives b.
Proof. unfold directives. rewrite map_app, filter_app. reflexivity. Qed.
Lemma includes_app a b : includes (a ++ b) = includes a ++ includes b.
Proof. unfold includes. rewrite directives_app, flat_map_app. reflexivity. Qed.
Lemma tokens_flat {A} (f : A -> list string) l : tokens (flat_map f l) = flat_map (fun x => tokens (f x)) l.
Proof. induction l as [|x l IH]; cbn [flat_map]; [reflexivity|]. rewrite tokens_app, IH. reflexivity. Qed.

(** ** Statements *)
Definition no_else (l : list tok) : Prop := match l with Kw KElse :: _ => False | _ => True end.
Definition seqs (ss : list stmt) (b : stmt) : stmt := fold_right SSeq b ss.
Record parses (ts : list tok) (ss : list stmt) : Prop := {
  ps_else : forall rest, no_else rest -> no_else (ts ++ rest);
  ps_len : (length ss <= length ts)%nat;
  ps_run : forall rest k, no_else rest ->
    pblock (pstmt depth) (length ss + k) (ts ++ rest)
    = match pblock (pstmt depth) k rest with Some (b, r) => Some (seqs ss b, r) | None => None end }.
Lemma pblock_step k l s r :
  pstmt depth l = Some (s, r) -> (match l with Sy RBrace :: _ => False | _ => True end) ->
  pblock (pstmt depth) (S k) l = match pblock (pstmt depth) k r with Some (b, r2) => Some (SSeq s b, r2) | None => None end.
Proof.
  intros E H. assert (G : pblock (pstmt depth) (S k) l = (pbind (pstmt depth) (fun a => pbind (pblock (pstmt depth) k) (fun b => pret (SSeq a b)))) l).
  { destruct l as [|[?|?|?|[]|?] l]; try reflexivity. destruct H. }
  rewrite G. unfold pbind. rewrite E. destruct (pblock (pstmt depth) k r) as [[b r2]|]; reflexivity.
Qed.
Lemma parses_nil : parses [] [].
Proof.
  split; [auto|cbn; lia|]. intros rest k _. cbn [length Nat.add app seqs fold_right].
  destruct (pblock (pstmt depth) k rest) as [[b r]|]; reflexivity.
Qed.
Lemma parses_app t1 s1 t2 s2 : parses t1 s1 -> parses t2 s2 -> parses (t1 ++ t2) (s1 ++ s2).
Proof.
  intros A B. split.
  - intros rest H. rewrite <- app_assoc. apply (ps_else _ _ A). apply (ps_else _ _ B). exact H.
  - rewrite !app_length. pose proof (ps_len _ _ A). pose proof (ps_len _ _ B). lia.
  - intros rest k H. rewrite <- app_assoc. rewrite app_length, <- Nat.add_assoc.
    rewrite (ps_run _ _ A) by (apply (ps_else _ _ B); exact H). rewrite (ps_run _ _ B) by exact H.
    destruct (pblock (pstmt depth) k rest) as [[b r]|]; [|reflexivity]. unfold seqs. rewrite fold_right_app. reflexivity.
Qed.
Lemma parses_flat {A} (f : A -> list tok) (g : A -> list stmt) l :
  (forall x, In x l -> parses (f x) (g x)) -> parses (flat_map f l) (flat_map g l).
Proof.
  induction l as [|x l IH]; intros H; cbn [flat_map]; [exact parses_nil|].
  apply parses_app; [apply H; left; reflexivity|]. apply IH. intros y i. apply H. right. exact i.
Qed.
Lemma pblock_mono p k : forall l x j, pblock p k l = Some x -> (k <= j)%nat -> pblock p j l = Some x.
Proof.
  induction k as [|k IH]; intros l x j H Hj.
  - destruct l as [|[?|?|?|[]|?] l]; cbn in H; try discriminate. destruct j; exact H.
  - destruct j as [|j]; [lia|].
    assert (C : (exists r, l = Sy RBrace :: r) \/ (forall m, pblock p (S m) l = (pbind p (fun a => pbind (pblock p m) (fun b => pret (SSeq a b)))) l)).
    { destruct l as [|[?|?|?|[]|?] l]; try (right; reflexivity). left. eauto. }
    destruct C as [[r ->]|C]; [exact H|]. rewrite C in H |- *. unfold pbind in *.
    destruct (p l) as [[a r]|]; [|discriminate].
    destruct (pblock p k r) as [[b r2]|] eqn:E; [|discriminate]. rewrite (IH _ _ j E) by lia. exact H.
Qed.
(** A block of statements up to its closing brace. *)
Lemma parses_block ts ss rest : parses ts ss ->
  pblock (pstmt depth) (length (ts ++ Sy RBrace :: rest)) (ts ++ Sy RBrace :: rest) = Some (seqs ss SSkip, rest).
Proof.
  intros H. apply pblock_mono with (k := (length ss + 0)%nat).
  - rewrite (ps_run _ _ H) by exact Logic.I. reflexivity.
  - rewrite app_length. pose proof (ps_len _ _ H). lia.
Qed.

(** ** The functions of one variable *)
Definition this_v (o : string) (n : string) : expr := EDot (EId [o]) ("v_" ^^ n) [].
Definition ptr_v (o : string) (n : string) : expr := EArrow (EId [o]) ("v_" ^^ n).
Definition meth (o : expr) (f : string) : expr := ECall (EDot o f []) [].
Definition sif (c : expr) (s : stmt) : stmt := SIf c s SSkip.
Definition ret (b : bool) : stmt := SReturn (Some (EBool b)).
Definition blk (l : list stmt) : stmt := seqs l SSkip.

Definition clear_ast (v : variable) : list stmt :=
  [if is_base v then
     if v_optional v then SExpr (meth (this_v "obj" (v_name v)) "reset") else SExpr (EAssign (this_v "obj" (v_name v)) EInit)
   else SExpr (ECall (EId [v_type v; "MF"; "Clear"]) [this_v "obj" (v_name v)])].
Definition copy_ast (v : variable) : list stmt :=
  [if is_base v then SExpr (EAssign (this_v "dest" (v_name v)) (ptr_v "source" (v_name v)))
   else if v_optional v then
     SIf (meth (ptr_v "source" (v_name v)) "has_value")
       (blk [SExpr (meth (this_v "dest" (v_name v)) "set");
             SExpr (ECall (EId [v_type v; "MF"; "DeepCopy"])
                      [meth (this_v "dest" (v_name v)) "value"; EAddr (meth (ptr_v "source" (v_name v)) "value")])])
       (blk [SExpr (meth (this_v "dest" (v_name v)) "reset")])
   else SExpr (ECall (EId [v_type v; "MF"; "DeepCopy"]) [this_v "dest" (v_name v); EAddr (ptr_v "source" (v_name v))])].
Definition opt_ptr (o n : string) : expr := ECond (meth (ptr_v o n) "has_value") (EAddr (meth (ptr_v o n) "value")) ENull.
Definition equals_ast (e : string) (v : variable) : list stmt :=
  [if is_base v then sif (ENe (ptr_v "lvar" (v_name v)) (ptr_v "rvar" (v_name v))) (ret false)
   else if v_optional v then
     sif (ENot (ECall (EId [e; v_type v; "MF"; "Equals"]) [opt_ptr "lvar" (v_name v); opt_ptr "rvar" (v_name v)])) (ret false)
   else sif (ENot (ECall (EId [e; v_type v; "MF"; "Equals"]) [EAddr (ptr_v "lvar" (v_name v)); EAddr (ptr_v "rvar" (v_name v))])) (ret false)].
(** The type of a variable. *)
Definition vty (n : string) (c : ctype) : cty :=
  let t := Ct [n] [] in
  match c with
  | CtNone => t | CtOpt => Ct ["optional_value"] [[t]] | CtVec => Ct ["std"; "vector"] [[t]]
  | CtOptVec => Ct ["optional_vector"] [[t]] | CtIdx => Ct ["idx_vector"] [[t]] | CtOptIdx => Ct ["optional_idx_vector"] [[t]]
  end.
Definition vtype (v : variable) : cty := vty (v_type v) (container v).
Definition key_of (n : string) : expr := ECall (EId ["ISDKeyMacro"]) [EStr n].
Definition set_success (e : expr) : stmt := SExpr (EAssign (EId ["success"]) e).
Definition fail : stmt := sif (ENot (EId ["success"])) (ret false).
Definition writer_ast (e : string) (v : variable) : list stmt :=
  if is_base v then
    [set_success (ECall (EDot (EId ["writer"]) "Write" [[vtype v]]) [key_of (v_name v); this_v "obj" (v_name v)]); fail]
  else
    [set_success (EAssign (EId ["section_writer"]) (ECall (EDot (EId ["writer"]) "BeginWriteSection" []) [key_of (v_name v)]));
     fail;
     (if v_optional v then
        sif (meth (this_v "obj" (v_name v)) "has_value")
          (blk [sif (ENot (ECall (EId [e; v_type v; "MF"; "Write"]) [meth (this_v "obj" (v_name v)) "value"; EDeref (EId ["section_writer"])])) (ret false)])
      else
        sif (ENot (ECall (EId [e; v_type v; "MF"; "Write"]) [this_v "obj" (v_name v); EDeref (EId ["section_writer"])])) (ret false));
     SExpr (ECall (EDot (EId ["writer"]) "EndWriteSection" []) [EId ["section_writer"]]);
     SExpr (EAssign (EId ["section_writer"]) ENull)].
Definition reader_ast (e : string) (v : variable) : list stmt :=
  if is_base v then
    [set_success (ECall (EDot (EId ["reader"]) "Read" [[vtype v]]) [key_of (v_name v); this_v "obj" (v_name v)]); fail]
  else
    let tail := [SExpr (ECall (EDot (EId ["reader"]) "EndReadSection" []) [EId ["section_reader"]]);
                 SExpr (EAssign (EId ["section_reader"]) ENull)] in
    [SExpr (EAssign (ECall (EId ["std"; "tie"]) [EId ["section_reader"]; EId ["success"]])
              (ECall (EDot (EId ["reader"]) "BeginReadSection" []) [key_of (v_name v); EBool (v_optional v)]));
     fail;
     (if v_optional v then
        SIf (EId ["section_reader"])
          (blk ([SExpr (meth (this_v "obj" (v_name v)) "set");
                 sif (ENot (ECall (EId [e; v_type v; "MF"; "Read"]) [meth (this_v "obj" (v_name v)) "value"; EDeref (EId ["section_reader"])])) (ret false)] ++ tail))
          (SExpr (meth (this_v "obj" (v_name v)) "reset"))
      else
        sif (EId ["section_reader"])
          (blk (sif (ENot (ECall (EId [e; v_type v; "MF"; "Read"]) [this_v "obj" (v_name v); EDeref (EId ["section_reader"])])) (ret false) :: tail)))].
Definition validator_ast (v : variable) : list stmt :=
  if is_base v then [] else
    if v_optional v then
      [sif (meth (this_v "obj" (v_name v)) "has_value")
        (blk [set_success (ECall (EId [v_type v; "MF"; "Validate"]) [meth (this_v "obj" (v_name v)) "value"; EId ["validator"]]); fail])]
    else
      [set_success (ECall (EId [v_type v; "MF"; "Validate"]) [this_v "obj" (v_name v); EId ["validator"]]); fail].

(** What is known of the names of a variable. *)
Record vgood (v : variable) : Prop := {
  vg_name : good (v_name v) (Id (v_name v));
  vg_type : good (v_type v) (word (v_type v));
  vg_word : word (v_type v) = Id (v_type v) \/ v_type v = "bool" }.
Lemma bool_base v : v_type v = "bool" -> is_base v = true.
Proof. unfold is_base. intros ->. reflexivity. Qed.

Ltac lex_comment :=
  match goal with |- context [lex_line (String ?c ?a ^^ ?r)] => change (lex_line (String c a ^^ r)) with (@nil tok) end.
Ltac lex_all := repeat first [lex_comment | lex_one].
Ltac pstep :=
  match goal with
  | |- context [pblock (pstmt depth) (S ?k) ?l] =>
    let v := eval vm_compute in (pstmt depth l) in
    match v with Some (?s, ?r) => rewrite (pblock_step k l s r) by first [vm_compute; reflexivity | exact Logic.I] end
  end.
Ltac last_of l := lazymatch l with [?s] => s | _ :: ?r => last_of r end.
(** The last statement, if it is an [if] without else: what follows does not begin with else. *)
Ltac plast s :=
  match goal with
  | NE : no_else ?rest |- context [pblock (pstmt depth) (S ?k) ?l] =>
    let E := fresh "E" in
    assert (E : pstmt depth l = Some (s, rest))
      by (destruct rest as [|[?|[]|?|?|?] rest]; solve [destruct NE | vm_compute; reflexivity]);
    rewrite (pblock_step k l s rest E Logic.I); clear E
  end.
Ltac parse_all :=
  match goal with
  | |- parses ?ts ?ss =>
    let t := eval vm_compute in ts in
    let n := eval vm_compute in (length ss) in
    change ts with t; cbv iota; split;
    [ intros ?rest ?NE; exact Logic.I
    | cbn; lia
    | intros rest k NE; cbn [app]; change (length ss) with n; cbn [Nat.add];
      repeat (lazymatch goal with |- context [pblock _ (S (S _)) _] => pstep end);
      try (lazymatch goal with |- context [pblock _ (S _) _] =>
             let s := last_of ss in lazymatch s with sif _ _ => plast s | fail => plast s | _ => pstep end end);
      destruct (pblock (pstmt depth) k rest) as [[? ?]|]; reflexivity ]
  end.
Ltac lex_parse := unfold tokens; cbn [map app]; lex_all; parse_all.

Lemma clear_parses v : vgood v -> parses (tokens (clear_call v)) (clear_ast v).
Proof.
  intros [Hn Ht Hw]. unfold clear_call, clear_ast. destruct (is_base v) eqn:B; [destruct (v_optional v)|].
  - lex_parse.
  - lex_parse.
  - destruct Hw as [E|E]; [rewrite E in Ht|apply bool_base in E; congruence]. lex_parse.
Qed.
Lemma copy_parses v : vgood v -> parses (tokens (copy_call v)) (copy_ast v).
Proof.
  intros [Hn Ht Hw]. unfold copy_call, copy_ast. destruct (is_base v) eqn:B.
  - lex_parse.
  - destruct Hw as [E|E]; [rewrite E in Ht|apply bool_base in E; congruence]. destruct (v_optional v); lex_parse.
Qed.
Lemma equals_parses e v : vgood v -> good (e_name e) (Id (e_name e)) -> parses (tokens (equals_call e v)) (equals_ast (e_name e) v).
Proof.
  intros [Hn Ht Hw] He. unfold equals_call, equals_ast. destruct (is_base v) eqn:B.
  - lex_parse.
  - destruct Hw as [E|E]; [rewrite E in Ht|apply bool_base in E; congruence]. destruct (v_optional v); lex_parse.
Qed.
Lemma validator_parses v : vgood v -> parses (tokens (validator_call v)) (validator_ast v).
Proof.
  intros [Hn Ht Hw]. unfold validator_call, validator_ast. destruct (is_base v) eqn:B.
  - exact parses_nil.
  - destruct Hw as [E|E]; [rewrite E in Ht|apply bool_base in E; congruence]. destruct (v_optional v); lex_parse.
Qed.
(** The text of the type of a variable. *)
Lemma type_string_cases v (K : variable_ok v = true) :
  type_string v = match container v with
                  | CtNone => v_type v | CtOpt => "optional_value<" ^^ v_type v ^^ ">" | CtVec => "std::vector<" ^^ v_type v ^^ ">"
                  | CtOptVec => "optional_vector<" ^^ v_type v ^^ ">" | CtIdx => "idx_vector<" ^^ v_type v ^^ ">"
                  | CtOptIdx => "optional_idx_vector<" ^^ v_type v ^^ ">"
                  end.
Proof.
  unfold type_string, container. unfold variable_ok in K.
  destruct (v_optional v), (v_vector v), (v_indexed v); cbn in K |- *; try discriminate; reflexivity.
Qed.
Lemma writer_parses e v : vgood v -> variable_ok v = true -> good (e_name e) (Id (e_name e)) ->
  parses (tokens (writer_call e v)) (writer_ast (e_name e) v).
Proof.
  intros [Hn Ht Hw] K He. unfold writer_call, writer_ast. destruct (is_base v) eqn:B.
  - unfold vtype. destruct Hw as [E|E].
    + rewrite E in Ht. rewrite (type_string_cases v K). destruct (container v); rewrite ?app_assoc_s; lex_parse.
    + assert (Hb : good (v_type v) (Kw KBool)) by (rewrite E in Ht |- *; exact Ht). clear Ht.
      rewrite E. rewrite (type_string_cases v K).
      destruct (container v); rewrite ?app_assoc_s; lex_parse.
  - destruct Hw as [E|E]; [rewrite E in Ht|apply bool_base in E; congruence]. destruct (v_optional v); lex_parse.
Qed.
Lemma reader_parses e v : vgood v -> variable_ok v = true -> good (e_name e) (Id (e_name e)) ->
  parses (tokens (reader_call e v)) (reader_ast (e_name e) v).
Proof.
  intros [Hn Ht Hw] K He. unfold reader_call, reader_ast. destruct (is_base v) eqn:B.
  - unfold vtype. destruct Hw as [E|E].
    + rewrite E in Ht. rewrite (type_string_cases v K). destruct (container v); rewrite ?app_assoc_s; lex_parse.
    + assert (Hb : good (v_type v) (Kw KBool)) by (rewrite E in Ht |- *; exact Ht). clear Ht.
      rewrite E. rewrite (type_string_cases v K).
      destruct (container v); rewrite ?app_assoc_s; lex_parse.
  - destruct Hw as [E|E]; [rewrite E in Ht|apply bool_base in E; congruence]. destruct (v_optional v); lex_parse.
Qed.
