(** * GenRun: what the functions of the generated files do. Proofs. *)
From Coq Require Import Strings.String Strings.Ascii Eqdep_dec.
From Verif Require Import Base Bytes BytesFacts Values Streams Types EntityWriter EntityReader Sections Validator Keys KeySpec Containers
  ValueEq StdSet Graph Classes Table IndexedVector DynTypes Varying EntityGen GenText CppText CppSem GenTextSpec GenLex GenParse GenDecls GenHeader GenCheck.
Local Open Scope string_scope.
Local Open Scope list_scope.

Lemma cast_same s x : cast s s x = Some x.
Proof.
  unfold cast. destruct (schema_dec s s) as [e|n]; [|congruence]. rewrite (UIP_dec schema_dec e eq_refl). reflexivity.
Qed.
Lemma bytes_of_string_len s : len (list_byte_of_string s) = N.of_nat (String.length s).
Proof.
  unfold len. f_equal. induction s as [|c s IH]; [reflexivity|]. change (S (length (list_byte_of_string s)) = S (String.length s)). f_equal. exact IH.
Qed.
Lemma key_macro_short s : (N.of_nat (String.length s) < 256)%N -> key_macro s = list_byte_of_string s.
Proof.
  intros H. unfold key_macro. rewrite N.mod_small by (rewrite bytes_of_string_len; exact H). apply take_all. lia.
Qed.
Lemma member_field v : member_name (field_name v) = "v_" ^^ v_name v.
Proof. unfold member_name, field_name. rewrite string_of_list_byte_of_string. reflexivity. Qed.

(** ** Variables of an object *)
Lemma assoc_mid {A} n (v : A) pre post : ~ In n (map fst pre) -> assoc n (pre ++ (n, v) :: post) = Some v.
Proof.
  induction pre as [|[m x] pre IH]; intros H; cbn [app assoc].
  - rewrite String.eqb_refl. reflexivity.
  - destruct (String.eqb_spec n m) as [->|N]; [exfalso; apply H; left; reflexivity|]. apply IH. intros i. apply H. right. exact i.
Qed.
Lemma upd_mid {A} n (v w : A) pre post : ~ In n (map fst pre) -> upd n w (pre ++ (n, v) :: post) = (pre ++ [(n, w)]) ++ post.
Proof.
  induction pre as [|[m x] pre IH]; intros H; cbn [app upd].
  - rewrite streqb_refl. reflexivity.
  - rewrite streqb_ne by (intros ->; apply H; left; reflexivity). f_equal. apply IH. intros i. apply H. right. exact i.
Qed.
Lemma upd_mid' {A} n (v w : A) pre post : ~ In n (map fst pre) -> upd n w ((pre ++ [(n, v)]) ++ post) = (pre ++ [(n, w)]) ++ post.
Proof. intros H. rewrite <- app_assoc. apply upd_mid. exact H. Qed.
Lemma assoc_mid' {A} n (v : A) pre post : ~ In n (map fst pre) -> assoc n ((pre ++ [(n, v)]) ++ post) = Some v.
Proof. intros H. rewrite <- app_assoc. apply assoc_mid. exact H. Qed.

Lemma seqs_app a b c : seqs (a ++ b) c = seqs a (seqs b c).
Proof. unfold seqs. apply fold_right_app. Qed.

Section Steps.
Context (I : forall t, umap_impl (key t)) (W : world) (g : program) (T : list (string * schema)) (re : renv) (budget : nat).
Context (oc : obj -> res obj) (ocp : obj -> option obj -> res obj) (oe : option bool -> option bool -> obj -> obj -> res bool).
Local Notation exec := (exec I W g T re budget oc ocp oe).
Context (e : string) (v : variable) (k : stmt).
Local Notation nm := (String "v" (String "_" (v_name v))).

(** A variable of a data type. *)
Section Base.
Context (t : dtype) (B : is_base v = true).
Context (Hk : kind_of (map fst (usings (g_body g))) (vtype v) = KBase t (container v)).
Context (Hl : (N.of_nat (String.length (v_name v)) < 256)%N).
Ltac go := cbn -[key_macro kind_of kind_eqb vtype w_write r_read cval_ne cval_default container].

Lemma opt_container : v_optional v = optional_ctype (container v).
Proof. unfold container. destruct (v_optional v), (v_vector v), (v_indexed v); reflexivity. Qed.
Lemma clear_base a b ws rs lg vs x : assoc nm a = Some (FvBase t (container v) x) -> assoc "obj" vs = Some (VAt (PObj false)) ->
  exec (seqs (clear_ast v) k) (RT a b ws rs lg vs) = exec k (RT (upd nm (FvBase t (container v) (cval_default t (container v))) a) b ws rs lg vs).
Proof.
  intros Ea Ev. unfold clear_ast. rewrite B. destruct (v_optional v) eqn:O; go; rewrite Ev; go; rewrite Ea; go; [|reflexivity].
  rewrite <- opt_container, O. reflexivity.
Qed.
Lemma copy_base a b ws rs lg vs x y : assoc nm a = Some (FvBase t (container v) x) -> assoc nm b = Some (FvBase t (container v) y) ->
  assoc "dest" vs = Some (VAt (PObj false)) -> assoc "source" vs = Some (VPtr (Some (PObj true))) ->
  exec (seqs (copy_ast v) k) (RT a b ws rs lg vs) = exec k (RT (upd nm (FvBase t (container v) y) a) b ws rs lg vs).
Proof.
  intros Ea Eb E1 E2. unfold copy_ast. rewrite B. go. rewrite E2. go. rewrite E1. go. rewrite Ea. go. rewrite Eb. go.
  rewrite kind_base_refl. reflexivity.
Qed.
Lemma equals_base st i j x y : assoc nm (the i st) = Some (FvBase t (container v) x) -> assoc nm (the j st) = Some (FvBase t (container v) y) ->
  assoc "lvar" (r_vars st) = Some (VPtr (Some (PObj i))) -> assoc "rvar" (r_vars st) = Some (VPtr (Some (PObj j))) ->
  exec (seqs (equals_ast e v) k) st = if cval_ne t x y then Done (Some (VBool false), st) else exec k st.
Proof.
  intros Ea Eb E1 E2. unfold equals_ast. rewrite B. go. rewrite E1. go. rewrite E2. go. rewrite Ea. go. rewrite Eb. go.
  rewrite kind_base_refl. go. destruct (cval_ne t x y); reflexivity.
Qed.
(** The variables of Write: a pointer to the section writer if there is a variable of a class type. *)
Definition wvars (ent ok : bool) (h : N) : list (string * value) :=
  (if ent then [("section_writer", VWriterPtr None)] else []) ++ [("success", VBool ok); ("obj", VAt (PObj false)); ("writer", VWriter h)].
Definition rvars (ent ok : bool) (h : N) : list (string * value) :=
  (if ent then [("section_reader", VReaderPtr None)] else []) ++ [("success", VBool ok); ("obj", VAt (PObj false)); ("reader", VReader h)].
Lemma write_base ent h a b rs lg x w : assoc nm a = Some (FvBase t (container v) x) ->
  exec (seqs (writer_ast e v) k) (RT a b (Some w) rs lg (wvars ent true h)) =
  do r <- w_write h t (field_name v) x w;
  if fst r then exec k (RT a b (Some (snd r)) rs lg (wvars ent true h)) else Done (Some (VBool false), RT a b (Some (snd r)) rs lg (wvars ent false h)).
Proof.
  intros Ea. unfold writer_ast, field_name. rewrite B. rewrite <- (key_macro_short _ Hl). destruct ent; go; rewrite Ea; go; rewrite Hk, kind_base_refl; go;
    destruct (w_write h t (key_macro (v_name v)) x w) as [[[|] w1]| |]; reflexivity.
Qed.
Lemma read_base ent h a b ws lg x w : assoc nm a = Some (FvBase t (container v) x) ->
  exec (seqs (reader_ast e v) k) (RT a b ws (Some w) lg (rvars ent true h)) =
  do r <- r_read re h t (field_name v) x w; let '(ok, y, w1) := r in
  let a1 := upd nm (FvBase t (container v) y) a in
  if ok : bool then exec k (RT a1 b ws (Some w1) lg (rvars ent true h)) else Done (Some (VBool false), RT a1 b ws (Some w1) lg (rvars ent false h)).
Proof.
  intros Ea. unfold reader_ast, field_name. rewrite B. rewrite <- (key_macro_short _ Hl). destruct ent; go; rewrite Ea; go; rewrite Hk, kind_base_refl; go;
    destruct (r_read re h t (key_macro (v_name v)) x w) as [[[[|] y] w1]| |]; reflexivity.
Qed.
Lemma validate_base st : exec (seqs (validator_ast v) k) st = exec k st.
Proof. unfold validator_ast. rewrite B. reflexivity. Qed.
End Base.

(** A variable of a class. *)
Section Class.
Context (s : schema) (B : is_base v = false) (O : v_optional v = false).
Context (C1 : forall f, callee W g T [v_type v; "MF"; f] = Some (Some s, f)) (C2 : forall f, callee W g T [e; v_type v; "MF"; f] = Some (Some s, f)).
Context (Hl : (N.of_nat (String.length (v_name v)) < 256)%N).
Ltac go := cbn -[key_macro cast callee w_begin w_end r_begin r_end smf m_equals].

Lemma clear_class a b ws rs lg vs x : assoc nm a = Some (FvObj s x) -> assoc "obj" vs = Some (VAt (PObj false)) ->
  exec (seqs (clear_ast v) k) (RT a b ws rs lg vs) =
  do y <- m_clear (smf I s) x; exec k (RT (upd nm (FvObj s y) a) b ws rs lg vs).
Proof.
  intros Ea Ev. unfold clear_ast. rewrite B. go. rewrite Ev. go. rewrite C1. go. rewrite Ea. go. rewrite cast_same. go.
  destruct (m_clear (smf I s) x); reflexivity.
Qed.
Lemma copy_class a b ws rs lg vs x y : assoc nm a = Some (FvObj s x) -> assoc nm b = Some (FvObj s y) ->
  assoc "dest" vs = Some (VAt (PObj false)) -> assoc "source" vs = Some (VPtr (Some (PObj true))) ->
  exec (seqs (copy_ast v) k) (RT a b ws rs lg vs) =
  do z <- m_copy (smf I s) x (Some y); exec k (RT (upd nm (FvObj s z) a) b ws rs lg vs).
Proof.
  intros Ea Eb E1 E2. unfold copy_ast. rewrite B, O. go. rewrite E1. go. rewrite E2. go. rewrite C1. go. rewrite Ea. go. rewrite cast_same. go.
  rewrite Eb. go. rewrite cast_same. go. destruct (m_copy (smf I s) x (Some y)); reflexivity.
Qed.
Lemma equals_class st i j x y : assoc nm (the i st) = Some (FvObj s x) -> assoc nm (the j st) = Some (FvObj s y) -> Bool.eqb i j = false ->
  assoc "lvar" (r_vars st) = Some (VPtr (Some (PObj i))) -> assoc "rvar" (r_vars st) = Some (VPtr (Some (PObj j))) ->
  exec (seqs (equals_ast e v) k) st = if negb (m_equals (smf I s) false (Some x) (Some y)) then Done (Some (VBool false), st) else exec k st.
Proof.
  intros Ea Eb N E1 E2. unfold equals_ast. rewrite B, O. go. rewrite E1. go. rewrite E2. go. rewrite C2. go. rewrite Ea. go. rewrite cast_same. go. rewrite Eb. go.
  rewrite cast_same. go. rewrite N. cbn [andb]. destruct (m_equals (smf I s) false (Some x) (Some y)); reflexivity.
Qed.
Lemma write_class h a b rs lg x w : assoc nm a = Some (FvObj s x) ->
  exec (seqs (writer_ast e v) k) (RT a b (Some w) rs lg (wvars true true h)) =
  do r <- w_begin h (field_name v) w;
  match fst r with
  | None => Done (Some (VBool false), RT a b (Some (snd r)) rs lg (wvars true false h))
  | Some hc =>
    do r2 <- m_write (smf I s) hc x (snd r);
    if fst r2 then do r3 <- w_end h (Some hc) (snd r2); exec k (RT a b (Some (snd r3)) rs lg (wvars true true h))
    else Done (Some (VBool false), RT a b (Some (snd r2)) rs lg (("section_writer", VWriterPtr (Some hc)) :: wvars false true h))
  end.
Proof.
  intros Ea. unfold writer_ast, field_name. rewrite B, O. rewrite <- (key_macro_short _ Hl). go.
  destruct (w_begin h (key_macro (v_name v)) w) as [[[hc|] w1]| |]; go; try reflexivity.
  rewrite C2. go. rewrite Ea. go. rewrite cast_same. go.
  destruct (m_write (smf I s) hc x w1) as [[[|] w2]| |]; go; try reflexivity.
  destruct (w_end h (Some hc) w2) as [[u w3]| |]; reflexivity.
Qed.
Lemma read_class h a b ws lg x w : assoc nm a = Some (FvObj s x) ->
  exec (seqs (reader_ast e v) k) (RT a b ws (Some w) lg (rvars true true h)) =
  do r <- r_begin re h (field_name v) false w; let '(c, ok, w1) := r in
  if negb ok then Done (Some (VBool false), RT a b ws (Some w1) lg (("section_reader", VReaderPtr c) :: rvars false false h)) else
  match c with
  | None => exec k (RT a b ws (Some w1) lg (rvars true true h))
  | Some hc =>
    do r2 <- m_read (smf I s) re hc x w1; let '(ok2, y, w2) := r2 in let a1 := upd nm (FvObj s y) a in
    if ok2 : bool then do r3 <- r_end h (Some hc) w2; exec k (RT a1 b ws (Some (snd r3)) lg (rvars true true h))
    else Done (Some (VBool false), RT a1 b ws (Some w2) lg (("section_reader", VReaderPtr (Some hc)) :: rvars false true h))
  end.
Proof.
  intros Ea. unfold reader_ast, field_name. rewrite B, O. rewrite <- (key_macro_short _ Hl). go.
  destruct (r_begin re h (key_macro (v_name v)) false w) as [[[[hc|] [|]] w1]| |]; go; try reflexivity.
  rewrite C2. go. rewrite Ea. go. rewrite cast_same. go.
  destruct (m_read (smf I s) re hc x w1) as [[[[|] y] w2]| |]; go; try reflexivity.
  destruct (r_end h (Some hc) w2) as [[u w3]| |]; reflexivity.
Qed.
Definition vvars : list (string * value) := [("success", VBool true); ("obj", VAt (PObj false)); ("validator", VValidator)].
Lemma validate_class a b ws rs lg x : assoc nm a = Some (FvObj s x) ->
  exec (seqs (validator_ast v) k) (RT a b ws rs lg vvars) =
  match m_validate (smf I s) budget x with Some l => exec k (RT a b ws rs (lg ++ l) vvars) | None => Undef end.
Proof.
  intros Ea. unfold validator_ast. rewrite B, O. go. rewrite C1. go. rewrite Ea. go. rewrite cast_same. go.
  destruct (m_validate (smf I s) budget x); reflexivity.
Qed.
End Class.
End Steps.

(** ** The functions *)
Lemma typedefs_names W G : forall l T0 T, typedefs W G T0 l = Some T -> map fst T = map fst T0 ++ map fst l.
Proof.
  induction l as [|[n c] l IH]; intros T0 T; cbn [typedefs].
  - intros H. injection H as <-. rewrite app_nil_r. reflexivity.
  - destruct (class_type W G T0 c) as [s|]; [|discriminate]. intros H. apply IH in H. rewrite H, map_app, <- app_assoc. reflexivity.
Qed.
Lemma assoc_in {A} n (l : list (string * A)) x : assoc n l = Some x -> In n (map fst l).
Proof.
  induction l as [|[m y] l IH]; cbn [assoc map fst]; [discriminate|]. destruct (String.eqb_spec n m) as [->|N]; [left; reflexivity|].
  intros H. right. exact (IH H).
Qed.
Lemma in_assoc {A} n (l : list (string * A)) : In n (map fst l) -> exists x, assoc n l = Some x.
Proof.
  induction l as [|[m y] l IH]; cbn [assoc map fst]; [intros []|]. destruct (String.eqb_spec n m) as [->|N]; [eauto|].
  intros [H|H]; [congruence|exact (IH H)].
Qed.
Lemma rmap_bind {A B C} (f : B -> C) (m : res A) (k : A -> res B) : rmap f (bind m k) = bind m (fun a => rmap f (k a)).
Proof. destruct m; reflexivity. Qed.

Section Run.
Context (I : forall t, umap_impl (key t)) (W : world) (d : edef) (Wf : wf d) (T : list (string * schema)) (HT : map fst T = TNs d).
Local Notation g := (prog d).
(** A variable of a definition, and what it stands for. *)
Inductive stands (v : variable) : fields -> fields -> Prop :=
| stands_base t fs : is_base v = true -> kind_of (map fst (usings (g_body g))) (vtype v) = KBase t (container v) ->
    stands v fs (FBase (field_name v) t (container v) fs)
| stands_class s fs : is_base v = false -> v_optional v = false -> kind_of (map fst (usings (g_body g))) (vtype v) = KCls (v_type v) ->
    class_named W g T (v_type v) = Some s ->
    (forall f, callee W g T [v_type v; "MF"; f] = Some (Some s, f)) -> (forall f, callee W g T [ed_name d; v_type v; "MF"; f] = Some (Some s, f)) ->
    stands v fs (FClass (field_name v) s fs).
(** The variables of the class, one after the other. *)
Inductive stand : list variable -> fields -> Prop :=
| stand_nil : stand [] FNil
| stand_cons v l fs fs' : In v (ed_vars d) -> (N.of_nat (String.length (v_name v)) < 256)%N -> ~ In (v_name v) (map v_name l) ->
    stands v fs fs' -> stand l fs -> stand (v :: l) fs'.
Lemma stand_of l fs : incl l (ed_vars d) -> NoDup (map v_name l) -> (forall v, In v l -> acceptable d v) -> class_fields T l = Some fs -> stand l fs.
Proof.
  revert fs. induction l as [|v l IH]; intros fs L N A H.
  - injection H as <-. constructor.
  - cbn [class_fields] in H. destruct (class_fields T l) as [fs'|] eqn:E; [|discriminate].
    assert (iv : In v (ed_vars d)) by (apply L; left; reflexivity).
    inversion N as [|x y N1 N2]. subst.
    assert (S : stand l fs'). { apply IH; auto. intros x i. apply L. right. exact i. intros x i. apply A. right. exact i. }
    apply (stand_cons v l fs' fs iv (proj2 (proj2 (proj2 (var_parts d Wf v iv)))) N1); [|exact S]. clear IH S.
    destruct (kind_cases d Wf v (A v (or_introl eq_refl))) as [(t & E1 & K)|(E1 & Tn & K)]; rewrite E1 in H.
    + injection H as <-. apply stands_base; [apply is_base_variant; eauto|]. rewrite (kind_ok d v). exact K.
    + destruct (A v (or_introl eq_refl)) as [B|(B & _ & O & V)]; [apply is_base_variant in B; destruct B; congruence|].
      destruct (assoc (v_type v) T) as [s|] eqn:Es; [|discriminate]. rewrite V, O in H. injection H as <-.
      assert (Cn : class_named W g T (v_type v) = Some s) by (unfold class_named; rewrite Es; reflexivity).
      apply has_true in Tn.
      apply stands_class; auto.
      * rewrite (kind_ok d v). exact K.
      * intros f. unfold callee. rewrite scope_type, Tn. cbn [orb]. rewrite Cn. reflexivity.
      * intros f. unfold callee. rewrite scope_own, Tn. rewrite Cn. reflexivity.
Qed.

(** The names of the variables are new after those before them. *)
Definition fresh (pre : obj) (l : list variable) : Prop := forall v, In v l -> ~ In ("v_" ^^ v_name v) (map fst pre).
Lemma fresh_hd pre v l : fresh pre (v :: l) -> ~ In (String "v" (String "_" (v_name v))) (map fst pre).
Proof. intros F. exact (F v (or_introl eq_refl)). Qed.
Lemma fresh_tl pre v l x : fresh pre (v :: l) -> ~ In (v_name v) (map v_name l) -> fresh (pre ++ [(String "v" (String "_" (v_name v)), x)]) l.
Proof.
  intros F N w i j. rewrite map_app in j. apply in_app_or in j. destruct j as [j|[j|[]]]; [exact (F w (or_intror i) j)|].
  cbn in j. injection j as j. apply N. rewrite j. apply in_map. exact i.
Qed.
Lemma pack_base v t c fs (a : cval) (x : fty fs) :
  pack (FBase (field_name v) t c fs) (a, x) = (String "v" (String "_" (v_name v)), FvBase t c a) :: pack fs x.
Proof. cbn [pack]. rewrite member_field. reflexivity. Qed.
Lemma pack_class v s fs (a : ty s) (x : fty fs) :
  pack (FClass (field_name v) s fs) (a, x) = (String "v" (String "_" (v_name v)), FvObj s a) :: pack fs x.
Proof. cbn [pack]. rewrite member_field. reflexivity. Qed.

Lemma fmf_base n t c fs : fmf I (FBase n t c fs) = base_field n (fmf I fs) t c.
Proof. reflexivity. Qed.
Lemma fmf_class n s fs : fmf I (FClass n s fs) = class_field n (fmf I fs) (smf I s).
Proof. reflexivity. Qed.
Section Exec.
Context (re : renv) (budget : nat) (oc : obj -> res obj) (ocp : obj -> option obj -> res obj) (oe : option bool -> option bool -> obj -> obj -> res bool).
Local Notation exec := (exec I W g T re budget oc ocp oe).
Lemma clear_run l fs : stand l fs -> forall pre x b ws rs lg vs, fresh pre l -> assoc "obj" vs = Some (VAt (PObj false)) ->
  bind (exec (seqs (flat_map clear_ast l) SSkip) (RT (pre ++ pack fs x) b ws rs lg vs)) (fun r => Done (o_0 (snd r)))
  = rmap (fun y => pre ++ pack fs y) (m_clear (fmf I fs) x).
Proof.
  induction 1 as [|v l fs fs' iv Hl N St _ IH]; intros pre x b ws rs lg vs F V; [reflexivity|].
  cbn [flat_map]. rewrite seqs_app. destruct St as [t fs B K|s fs B O K Cn C1 C2].
  - destruct x as [x0 x1]. rewrite pack_base. erewrite clear_base; [|exact B|apply assoc_mid; exact (fresh_hd _ _ _ F)|exact V].
    rewrite upd_mid by exact (fresh_hd _ _ _ F). rewrite IH by (try exact V; apply fresh_tl with (1 := F) (2 := N)).
    rewrite fmf_base; cbn [base_field m_clear]. unfold bf_clear. cbn [fst snd]. destruct (m_clear (fmf I fs) x1) as [y| |]; try reflexivity.
    cbn [rmap bind]. rewrite pack_base, <- app_assoc. reflexivity.
  - destruct x as [x0 x1]. rewrite pack_class. erewrite clear_class; [|exact B|exact C1|apply assoc_mid; exact (fresh_hd _ _ _ F)|exact V].
    rewrite fmf_class; cbn [class_field m_clear]. unfold cf_clear. cbn [fst snd]. destruct (m_clear (smf I s) x0) as [y| |]; try reflexivity. cbn [bind].
    rewrite upd_mid by exact (fresh_hd _ _ _ F). rewrite IH by (try exact V; apply fresh_tl with (1 := F) (2 := N)).
    destruct (m_clear (fmf I fs) x1) as [z| |]; try reflexivity.
    cbn [rmap bind]. rewrite pack_class, <- app_assoc. reflexivity.
Qed.
Lemma copy_run l fs : stand l fs -> forall pre pre1 x y ws rs lg vs, fresh pre l -> fresh pre1 l -> assoc "dest" vs = Some (VAt (PObj false)) ->
  assoc "source" vs = Some (VPtr (Some (PObj true))) ->
  bind (exec (seqs (flat_map copy_ast l) SSkip) (RT (pre ++ pack fs x) (pre1 ++ pack fs y) ws rs lg vs)) (fun r => Done (o_0 (snd r)))
  = rmap (fun z => pre ++ pack fs z) (m_copy (fmf I fs) x (Some y)).
Proof.
  induction 1 as [|v l fs fs' iv Hl N St _ IH]; intros pre pre1 x y ws rs lg vs F F1 V1 V2; [reflexivity|].
  cbn [flat_map]. rewrite seqs_app. destruct St as [t fs B K|s fs B O K Cn C1 C2].
  - destruct x as [x0 x1], y as [y0 y1]. rewrite !pack_base. erewrite copy_base; [|exact B|apply assoc_mid; exact (fresh_hd _ _ _ F)|apply assoc_mid; exact (fresh_hd _ _ _ F1)|exact V1|exact V2].
    rewrite upd_mid by exact (fresh_hd _ _ _ F).
    change (pre1 ++ (?n, ?q) :: ?p) with (pre1 ++ [(n, q)] ++ p). rewrite (app_assoc pre1).
    rewrite IH by (try exact V1; try exact V2; apply fresh_tl with (2 := N); assumption).
    rewrite fmf_base; cbn [base_field m_copy]. unfold bf_copy. cbn [fst snd]. destruct (m_copy (fmf I fs) x1 (Some y1)) as [z| |]; try reflexivity.
    cbn [rmap bind]. rewrite pack_base, <- app_assoc. reflexivity.
  - destruct x as [x0 x1], y as [y0 y1]. rewrite !pack_class. erewrite copy_class; [|exact B|exact O|exact C1|apply assoc_mid; exact (fresh_hd _ _ _ F)|apply assoc_mid; exact (fresh_hd _ _ _ F1)|exact V1|exact V2].
    rewrite fmf_class; cbn [class_field m_copy]. unfold cf_copy. cbn [fst snd]. destruct (m_copy (smf I s) x0 (Some y0)) as [a| |]; try reflexivity. cbn [bind].
    rewrite upd_mid by exact (fresh_hd _ _ _ F).
    change (pre1 ++ (?n, ?q) :: ?p) with (pre1 ++ [(n, q)] ++ p). rewrite (app_assoc pre1).
    rewrite IH by (try exact V1; try exact V2; apply fresh_tl with (2 := N); assumption).
    destruct (m_copy (fmf I fs) x1 (Some y1)) as [z| |]; try reflexivity.
    cbn [rmap bind]. rewrite pack_class, <- app_assoc. reflexivity.
Qed.
Lemma equals_run l fs : stand l fs -> forall i j pre pre1 x y st, fresh pre l -> fresh pre1 l -> Bool.eqb i j = false ->
  the i st = pre ++ pack fs x -> the j st = pre1 ++ pack fs y ->
  assoc "lvar" (r_vars st) = Some (VPtr (Some (PObj i))) -> assoc "rvar" (r_vars st) = Some (VPtr (Some (PObj j))) ->
  exec (seqs (flat_map (equals_ast (ed_name d)) l ++ [ret true]) SSkip) st = Done (Some (VBool (m_eq (fmf I fs) x y)), st).
Proof.
  induction 1 as [|v l fs fs' iv Hl N St _ IH]; intros i j pre pre1 x y st F F1 D H1 H2 V1 V2; [reflexivity|].
  cbn [flat_map]. rewrite <- app_assoc, seqs_app. destruct St as [t fs B K|s fs B O K Cn C1 C2].
  - destruct x as [x0 x1], y as [y0 y1]. rewrite pack_base in H1, H2. erewrite equals_base; [|exact B|rewrite H1; apply assoc_mid; exact (fresh_hd _ _ _ F)|rewrite H2; apply assoc_mid; exact (fresh_hd _ _ _ F1)|exact V1|exact V2].
    rewrite fmf_base; cbn [base_field m_eq]. unfold bf_eq. cbn [fst snd]. destruct (cval_ne t x0 y0); [reflexivity|].
    change (pre ++ (?n, ?q) :: ?p) with (pre ++ [(n, q)] ++ p) in H1. change (pre1 ++ (?n, ?q) :: ?p) with (pre1 ++ [(n, q)] ++ p) in H2. rewrite app_assoc in H1. rewrite app_assoc in H2.
    eapply IH; [| |exact D|exact H1|exact H2|exact V1|exact V2]; apply fresh_tl with (2 := N); assumption.
  - destruct x as [x0 x1], y as [y0 y1]. rewrite pack_class in H1, H2. erewrite equals_class; [|exact B|exact O|exact C2|rewrite H1; apply assoc_mid; exact (fresh_hd _ _ _ F)|rewrite H2; apply assoc_mid; exact (fresh_hd _ _ _ F1)|exact D|exact V1|exact V2].
    rewrite fmf_class; cbn [class_field m_eq]. unfold cf_eq. cbn [fst snd]. destruct (negb (m_equals (smf I s) false (Some x0) (Some y0))); [reflexivity|].
    change (pre ++ (?n, ?q) :: ?p) with (pre ++ [(n, q)] ++ p) in H1. change (pre1 ++ (?n, ?q) :: ?p) with (pre1 ++ [(n, q)] ++ p) in H2. rewrite app_assoc in H1. rewrite app_assoc in H2.
    eapply IH; [| |exact D|exact H1|exact H2|exact V1|exact V2]; apply fresh_tl with (2 := N); assumption.
Qed.
Definition wfin (r : res (option value * rt)) : res (bool * wstate) :=
  do r <- r; match fst r, r_ws (snd r) with Some (VBool b), Some w1 => Done (b, w1) | _, _ => Undef end.
Lemma write_run l fs ent : stand l fs -> (forall v, In v l -> is_base v = false -> ent = true) -> forall h pre x b rs lg w, fresh pre l ->
  wfin (exec (seqs (flat_map (writer_ast (ed_name d)) l ++ [ret true]) SSkip) (RT (pre ++ pack fs x) b (Some w) rs lg (wvars ent true h)))
  = m_write (fmf I fs) h x w.
Proof.
  induction 1 as [|v l fs fs' iv Hl N St _ IH]; intros E h pre x b rs lg w F; [destruct ent; reflexivity|].
  assert (E' : forall v, In v l -> is_base v = false -> ent = true) by (intros u i; apply E; right; exact i).
  cbn [flat_map]. rewrite <- app_assoc, seqs_app. destruct St as [t fs B K|s fs B O K Cn C1 C2].
  - destruct x as [x0 x1]. rewrite pack_base. erewrite write_base; [|exact B|exact K|exact Hl|apply assoc_mid; exact (fresh_hd _ _ _ F)].
    rewrite fmf_base; cbn [base_field m_write]. unfold bf_write. cbn [fst snd]. destruct (w_write h t (field_name v) x0 w) as [[[|] w1]| |]; try reflexivity. cbn [bind fst snd negb].
    change (pre ++ (?n, ?q) :: ?p) with (pre ++ [(n, q)] ++ p). rewrite (app_assoc pre). apply (IH E'). apply fresh_tl with (1 := F) (2 := N).
  - destruct x as [x0 x1]. rewrite (E v (or_introl eq_refl) B) in *. rewrite pack_class. erewrite write_class; [|exact B|exact O|exact C2|exact Hl|apply assoc_mid; exact (fresh_hd _ _ _ F)].
    rewrite fmf_class; cbn [class_field m_write]. unfold cf_write. cbn [fst snd]. destruct (w_begin h (field_name v) w) as [[[hc|] w1]| |]; try reflexivity. cbn [bind fst snd].
    destruct (m_write (smf I s) hc x0 w1) as [[[|] w2]| |]; try reflexivity. cbn [bind fst snd negb].
    destruct (w_end h (Some hc) w2) as [[u w3]| |]; try reflexivity. cbn [bind fst snd].
    change (pre ++ (?n, ?q) :: ?p) with (pre ++ [(n, q)] ++ p). rewrite (app_assoc pre). apply (IH E'). apply fresh_tl with (1 := F) (2 := N).
Qed.
Definition rfin (r : res (option value * rt)) : res (bool * obj * rstate) :=
  do r <- r; match fst r, r_rs (snd r) with Some (VBool b), Some w1 => Done (b, o_0 (snd r), w1) | _, _ => Undef end.
Lemma read_run l fs ent : stand l fs -> (forall v, In v l -> is_base v = false -> ent = true) -> forall h pre x b ws lg w, fresh pre l ->
  rfin (exec (seqs (flat_map (reader_ast (ed_name d)) l ++ [ret true]) SSkip) (RT (pre ++ pack fs x) b ws (Some w) lg (rvars ent true h)))
  = rmap (fun r => let '(ok, y, w1) := r in (ok, pre ++ pack fs y, w1)) (m_read (fmf I fs) re h x w).
Proof.
  induction 1 as [|v l fs fs' iv Hl N St _ IH]; intros E h pre x b ws lg w F; [destruct ent, x; reflexivity|].
  assert (E' : forall v, In v l -> is_base v = false -> ent = true) by (intros u i; apply E; right; exact i).
  cbn [flat_map]. rewrite <- app_assoc, seqs_app. destruct St as [t fs B K|s fs B O K Cn C1 C2].
  - destruct x as [x0 x1]. rewrite pack_base. erewrite read_base; [|exact B|exact K|exact Hl|apply assoc_mid; exact (fresh_hd _ _ _ F)].
    rewrite fmf_base; cbn [base_field m_read]. unfold bf_read. cbn [fst snd]. destruct (r_read re h t (field_name v) x0 w) as [[[[|] y] w1]| |]; try reflexivity; cbn [bind fst snd negb];
      rewrite upd_mid by exact (fresh_hd _ _ _ F).
    + rewrite (IH E') by (apply fresh_tl with (1 := F) (2 := N)).
      destruct (m_read (fmf I fs) re h x1 w1) as [[[ok2 f] w2]| |]; try reflexivity. cbn [bind rmap]. rewrite pack_base, <- app_assoc. reflexivity.
    + cbn [rmap]. rewrite pack_base, <- app_assoc. reflexivity.
  - destruct x as [x0 x1]. rewrite (E v (or_introl eq_refl) B) in *. rewrite pack_class. erewrite read_class; [|exact B|exact O|exact C2|exact Hl|apply assoc_mid; exact (fresh_hd _ _ _ F)].
    rewrite fmf_class; cbn [class_field m_read]. unfold cf_read. cbn [fst snd]. destruct (r_begin re h (field_name v) false w) as [[[[hc|] [|]] w1]| |]; try reflexivity; cbn [bind fst snd negb].
    + destruct (m_read (smf I s) re hc x0 w1) as [[[[|] y] w2]| |]; try reflexivity; cbn [bind fst snd negb].
      * destruct (r_end h (Some hc) w2) as [[u w3]| |]; try reflexivity. cbn [bind fst snd negb].
        rewrite upd_mid by exact (fresh_hd _ _ _ F). rewrite (IH E') by (apply fresh_tl with (1 := F) (2 := N)).
        destruct (m_read (fmf I fs) re h x1 w3) as [[[ok2 f] w4]| |]; try reflexivity. cbn [bind rmap]. rewrite pack_class, <- app_assoc. reflexivity.
      * rewrite upd_mid by exact (fresh_hd _ _ _ F). cbn [rmap]. rewrite pack_class, <- app_assoc. reflexivity.
    + cbn [rmap]. rewrite pack_class. reflexivity.
    + change (pre ++ (?n, ?q) :: ?p) with (pre ++ [(n, q)] ++ p). rewrite (app_assoc pre). rewrite (IH E') by (apply fresh_tl with (1 := F) (2 := N)).
      destruct (m_read (fmf I fs) re h x1 w1) as [[[ok2 f] w4]| |]; try reflexivity. cbn [bind rmap]. rewrite pack_class, <- app_assoc. reflexivity.
    + cbn [rmap]. rewrite pack_class. reflexivity.
Qed.
Definition vfin (r : res (option value * rt)) : res (bool * list N) :=
  do r <- r; match fst r with Some (VBool b) => Done (b, r_log (snd r)) | _ => Undef end.
Lemma validate_run l fs : stand l fs -> forall pre x b ws rs lg, fresh pre l ->
  vfin (exec (seqs (flat_map validator_ast l ++ [ret true]) SSkip) (RT (pre ++ pack fs x) b ws rs lg vvars))
  = match m_validate (fmf I fs) budget x with Some l => Done (true, lg ++ l) | None => Undef end.
Proof.
  induction 1 as [|v l fs fs' iv Hl N St _ IH]; intros pre x b ws rs lg F; [cbn; rewrite app_nil_r; reflexivity|].
  cbn [flat_map]. rewrite <- app_assoc, seqs_app. destruct St as [t fs B K|s fs B O K Cn C1 C2].
  - destruct x as [x0 x1]. rewrite pack_base. rewrite validate_base by exact B. rewrite fmf_base; cbn [base_field m_validate snd].
    change (pre ++ (?n, ?q) :: ?p) with (pre ++ [(n, q)] ++ p). rewrite (app_assoc pre). apply IH. apply fresh_tl with (1 := F) (2 := N).
  - destruct x as [x0 x1]. rewrite pack_class. erewrite validate_class; [|exact B|exact O|exact C1|apply assoc_mid; exact (fresh_hd _ _ _ F)].
    rewrite fmf_class; cbn [class_field m_validate]. unfold cf_validate, log_app. cbn [fst snd]. destruct (m_validate (smf I s) budget x0) as [q|]; [|reflexivity].
    change (pre ++ (?n, ?q) :: ?p) with (pre ++ [(n, q)] ++ p). rewrite (app_assoc pre). rewrite IH by (apply fresh_tl with (1 := F) (2 := N)).
    destruct (m_validate (fmf I fs) budget x1); [rewrite <- app_assoc|]; reflexivity.
Qed.
End Exec.
End Run.

(** ** The class *)
Lemma copy_null I fs x : m_copy (fmf I fs) x None = m_clear (fmf I fs) x.
Proof. destruct fs; reflexivity. Qed.
Section Means.
Context (I : forall t, umap_impl (key t)) (W : world) (d : edef) (Wf : wf d) (T : list (string * schema)) (HT : map fst T = TNs d) (fs : fields).
Context (Hs : stand W d T (ed_vars d) fs).
Local Notation g := (prog d).
Lemma fresh_nil : fresh [] (ed_vars d).
Proof. intros v _ []. Qed.
Lemma simple_container v : variable_ok v = true -> is_base v = true -> is_simple_base v || negb (match container v with CtNone => true | _ => false end) = true.
Proof. unfold variable_ok, is_simple_base, is_simple, container. intros V B. rewrite B. destruct (v_optional v), (v_vector v), (v_indexed v); try reflexivity; discriminate V. Qed.
Lemma run_new_ok : run_new I W g T = Done (pack fs (m_new (fmf I fs))).
Proof.
  unfold run_new. cbn [g_body prog]. rewrite prog_members.
  enough (H : forall l fs, stand W d T l fs ->
    new_members I W g T (map (fun v => ("v_" ^^ v_name v, vtype v, is_simple_base v)) l) = Some (pack fs (m_new (fmf I fs)))) by (rewrite (H _ _ Hs); reflexivity).
  clear Hs fs. induction 1 as [|v l fs fs' iv Hl N St _ IH]; [reflexivity|]. cbn [map new_members]. rewrite IH.
  destruct St as [t fs B K|s fs B O K Cn C1 C2]; rewrite K; unfold new_member.
  - rewrite (simple_container v (proj1 (var_parts d Wf v iv)) B). rewrite fmf_base. cbn [base_field m_new]. rewrite pack_base. reflexivity.
  - rewrite Cn. rewrite fmf_class. cbn [class_field m_new]. rewrite pack_class. reflexivity.
Qed.
Lemma run_clear_ok x : run_clear I W g T (pack fs x) = rmap (pack fs) (m_clear (fmf I fs) x).
Proof.
  unfold run_clear. rewrite (def_clear d).
  change (pack fs x) with ([] ++ pack fs x). 
  exact (clear_run I W d T re0 0 (fun _ => Undef) no_copy no_equals (ed_vars d) fs Hs [] x [] None None [] [("obj", VAt (PObj false))] fresh_nil eq_refl).
Qed.
Lemma run_copy_ok a s : run_copy I W g T (pack fs a) (option_map (pack fs) s) = rmap (pack fs) (m_copy (fmf I fs) a s).
Proof.
  unfold run_copy. rewrite (def_copy d). destruct s as [b|].
  - exact (copy_run I W d T re0 0 (run_clear I W g T) no_copy no_equals (ed_vars d) fs Hs [] [] a b None None []
      [("dest", VAt (PObj false)); ("source", VPtr (Some (PObj true)))] fresh_nil fresh_nil eq_refl eq_refl).
  - rewrite copy_null. rewrite <- run_clear_ok. cbn -[run_clear]. destruct (run_clear I W g T (pack fs a)); reflexivity.
Qed.
Lemma run_equals_ok p q a b : run_equals I W g T p q (pack fs a) (pack fs b) = Done (m_equals (fmf I fs) (same_ptr p q) (deref p a b) (deref q a b)).
Proof.
  unfold run_equals. rewrite (def_equals d).
  assert (R : forall i j x y, Bool.eqb i j = false -> x = (if i then b else a) -> y = (if j then b else a) ->
    exec I W g T re0 0 (run_clear I W g T) (run_copy I W g T) no_equals (seqs (flat_map (equals_ast (ed_name d)) (ed_vars d) ++ [ret true]) SSkip)
      (RT (pack fs a) (pack fs b) None None [] [("lvar", VPtr (Some (PObj i))); ("rvar", VPtr (Some (PObj j)))]) =
    Done (Some (VBool (m_eq (fmf I fs) x y)), RT (pack fs a) (pack fs b) None None [] [("lvar", VPtr (Some (PObj i))); ("rvar", VPtr (Some (PObj j)))])).
  { intros i j x y N -> ->. apply (equals_run I W d T re0 0 _ _ _ (ed_vars d) fs Hs i j [] []); try exact fresh_nil; try reflexivity; try exact N.
    - destruct i; reflexivity.
    - destruct j; reflexivity. }
  cbn [fst snd]. change (code_of (equals_item (entity_of d))) with
    (seqs ([sif (EEq (EId ["lvar"]) (EId ["rvar"])) (ret true); sif (EOr (ENot (EId ["lvar"])) (ENot (EId ["rvar"]))) (ret false)]
        ++ flat_map (equals_ast (ed_name d)) (ed_vars d) ++ [ret true]) SSkip).
  rewrite seqs_app. unfold bindings. cbn [fst]. change (map p_name (f_params (fn_of (equals_item (entity_of d))))) with ["lvar"; "rvar"].
  generalize (R false true _ _ eq_refl eq_refl eq_refl) (R true false _ _ eq_refl eq_refl eq_refl). cbv iota.
  generalize (seqs (flat_map (equals_ast (ed_name d)) (ed_vars d) ++ [ret true]) SSkip). intros s R1 R2.
  destruct p as [[|]|], q as [[|]|]; try reflexivity.
  - match goal with |- ?l = _ => change l with (do r <- exec I W g T re0 0 (run_clear I W g T) (run_copy I W g T) no_equals s
      (RT (pack fs a) (pack fs b) None None [] [("lvar", VPtr (Some (PObj true))); ("rvar", VPtr (Some (PObj false)))]);
      match fst r with Some (VBool x) => Done x | _ => Undef end) end. rewrite R2. reflexivity.
  - match goal with |- ?l = _ => change l with (do r <- exec I W g T re0 0 (run_clear I W g T) (run_copy I W g T) no_equals s
      (RT (pack fs a) (pack fs b) None None [] [("lvar", VPtr (Some (PObj false))); ("rvar", VPtr (Some (PObj true)))]);
      match fst r with Some (VBool x) => Done x | _ => Undef end) end. rewrite R1. reflexivity.
Qed.
Lemma ent_ok v : In v (ed_vars d) -> is_base v = false -> vars_have_entity (entity_of d) = true.
Proof. intros i B. exact (has_entity d v i B). Qed.
Lemma run_write_ok h x w : run_write I W g T h (pack fs x) w = m_write (fmf I fs) h x w.
Proof.
  unfold run_write. rewrite (def_write d).
  rewrite <- (write_run I W d T re0 0 (run_clear I W g T) (run_copy I W g T) (run_equals I W g T) (ed_vars d) fs (vars_have_entity (entity_of d)) Hs ent_ok h [] x [] None [] w fresh_nil).
  cbn [app fst snd]. unfold bindings. cbn [fst].
  change (code_of (write_item (entity_of d))) with
    (seqs ([SBool "success" (EBool true)] ++ (if vars_have_entity (entity_of d) then [SPtr "EntityWriter" "section_writer" ENull] else [])
     ++ flat_map (writer_ast (ed_name d)) (ed_vars d) ++ [ret true]) SSkip).
  rewrite seqs_app. rewrite seqs_app. generalize (seqs (flat_map (writer_ast (ed_name d)) (ed_vars d) ++ [ret true]) SSkip). intros s.
  destruct (vars_have_entity (entity_of d)); reflexivity.
Qed.
Lemma run_read_ok e h x w : run_read I W g T e h (pack fs x) w = rmap (fun r => let '(ok, y, w1) := r in (ok, pack fs y, w1)) (m_read (fmf I fs) e h x w).
Proof.
  unfold run_read. rewrite (def_read d).
  change (rmap (fun r => let '(ok, y, w1) := r in (ok, pack fs y, w1))) with (rmap (fun r => let '(ok, y, w1) := (r : bool * fty fs * rstate) in (ok, [] ++ pack fs y, w1))).
  rewrite <- (read_run I W d T e 0 (run_clear I W g T) (run_copy I W g T) (run_equals I W g T) (ed_vars d) fs (vars_have_entity (entity_of d)) Hs ent_ok h [] x [] None [] w fresh_nil).
  cbn [app fst snd]. unfold bindings. cbn [fst].
  change (code_of (read_item (entity_of d))) with
    (seqs ([SBool "success" (EBool true)] ++ (if vars_have_entity (entity_of d) then [SPtr "EntityReader" "section_reader" ENull] else [])
     ++ flat_map (reader_ast (ed_name d)) (ed_vars d) ++ [ret true]) SSkip).
  rewrite seqs_app. rewrite seqs_app. generalize (seqs (flat_map (reader_ast (ed_name d)) (ed_vars d) ++ [ret true]) SSkip). intros s.
  destruct (vars_have_entity (entity_of d)); reflexivity.
Qed.
Lemma run_validate_ok n x : run_validate I W g T n (pack fs x) = match m_validate (fmf I fs) n x with Some l => Done (true, l) | None => Undef end.
Proof.
  unfold run_validate. rewrite (def_validate d).
  exact (validate_run I W d T re0 n (run_clear I W g T) (run_copy I W g T) (run_equals I W g T) (ed_vars d) fs Hs [] x [] None None [] fresh_nil).
Qed.
(** The operators. *)
Ltac opdef := rewrite (funcs_head d); unfold rval, self; change (g_name g) with (ed_name d); unfold inline_items; cbn [map fn_of];
  repeat rewrite defined_tl by (cbn; rewrite ?streqb_refl; reflexivity);
  apply defined_hd; [reflexivity|]; cbn; unfold param_eqb; cbn; rewrite !streqb_refl; reflexivity.
Lemma op_ctor : defined (FName [ed_name d; ed_name d]) [rval g] false (funcs (g_head g)) =
  Some (Fn None (FName [ed_name d; ed_name d]) [Par true (ct (ed_name d)) ByRef "rval"] false (BCode (blk [copy_this])), blk [copy_this]).
Proof. opdef. Qed.
Lemma op_assign : defined (FOper [ed_name d] Eq) [rval g] false (funcs (g_head g)) =
  Some (Fn (Some (false, RType (ct (ed_name d)), ByRef)) (FOper [ed_name d] Eq) [Par true (ct (ed_name d)) ByRef "rval"] false
    (BCode (blk [copy_this; SReturn (Some (EDeref EThis))])), blk [copy_this; SReturn (Some (EDeref EThis))]).
Proof. opdef. Qed.
Lemma op_eq : defined (FOper [ed_name d] EqEq) [rval g] true (funcs (g_head g)) =
  Some (Fn (Some (false, RBool, ByValue)) (FOper [ed_name d] EqEq) [Par true (ct (ed_name d)) ByRef "rval"] true (BCode (blk [SReturn (Some equals_this)])),
    blk [SReturn (Some equals_this)]).
Proof. opdef. Qed.
Lemma op_ne : defined (FOper [ed_name d] BangEq) [rval g] true (funcs (g_head g)) =
  Some (Fn (Some (false, RBool, ByValue)) (FOper [ed_name d] BangEq) [Par true (ct (ed_name d)) ByRef "rval"] true (BCode (blk [SReturn (Some (ENot equals_this))])),
    blk [SReturn (Some (ENot equals_this))]).
Proof. opdef. Qed.
Lemma run_assign_ok a b : run_assign I W g T (pack fs a) (pack fs b) = rmap (pack fs) (m_copy (fmf I fs) a (Some b)).
Proof.
  unfold run_assign, run_op. change (g_name g) with (ed_name d). rewrite op_assign.
  pose proof (run_copy_ok a (Some b)) as R. cbn [option_map] in R. rewrite <- R.
  cbn -[run_copy run_clear run_equals]. destruct (run_copy I W g T (pack fs a) (Some (pack fs b))); reflexivity.
Qed.
Lemma run_ctor_ok b : run_copy_ctor I W g T (pack fs b) = rmap (pack fs) (m_copy (fmf I fs) (m_new (fmf I fs)) (Some b)).
Proof.
  unfold run_copy_ctor, run_op. rewrite run_new_ok. cbn [bind]. change (g_name g) with (ed_name d). rewrite op_ctor.
  pose proof (run_copy_ok (m_new (fmf I fs)) (Some b)) as R. cbn [option_map] in R. rewrite <- R.
  cbn -[run_copy run_clear run_equals]. destruct (run_copy I W g T (pack fs (m_new (fmf I fs))) (Some (pack fs b))); reflexivity.
Qed.
Lemma run_eq_ok a b : run_eq I W g T (pack fs a) (pack fs b) = Done (m_eq (fmf I fs) a b).
Proof.
  unfold run_eq, run_op. change (g_name g) with (ed_name d). rewrite op_eq.
  pose proof (run_equals_ok (Some false) (Some true) a b) as R. cbn [same_ptr deref Bool.eqb m_equals] in R.
  cbn -[run_copy run_clear run_equals]. rewrite R. reflexivity.
Qed.
Lemma run_ne_ok a b : run_ne I W g T (pack fs a) (pack fs b) = Done (negb (m_eq (fmf I fs) a b)).
Proof.
  unfold run_ne, run_op. change (g_name g) with (ed_name d). rewrite op_ne.
  pose proof (run_equals_ok (Some false) (Some true) a b) as R. cbn [same_ptr deref Bool.eqb m_equals] in R.
  cbn -[run_copy run_clear run_equals]. rewrite R. reflexivity.
Qed.
Lemma means_ok : means I W g T fs.
Proof.
  constructor; intros.
  - exact run_new_ok.
  - apply run_clear_ok.
  - apply run_copy_ok.
  - apply run_equals_ok.
  - apply run_write_ok.
  - apply run_read_ok.
  - apply run_validate_ok.
  - apply run_ctor_ok.
  - apply run_assign_ok.
  - apply run_eq_ok.
  - apply run_ne_ok.
Qed.
End Means.

(** The accessors. *)
Lemma defined_skip n ps c l r : (forall f, In f l -> fname_eqb (f_name f) n && params_eqb (f_params f) ps && Bool.eqb (f_const f) c = false \/ (forall s, f_body f <> BCode s)) ->
  defined n ps c (l ++ r) = defined n ps c r.
Proof.
  induction l as [|f l IH]; intros H; [reflexivity|]. cbn [app defined].
  rewrite IH by (intros x i; apply H; right; exact i).
  destruct (H f (or_introl eq_refl)) as [E|E]; [rewrite E; destruct (f_body f); reflexivity|].
  destruct (f_body f) as [| |s]; try reflexivity. exfalso. exact (E s eq_refl).
Qed.
Lemma accessor_ok I W d T (Wf : wf d) v c o : In v (ed_vars d) -> run_accessor I W (prog d) T (v_name v) c o = Done ("v_" ^^ v_name v).
Proof.
  intros i. unfold run_accessor. rewrite (funcs_body d).
  rewrite defined_skip.
  2:{ intros f j. right. intros s E. apply in_map_iff in j. destruct j as (x & <- & j). apply filter_In in j. destruct j as (j & _).
      unfold op_decls in j. repeat (destruct j as [<-|j]; [discriminate E|]). destruct j. }
  pose proof (wf_nodup d Wf) as N. revert i N. generalize (ed_vars d). induction l as [|w l IH]; intros i N; [destruct i|].
  cbn [flat_map]. inversion N as [|x y N1 N2]. subst. destruct (string_dec (v_name w) (v_name v)) as [e|ne].
  - assert (E : defined (FName [v_name v]) [] c (accessors w ++ flat_map accessors l) = Some (fn_of (accessor_item c w), code_of (accessor_item c w))).
    { destruct c; cbn -[streqb]; rewrite e, streqb_refl; reflexivity. }
    rewrite E. cbn. rewrite e. reflexivity.
  - rewrite defined_skip.
    + destruct i as [->|i]; [congruence|]. exact (IH i N2).
    + intros f [<-|[<-|[]]]; left; cbn -[streqb]; rewrite (streqb_ne _ _ ne); reflexivity.
Qed.
