(** * GenDynParse: the text of the table of dynamic types, parsed. Proofs. *)
From Coq Require Import Strings.String Strings.Ascii Strings.HexString.
From Verif Require Import Base Types GenText CppText CppSem GenTextSpec GenLex GenParse GenRW CppFun GenRWSpec GenRWParse GenRWFile
  GenDyn CppDyn GenTypes GenTypesSpec GenDynSpec GenDynAst.
Local Open Scope string_scope.
Local Open Scope list_scope.
Local Open Scope nat_scope.

(** ** Lists of things up to a brace *)
Record many {A} (p : P A) (ts : list tok) (xs : list A) : Prop := {
  my_len : length xs <= length ts;
  my_run : forall rest k, pmany p (length xs + k) (ts ++ rest) = match pmany p k rest with Some (b, r) => Some (xs ++ b, r) | None => None end }.
Lemma pmany_step {A} (p : P A) k l a r : p l = Some (a, r) -> (match l with Sy RBrace :: _ => False | _ => True end) ->
  pmany p (S k) l = match pmany p k r with Some (b, r2) => Some (a :: b, r2) | None => None end.
Proof.
  intros E H. assert (G : pmany p (S k) l = (pbind p (fun a => pbind (pmany p k) (fun b => pret (a :: b)))) l).
  { destruct l as [|[?|?|?|[]|?] l]; try reflexivity. destruct H. }
  rewrite G. unfold pbind. rewrite E. destruct (pmany p k r) as [[b r2]|]; reflexivity.
Qed.
Lemma pmany_mono {A} (p : P A) k : forall l x j, pmany p k l = Some x -> k <= j -> pmany p j l = Some x.
Proof.
  induction k as [|k IH]; intros l x j H Hj.
  - destruct l as [|[?|?|?|[]|?] l]; cbn in H; try discriminate. destruct j; exact H.
  - destruct j as [|j]; [lia|].
    assert (C : (exists r, l = Sy RBrace :: r) \/ (forall m, pmany p (S m) l = (pbind p (fun a => pbind (pmany p m) (fun b => pret (a :: b)))) l)).
    { destruct l as [|[?|?|?|[]|?] l]; try (right; reflexivity). left. eauto. }
    destruct C as [[r ->]|C]; [exact H|]. rewrite C in H |- *. unfold pbind in *.
    destruct (p l) as [[a r]|]; [|discriminate].
    destruct (pmany p k r) as [[b r2]|] eqn:E; [|discriminate]. rewrite (IH _ _ j E) by lia. exact H.
Qed.
Lemma many_nil {A} (p : P A) : many p [] [].
Proof. split; [cbn; lia|]. intros rest k. cbn [length Nat.add app]. destruct (pmany p k rest) as [[b r]|]; reflexivity. Qed.
Lemma many_app {A} (p : P A) a x b y : many p a x -> many p b y -> many p (a ++ b) (x ++ y).
Proof.
  intros [A1 A2] [B1 B2]. split; [rewrite !app_length; lia|]. intros rest k. rewrite <- app_assoc, app_length, <- Nat.add_assoc, A2, B2.
  destruct (pmany p k rest) as [[c r]|]; [rewrite app_assoc|]; reflexivity.
Qed.
Lemma many_one {A} (p : P A) ts a : ts <> [] -> (forall rest, p (ts ++ rest) = Some (a, rest)) -> (match ts with Sy RBrace :: _ => False | _ => True end) ->
  many p ts [a].
Proof.
  intros N E H. split; [destruct ts; cbn; [congruence|lia]|]. intros rest k. cbn [length Nat.add].
  rewrite (pmany_step p k (ts ++ rest) a rest (E rest)); [reflexivity|]. destruct ts as [|t ts]; [congruence|exact H].
Qed.
Lemma many_flat {A X} (p : P A) (f : X -> list tok) (g : X -> list A) l : (forall x, In x l -> many p (f x) (g x)) -> many p (flat_map f l) (flat_map g l).
Proof.
  induction l as [|x l IH]; intros H; cbn [flat_map]; [apply many_nil|].
  apply many_app; [apply H; left; reflexivity|]. apply IH. intros y i. apply H. right. exact i.
Qed.

(** ** Specialisations *)
Definition finds {A} (p : P A) (ts : list tok) (xs : list A) : Prop :=
  exists v, (forall rest, segs 1 None (ts ++ rest) = option_map (app v) (segs 1 None rest)) /\ all_of p v = Some xs.
Lemma all_of_app {A} (p : P A) v w : all_of p (v ++ w) = match all_of p v, all_of p w with Some a, Some b => Some (a ++ b) | _, _ => None end.
Proof.
  induction v as [|[a ts] v IH]; cbn [app all_of]; [destruct (all_of p w); reflexivity|].
  destruct (Nat.eqb a 1); [|reflexivity]. destruct (p ts) as [[s [|? ?]]|]; try reflexivity.
  rewrite IH. destruct (all_of p v); [|reflexivity]. destruct (all_of p w); reflexivity.
Qed.
Lemma finds_nil {A} (p : P A) : finds p [] [].
Proof. exists []. split; [|reflexivity]. intros rest. cbn [app]. destruct (segs 1 None rest); reflexivity. Qed.
Lemma finds_app {A} (p : P A) a b x y : finds p a x -> finds p b y -> finds p (a ++ b) (x ++ y).
Proof.
  intros (v & Q1 & Q2) (w & Q3 & Q4). exists (v ++ w). split.
  - intros rest. rewrite <- app_assoc, Q1, Q3. destruct (segs 1 None rest); cbn; [|reflexivity]. rewrite app_assoc. reflexivity.
  - rewrite all_of_app, Q2, Q4. reflexivity.
Qed.
Lemma finds_flat {A X} (p : P A) (f : X -> list tok) (g : X -> list A) l :
  (forall x, In x l -> finds p (f x) (g x)) -> finds p (flat_map f l) (flat_map g l).
Proof.
  induction l as [|x l IH]; intros H; cbn [flat_map]; [apply finds_nil|].
  apply finds_app; [apply H; left; reflexivity|]. apply IH. intros y i. apply H. right. exact i.
Qed.
Lemma finds_one {A} (p : P A) ts seg s :
  (forall rest, segs 1 None (ts ++ rest) = match segs 1 None rest with Some u => Some ((1, seg) :: u) | None => None end) ->
  p seg = Some (s, []) -> finds p ts [s].
Proof.
  intros A1 B. exists [(1, seg)]. split.
  - intros rest. rewrite A1. destruct (segs 1 None rest); reflexivity.
  - cbn. rewrite B. reflexivity.
Qed.
Lemma finds_file {A} (p : P A) lines pre mid post xs :
  tokens lines = pre ++ mid ++ post -> (forall rest, segs 0 None (pre ++ rest) = segs 1 None rest) -> segs 1 None post = Some [] ->
  finds p mid xs -> specials_of p lines = Some xs.
Proof.
  intros E A1 B (v & C & D). unfold specials_of. rewrite E, A1, C, B. cbn. rewrite app_nil_r. exact D.
Qed.

(** ** Names *)
Lemma idchars_app a b : idchars a -> idchars b -> idchars (a ^^ b).
Proof.
  unfold idchars. induction a as [|x a IH]; cbn; [auto|]. intros H K. apply andb_prop in H. destruct H as [H1 H2]. rewrite H1. exact (IH H2 K).
Qed.
Lemma ct_chars c : idchars (ct_name c). Proof. destruct c; reflexivity. Qed.
Lemma tgood_chars T : tgood T -> idchars T.
Proof. intros [(H & _)|[-> (H & _)]]; exact H. Qed.
Lemma cls_good T c : tgood T -> good (cls_name T c) (Id (cls_name T c)).
Proof.
  intros G. split; [|split; [discriminate|reflexivity]]. unfold cls_name.
  repeat apply idchars_app; try reflexivity; [exact (tgood_chars T G)|apply ct_chars].
Qed.
Lemma obj_good T c : tgood T -> good (obj_name T c) (Id (obj_name T c)).
Proof.
  intros G. split; [|split; [discriminate|reflexivity]]. unfold obj_name.
  repeat apply idchars_app; try reflexivity; [exact (tgood_chars T G)|apply ct_chars].
Qed.
Lemma dt_good T : tgood T -> good ("dt_" ^^ T) (Id ("dt_" ^^ T)).
Proof. intros G. split; [|split; [discriminate|reflexivity]]. apply idchars_app; [reflexivity|exact (tgood_chars T G)]. Qed.

(** ** One class *)
Lemma cls_line T c :
  "    static const class _dt_" ^^ T ^^ "_ct_" ^^ ct_name c ^^ "_DynamicTypeClass : public _dynamicTypeClass"
  = "    static const class " ^^ cls_name T c ^^ " : public _dynamicTypeClass".
Proof. unfold cls_name. rewrite !app_assoc_s. reflexivity. Qed.
Lemma obj_line T c : "        } _dt_" ^^ T ^^ "_ct_" ^^ ct_name c ^^ "_DynamicTypeObject;" = "        } " ^^ obj_name T c ^^ ";".
Proof. unfold obj_name. rewrite !app_assoc_s. reflexivity. Qed.
Ltac one_class :=
  unfold tokens; cbn [map app]; lex_all;
  match goal with
  | |- many _ ?l _ =>
    let l' := eval vm_compute in l in change l with l';
    apply many_one; [discriminate | intros rest; vm_compute; reflexivity | exact Logic.I]
  end.
Lemma class_parses T c : tgood T -> many pditem (tokens (dyn_class T c)) [a_class T c].
Proof.
  intros G. pose proof (cls_good T c G) as G1. pose proof (obj_good T c G) as G2. unfold dyn_class. rewrite cls_line, obj_line. unfold a_class.
  generalize dependent (cls_name T c). intros cn G1. generalize dependent (obj_name T c). intros on G2.
  destruct G as [G|[-> G]]; destruct c; cbn [combo is_template ct_name combo_type]; rewrite ?app_assoc_s; one_class.
Qed.
