(** * GenDynCalls: the functions of ISD::dynamic_types, executed. Proofs. *)
From Coq Require Import Strings.String Strings.Ascii.
From Verif Require Import Base Bytes Types GenText CppText CppSem GenTextSpec GenLex GenRW CppFun GenRWEval GenDyn CppDyn GenTypes GenTypesSpec GenTypesFacts
  GenDynSpec GenDynAst GenDynParse GenDynFile GenDynCheck GenDynRun GenDynFind.
Local Open Scope string_scope.
Local Open Scope list_scope.
Local Open Scope nat_scope.

Definition combo_fields : list (cty * string) := [(Ct ["data_type_index"] [], "data_type"); (Ct ["container_type_index"] [], "container_type")].
Definition class_value (ob : option string) : dv := match ob with Some o => UObj o | None => UNull end.
(** A result that is a truth value. *)
Definition boolean_result {W R} (x : O (dv * world W R)) : Prop := forall v w, x = Some (Done (v, w)) -> exists b, v = UBool b.
(** Braces as a type_combo. *)
Lemma find_braces {W R} (h : dhost W R) (K : around W R) fuel d k w : k_struct K "type_combo" = Some combo_fields ->
  enter h K fuel a_find [UBraces [UEnum "data_type_index" d; UEnum "container_type_index" k]] w = enter h K fuel a_find [rec d k] w.
Proof.
  intros H. unfold enter, a_find, invoke.
  assert (X : forall x, bind_params K [Par false tcombo ByValue "typeCombo"] [x] = match convert_to K false tcombo ByValue x with Some v => Some [("typeCombo", LV false tcombo ByValue v)] | None => None end)
    by (intros x; cbn [bind_params]; destruct (convert_to K false tcombo ByValue x); reflexivity).
  rewrite !X. assert (Y : convert_to K false tcombo ByValue (UBraces [UEnum "data_type_index" d; UEnum "container_type_index" k]) = Some (rec d k)) by (cbn; rewrite H; reflexivity).
  rewrite Y. reflexivity.
Qed.
Section Calls.
Context {W R : Type} (h : dhost W R) (K : around W R) (fuel : nat) (d k : N) (w : world W R) (ob : option string).
Definition D : dv := UEnum "data_type_index" d.
Definition C : dv := UEnum "container_type_index" k.
Context (HF : k_fun K "_findTypeClass" [UBraces [D; C]] w = oret (class_value ob, w)).
Context (HC : k_class K "_dynamicTypeClass" = true).
Definition fn (i : nat) : ddecl := nth i a_functions a_struct.
Ltac start := unfold fn, a_functions, nth, enter, invoke, D, C in *; cbn.
Ltac found := rewrite HF; unfold class_value; destruct ob as [o|]; cbn; rewrite ?HC; cbn; try reflexivity.
Lemma f_new a w2 : (forall o, ob = Some o -> k_virtual K o "New" [] w = oret (UPtr false None a, w2)) ->
  enter h K fuel (fn 0) [D; C] w = match ob with None => oret (UTuple UNull false, w) | Some o => oret (UTuple (UPtr false None a) true, w2) end.
Proof. intros HV. start. found. rewrite (HV o eq_refl). reflexivity. Qed.
Lemma f_null i q : In (i, q) [(1, RDelete None); (2, RClear None); (3, RWrite None); (4, RRead None)] -> forall kc,
  enter h K fuel (fn i) (arguments kc d k q) w = answer false w.
Proof. intros H kc. cbn in H. decompose [or] H; try contradiction; match goal with E : (_, _) = _ |- _ => injection E as <- <- end; reflexivity. Qed.
Lemma f_null2 i q : In (i, q) [(5, RCopy None None); (6, REquals None None)] -> forall kc, enter h K fuel (fn i) (arguments kc d k q) w = answer false w.
Proof. intros H kc. cbn in H. decompose [or] H; try contradiction; match goal with E : (_, _) = _ |- _ => injection E as <- <- end; reflexivity. Qed.
Lemma f_null3 a i q : In (i, q) [(5, RCopy (Some a) None); (5, RCopy None (Some a)); (6, REquals (Some a) None); (6, REquals None (Some a))] -> forall kc,
  enter h K fuel (fn i) (arguments kc d k q) w = answer false w.
Proof.
  intros H kc. cbn in H. decompose [or] H; try contradiction; match goal with E : (_, _) = _ |- _ => injection E as <- <- end; destruct kc; reflexivity.
Qed.
(** The functions without a result, and those with one. *)
Definition then_true (x : O (dv * world W R)) : O (dv * world W R) := obind x (fun r => answer true (snd r)).
Definition or_false (x : O (dv * world W R)) : O (dv * world W R) := match ob with Some _ => x | None => answer false w end.
Lemma f_delete kc a x : (forall o, ob = Some o -> k_virtual K o "Delete" [UPtr false None a] w = x) ->
  enter h K fuel (fn 1) (arguments kc d k (RDelete (Some a))) w = or_false (then_true x).
Proof. intros HV. unfold or_false. start. found. rewrite (HV o eq_refl). destruct x as [[[v u]| |]|]; reflexivity. Qed.
Lemma f_clear kc a x : (forall o, ob = Some o -> k_virtual K o "Clear" [UPtr false None a] w = x) ->
  enter h K fuel (fn 2) (arguments kc d k (RClear (Some a))) w = or_false (then_true x).
Proof. intros HV. unfold or_false. start. found. rewrite (HV o eq_refl). destruct x as [[[v u]| |]|]; reflexivity. Qed.
Lemma f_write kc a x : (forall o, ob = Some o -> k_virtual K o "Write" [UKey; ULen; UWriter; UPtr true None a] w = x) -> boolean_result x ->
  enter h K fuel (fn 3) (arguments kc d k (RWrite (Some a))) w = or_false x.
Proof.
  intros HV B. unfold or_false. start. found. rewrite (HV o eq_refl). destruct x as [[[v u]| |]|]; try reflexivity. destruct (B v u eq_refl) as (b & ->). reflexivity.
Qed.
Lemma f_read kc a x : (forall o, ob = Some o -> k_virtual K o "Read" [UKey; ULen; UReader; UPtr false None a] w = x) -> boolean_result x ->
  enter h K fuel (fn 4) (arguments kc d k (RRead (Some a))) w = or_false x.
Proof.
  intros HV B. unfold or_false. start. found. rewrite (HV o eq_refl). destruct x as [[[v u]| |]|]; try reflexivity. destruct (B v u eq_refl) as (b & ->). reflexivity.
Qed.
Lemma f_copy kc a b x : (forall o, ob = Some o -> k_virtual K o "Copy" [UPtr false None a; UPtr true None b] w = x) ->
  enter h K fuel (fn 5) (arguments kc d k (RCopy (Some a) (Some b))) w = or_false (then_true x).
Proof. intros HV. unfold or_false. start. found. rewrite (HV o eq_refl). destruct x as [[[v u]| |]|]; reflexivity. Qed.
Lemma f_equals kc a b x : (forall o, ob = Some o -> k_virtual K o "Equals" [UPtr true None a; UPtr true None b] w = x) -> boolean_result x ->
  enter h K fuel (fn 6) (arguments kc d k (REquals (Some a) (Some b))) w = or_false x.
Proof.
  intros HV B. unfold or_false. start. found. rewrite (HV o eq_refl). destruct x as [[[v u]| |]|]; try reflexivity. destruct (B v u eq_refl) as (y & ->). reflexivity.
Qed.
End Calls.
