(** * TestDyn: the generated test of the dynamic types. Model of the tests in Tests/DynamicTypesTests.cpp, as
    CodeGenerator/Generators/ISD_DynamicTypes.py:232-317 writes them, and of the generators of random values that it uses. *)
From Verif Require Import Base Bytes Values Types ValueEq DynTypes TestValues.
Open Scope N_scope.

(** random_nonzero_value, TestHelpers/random_vals.h:69-74, and the loop of random_nonzero_optional_value (93-98): the first
    value that is not == zero. [draws] are the results of random_value, in order; None: all of them are zero, and the loop
    goes on. *)
Definition nonzero (t : dtype) (draws : list val) : option val :=
  List.find (fun x => negb (val_eq t x (val_default (dshape t)))) draws.
(** random_nonzero_value, random_nonzero_optional_value, random_nonzero_vector (112-117), random_nonzero_optional_vector
    (121-125), random_nonzero_idx_vector (162-167), random_nonzero_optional_idx_vector (171-175): the object afterwards. For
    the vectors [draws] are the values of the vector, and [ints] the indices drawn (which random_idx_vector does not keep). *)
Definition nonzero_content (t : dtype) (c : ctype) (draws : list val) (ints : list N) : option cval :=
  match c with
  | CtNone => option_map CV (nonzero t draws)
  | CtOpt => option_map (fun x => COpt (Some x)) (nonzero t draws)
  | CtVec => Some (CVec draws)
  | CtOptVec => Some (COptVec (Some draws))
  | CtIdx => Some (CIdx (fst (random_idx (draws, ints))) (snd (random_idx (draws, ints))))
  | CtOptIdx => Some (COptIdx (Some (random_idx (draws, ints))))
  end.

(** The part of DynamicValueTester<_Ty> for one container type, ISD_DynamicTypes.py:261-296: dataA is the object made by
    new_type, dataB the variable on the stack. *)
Definition dyn_block (t : dtype) (c : ctype) (draws : list val) (ints : list N) : res bool :=
  let type_index := dt_id t in let ct := ct_id c in
  match dyn_new type_index ct with
  | None => Done false
  | Some a =>
    let dataB := Some (Obj (t, c) (cval_default t c)) in
    do r <- dyn_clear type_index ct (Some a); let '(ok, dataA) := r in
    if negb ok then Done false else
    do e <- dyn_equals type_index ct dataA dataB;
    if negb e then Done false else
    match nonzero_content t c draws ints, dataA with
    | Some v, Some o =>
      do dataA <- as_class (t, c) o (fun _ => Done (Some (Obj (o_class o) v)));
      do e <- dyn_equals type_index ct dataA dataB;
      if e then Done false else
      do r <- dyn_copy type_index ct dataB dataA; let '(ok, dataB) := r in
      if negb ok then Done false else
      do e <- dyn_equals type_index ct dataA dataB;
      if negb e then Done false else
      do r <- dyn_clear type_index ct dataA; let '(ok, dataA) := r in
      if negb ok then Done false else
      do e <- dyn_equals type_index ct dataA dataB;
      if e then Done false else
      do r <- dyn_copy type_index ct dataB dataA; let '(ok, dataB) := r in
      if negb ok then Done false else
      do e <- dyn_equals type_index ct dataA dataB;
      if negb e then Done false else
      dyn_delete type_index ct dataA
    | _, _ => Undef
    end
  end.
(** One call of random_nonzero_...: the type and the container it is for, and what is drawn. *)
Record dyn_draw := DDraw { y_type : dtype; y_cont : ctype; y_vals : list val; y_ints : list N }.
Fixpoint dyn_blocks (l : list dyn_draw) : res bool :=
  match l with
  | [] => Done true
  | d :: r => do ok <- dyn_block (y_type d) (y_cont d) (y_vals d) (y_ints d); if (ok : bool) then dyn_blocks r else Done false
  end.
(** TEST_METHOD( DynamicTypes ), lines 300-313: in each pass, every variant of every base type with every container type, in
    the order of the generator's lists. [passes] says what is drawn. *)
Definition dyn_pass (what : tclass -> list val * list N) : list dyn_draw :=
  map (fun k => DDraw (fst k) (snd k) (fst (what k)) (snd (what k))) all_classes.
Definition dyn_test (passes : list (tclass -> list val * list N)) : res bool := dyn_blocks (flat_map dyn_pass passes).
