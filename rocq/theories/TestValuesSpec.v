(** * TestValuesSpec: what the test of EntityWriter and EntityReader needs. Specification. *)
From Verif Require Import Base Bytes Values Types Format Items ItemSpec ValueEqSpec TestValues.
Open Scope N_scope.

(** Legal values of the type, and an uninitialised variable of the type. *)
Definition draws_ok (t : dtype) (d : draws) : Prop :=
  val_ok t (d_value d) /\ cval_ok t (COpt (d_opt d)) /\ cval_ok t (CVec (d_vec d)) /\ cval_ok t (COptVec (d_optvec d)) /\
  cval_ok t (CVec (fst (d_idx d))) /\ cval_ok t (COptVec (option_map fst (d_optidx d))) /\ val_ok t (d_uninit d).
(** No component of a value drawn is a NaN. *)
Definition draws_clean (t : dtype) (d : draws) : Prop :=
  clean t (d_value d) /\ cval_clean t (COpt (d_opt d)) /\ cval_clean t (CVec (d_vec d)) /\ cval_clean t (COptVec (d_optvec d)) /\
  cval_clean t (CVec (fst (d_idx d))) /\ cval_clean t (COptVec (option_map fst (d_optidx d))).
(** The six blocks of a call. Every indexed array has an empty index. *)
Definition draws_bytes (fl : bool) (t : dtype) (d : draws) : list byte :=
  items_image fl (map (Item t (test_key d))
    [CV (d_value d); COpt (d_opt d); CVec (d_vec d); COptVec (d_optvec d); CIdx (fst (d_idx d)) [];
     COptIdx (option_map (fun x => (fst x, [])) (d_optidx d))]).
Definition calls_bytes (fl : bool) (l : list (dtype * draws)) : list byte := flat_map (fun x => draws_bytes fl (fst x) (snd x)) l.
