(** * TestDynSpec: what the generated test of the dynamic types needs. Specification. *)
From Verif Require Import Base Bytes Values Types ValueEqSpec TestValues TestDyn.
Open Scope N_scope.

(** What the generators can draw: legal values of the type; for a value or an optional value, one at least that is not zero
    (the loop ends there); for the vectors one value at least. *)
Definition draw_ok (t : dtype) (c : ctype) (vals : list val) : Prop :=
  cval_ok t (CVec vals) /\
  match c with
  | CtNone | CtOpt => exists x, In x vals /\ ~ val_same t x (val_default (dshape t))
  | _ => vals <> []
  end.
(** The object is made of values without a NaN: the first value that is not zero, or all the values of the vector. *)
Definition draw_clean (t : dtype) (c : ctype) (vals : list val) : Prop :=
  match c with
  | CtNone | CtOpt => forall l x r, vals = l ++ x :: r -> Forall (fun y => val_same t y (val_default (dshape t))) l ->
      ~ val_same t x (val_default (dshape t)) -> clean t x
  | _ => Forall (clean t) vals
  end.
