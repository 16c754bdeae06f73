(** * ValueEqSpec: when two values are equal. Specification. *)
From Verif Require Import Base Bytes Values Types.
Open Scope N_scope.

(** The number of float components of a type and their size; 0 if it has none. *)
Definition float_parts (t : dtype) : N * N :=
  match t with
  | TFloat f => (1, wbytes (fword f))
  | TVec d f => (dimn d, wbytes (fword f))
  | TMat d f => (dimn d * dimn d, wbytes (fword f))
  | TQuat f => (4, wbytes (fword f))
  | _ => (0, 1)
  end.
Definition has_floats (t : dtype) : bool := negb (fst (float_parts t) =? 0).
(** Bits of the [i]-th component. *)
Definition part (w i : N) (img : list byte) : N := of_le (take w (drop (w * i) img)).
(** IEEE 754 encodings: NaN has exponent bits all ones and a fraction; zero has neither. *)
Definition exp_bits (w : N) : N := if w =? 4 then 8 else 11.
Definition frac_bits (w : N) : N := if w =? 4 then 23 else 52.
Definition fraction (w x : N) : N := x mod 2 ^ frac_bits w.
Definition exponent (w x : N) : N := (x / 2 ^ frac_bits w) mod 2 ^ exp_bits w.
Definition nan (w x : N) : Prop := exponent w x = 2 ^ exp_bits w - 1 /\ fraction w x <> 0.
Definition zero (w x : N) : Prop := exponent w x = 0 /\ fraction w x = 0.
Definition float_same (w x y : N) : Prop := ~ nan w x /\ ~ nan w y /\ (x = y \/ zero w x /\ zero w y).

(** Equality of two values of type [t]: floats component by component, everything else identity. *)
Definition val_same (t : dtype) (a b : val) : Prop :=
  match a, b with
  | VP x, VP y => if has_floats t
                  then forall i, i < fst (float_parts t) -> float_same (snd (float_parts t)) (part (snd (float_parts t)) i x) (part (snd (float_parts t)) i y)
                  else x = y
  | _, _ => a = b
  end.
(** No component is a NaN. *)
Definition clean (t : dtype) (a : val) : Prop :=
  match a with
  | VP x => forall i, i < fst (float_parts t) -> ~ nan (snd (float_parts t)) (part (snd (float_parts t)) i x)
  | _ => True
  end.

(** Containers: both absent, or both present with the same items (and the same index). *)
Definition cval_same (t : dtype) (a b : cval) : Prop :=
  match a, b with
  | CV x, CV y => val_same t x y
  | COpt (Some x), COpt (Some y) => val_same t x y
  | COpt None, COpt None => True
  | CVec x, CVec y => Forall2 (val_same t) x y
  | COptVec (Some x), COptVec (Some y) => Forall2 (val_same t) x y
  | COptVec None, COptVec None => True
  | CIdx x i, CIdx y j => Forall2 (val_same t) x y /\ i = j
  | COptIdx (Some (x, i)), COptIdx (Some (y, j)) => Forall2 (val_same t) x y /\ i = j
  | COptIdx None, COptIdx None => True
  | _, _ => False
  end.
Definition cval_clean (t : dtype) (a : cval) : Prop :=
  match a with
  | CV x | COpt (Some x) => clean t x
  | CVec l | COptVec (Some l) | CIdx l _ | COptIdx (Some (l, _)) => Forall (clean t) l
  | _ => True
  end.
