(** * ValueEq: operator== of the data types and of their containers. Model. *)
From Verif Require Import Base Bytes Values Types Keys Containers.
Open Scope N_scope.

(** A float of [w] bytes (4 or 8) given by its bits: the bits without the sign; those of infinity. *)
Definition f_abs (w x : N) : N := x mod 2 ^ (8 * w - 1).
Definition f_infinity (w : N) : N := if w =? 4 then 0x7f800000 else 0x7ff0000000000000.
Definition is_nan (w x : N) : bool := f_infinity w <? f_abs w x.
(** IEEE 754 ==: nothing equals a NaN, the two zeros are equal, otherwise the bits are compared. *)
Definition float_eq (w x y : N) : bool :=
  negb (is_nan w x) && negb (is_nan w y) && ((x =? y) || ((f_abs w x =? 0) && (f_abs w y =? 0))).
(** [n] floats, one after the other. *)
Fixpoint floats_eq (w : N) (n : nat) (a b : list byte) : bool :=
  match n with
  | O => true
  | S n' => float_eq w (of_le (take w a)) (of_le (take w b)) && floats_eq w n' (drop w a) (drop w b)
  end.

(** operator== of the data types: numbers by value; glm vectors, matrices and quaternions component by
    component (glm, not in /repo); UUID, HASH, references and strings as in Keys. *)
Definition val_eq (t : dtype) (a b : val) : bool :=
  match t with
  | TBool => match a, b with VB x, VB y => Bool.eqb x y | _, _ => false end
  | TFloat f => floats_eq (wbytes (fword f)) 1 (img a) (img b)
  | TVec d f => floats_eq (wbytes (fword f)) (N.to_nat (dimn d)) (img a) (img b)
  | TMat d f => floats_eq (wbytes (fword f)) (N.to_nat (dimn d * dimn d)) (img a) (img b)
  | TQuat f => floats_eq (wbytes (fword f)) 4 (img a) (img b)
  | TIVec d i | TUVec d i => words_eq (wbytes (iword i)) (N.to_nat (dimn d)) (img a) (img b)
  | _ => key_eq t a b
  end.

(** The objects of the containers (Containers.v) as values. *)
Definition ovec_of (o : option (list val)) : ovec val := match o with Some l => OVec l true | None => OVec [] false end.
Definition oivec_of (o : option (list val * list N)) : oivec val :=
  match o with Some (l, ix) => OIVec (IVec l ix) true | None => OIVec (IVec [] []) false end.
(** operator== of T, optional_value<T> (ISD/ISD_optional_value.h:56-70), std::vector<T> and the other
    containers (Containers.v). *)
Definition cval_eq (t : dtype) (a b : cval) : bool :=
  match a, b with
  | CV x, CV y => val_eq t x y
  | COpt x, COpt y => match x, y with Some v, Some w => val_eq t v w | None, None => true | _, _ => false end
  | CVec x, CVec y => vec_eq (val_eq t) x y
  | COptVec x, COptVec y => ovx_eq (val_eq t) (ovec_of x) (ovec_of y)
  | CIdx x i, CIdx y j => ivx_eq (val_eq t) (IVec x i) (IVec y j)
  | COptIdx x, COptIdx y => oix_eq (val_eq t) (oivec_of x) (oivec_of y)
  | _, _ => false
  end.
