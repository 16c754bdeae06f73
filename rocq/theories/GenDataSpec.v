(** * GenDataSpec: what the information about the data types and the values in it must be. *)
From Coq Require Import Strings.String.
From Verif Require Import Base Bytes Values Types Keys Refs.
Local Open Scope N_scope.

(** ** The names of the types *)
Definition bits_text (i : isize) : string := match i with I8 => "8" | I16 => "16" | I32 => "32" | I64 => "64" end.
Definition float_letter (f : fsize) : string := match f with F32 => "f" | F64 => "d" end.
Definition dim_text (d : dim) : string := match d with D2 => "2" | D3 => "3" | D4 => "4" end.
Definition cpp_name (t : dtype) : string :=
  match t with
  | TBool => "bool" | TInt i => "i" ++ bits_text i | TUInt i => "u" ++ bits_text i
  | TFloat F32 => "float" | TFloat F64 => "double"
  | TVec d f => float_letter f ++ "vec" ++ dim_text d
  | TIVec d i => "i" ++ bits_text i ++ "vec" ++ dim_text d | TUVec d i => "u" ++ bits_text i ++ "vec" ++ dim_text d
  | TMat d f => float_letter f ++ "mat" ++ dim_text d | TQuat f => float_letter f ++ "quat"
  | TUuid => "uuid" | TEntityRef => "entity_ref" | THash => "hash" | TPackageRef => "package_ref" | TString => "string"
  end%string.
(** The type of the components, for the types that have components. *)
Definition component_name (t : dtype) : string :=
  match t with
  | TVec _ f | TMat _ f | TQuat f => cpp_name (TFloat f)
  | TIVec _ i => cpp_name (TInt i) | TUVec _ i => cpp_name (TUInt i)
  | _ => cpp_name t
  end.
Definition component_count (t : dtype) : N :=
  match t with TVec d _ | TIVec d _ | TUVec d _ => dimn d | TMat d _ => dimn d * dimn d | TQuat _ => 4 | _ => 1 end.

(** ** The numbers in an object *)
(** How a number is stored: an unsigned integer, an integer in two's complement, or an IEEE 754 number, in [w] bytes, the lowest first. *)
Inductive numeral := NUnsigned (w : N) | NSigned (w : N) | NSingle | NDouble.
Definition nwidth (k : numeral) : N := match k with NUnsigned w | NSigned w => w | NSingle => 4 | NDouble => 8 end.
(** The finite IEEE 754 number with exponent of [eb] bits and mantissa of [mb] bits in the bits of [n], as a multiple of the smallest positive
    number of the format; None: an infinity or no number. *)
Definition ieee (eb mb n : N) : option Z :=
  let e := n / 2 ^ mb mod 2 ^ eb in
  let m := n mod 2 ^ mb in
  if e =? 2 ^ eb - 1 then None
  else let a := Z.of_N (if e =? 0 then m else (2 ^ mb + m) * 2 ^ (e - 1)) in
       Some (if n / 2 ^ (eb + mb) =? 0 then a else (- a)%Z).
(** The value of the byte [i] bytes from the beginning has weight 256 ^ i. *)
Fixpoint weight (b : list byte) : N := match b with [] => 0 | x :: r => b2n x + 256 * weight r end.
Definition number_in (k : numeral) (b : list byte) : option Z :=
  match k with
  | NUnsigned w => Some (Z.of_N (weight b))
  | NSigned w => Some (if weight b <? 2 ^ (8 * w - 1) then Z.of_N (weight b) else (Z.of_N (weight b) - 2 ^ Z.of_N (8 * w))%Z)
  | NSingle => ieee 8 23 (weight b)
  | NDouble => ieee 11 52 (weight b)
  end.
(** The types of numbers, vectors, matrices and quaternions: how their components are stored and how many there are. *)
Definition bytes_of (i : isize) : N := match i with I8 => 1 | I16 => 2 | I32 => 4 | I64 => 8 end.
Definition ieee_of (f : fsize) : numeral := match f with F32 => NSingle | F64 => NDouble end.
Definition numbers (t : dtype) : option (numeral * N) :=
  match t with
  | TInt i => Some (NSigned (bytes_of i), 1) | TUInt i => Some (NUnsigned (bytes_of i), 1) | TFloat f => Some (ieee_of f, 1)
  | TVec d f => Some (ieee_of f, dimn d) | TIVec d i => Some (NSigned (bytes_of i), dimn d) | TUVec d i => Some (NUnsigned (bytes_of i), dimn d)
  | TMat d f => Some (ieee_of f, dimn d * dimn d) | TQuat f => Some (ieee_of f, 4)
  | _ => None
  end.
(** Component [i] of an object. *)
Definition nth_number (k : numeral) (i : N) (v : val) : option Z :=
  match v with VP b => number_in k (take (nwidth k) (drop (i * nwidth k) b)) | _ => None end.

(** ** Order *)
(** The order of byte strings: at the first difference, or the shorter first. *)
Definition bytes_before (a b : list byte) : Prop :=
  (exists p x y r s, a = p ++ x :: r /\ b = p ++ y :: s /\ b2n x < b2n y) \/ (exists y s, b = a ++ y :: s).
(** No value of type [t] that is a number in all components is below [lo]; for types without components, none is. *)
Definition lower (t : dtype) (lo v : val) : Prop :=
  match numbers t with
  | Some (k, n) => forall i x, i < n -> nth_number k i v = Some x -> exists y, nth_number k i lo = Some y /\ (y <= x)%Z
  | None => match lo, v with
            | VB a, VB b => a = true -> b = true
            | VP a, VP b | VS a, VS b => ~ bytes_before b a
            | _, _ => False
            end
  end.
Definition upper (t : dtype) (hi v : val) : Prop :=
  match numbers t with
  | Some (k, n) => forall i x, i < n -> nth_number k i v = Some x -> exists y, nth_number k i hi = Some y /\ (x <= y)%Z
  | None => match hi, v with
            | VB a, VB b => b = true -> a = true
            | VP a, VP b | VS a, VS b => ~ bytes_before a b
            | _, _ => False
            end
  end.
(** All components are the number zero; all bits of an identifier are zero; false; the empty string. *)
Definition is_zero (t : dtype) (v : val) : Prop :=
  match numbers t, v with
  | Some (k, n), VP _ => forall i, i < n -> nth_number k i v = Some 0%Z
  | None, VB b => b = false
  | None, VS s => s = []
  | None, VP b => Forall (eq x00) b
  | _, _ => False
  end.
(** The size of a value of a type that is stored as an image. *)
Definition type_size (t : dtype) : option N :=
  match numbers t, t with
  | Some (k, n), _ => Some (n * nwidth k)
  | None, (TUuid | TEntityRef) => Some 16
  | None, (THash | TPackageRef) => Some 32
  | None, _ => None
  end.
(** The names of the references and their identifiers. *)
Definition ref_name (k : rkind) : string := match k with ERef => "entity_ref" | PRef => "package_ref" end.
Definition id_name (k : rkind) : string := match k with ERef => "uuid" | PRef => "hash" end.
Definition kind_name (k : rkind) (ref : bool) : string := if ref then ref_name k else id_name k.
