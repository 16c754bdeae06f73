(** * Types: the 54 data types, the container types and their values. *)
From Verif Require Import Base Bytes Values.
Open Scope N_scope.

(** Bit sizes of integers and floats, vector dimensions
    (CodeGenerator/CodeGeneratorHelpers.py:27-46). *)
Inductive isize := I8 | I16 | I32 | I64.
Inductive fsize := F32 | F64.
Inductive dim := D2 | D3 | D4.

(** All data types: CodeGenerator/CodeGeneratorHelpers.py:27-67 (base types and their variants). *)
Inductive dtype :=
| TBool
| TInt (i : isize)
| TUInt (i : isize)
| TFloat (f : fsize)
| TVec (d : dim) (f : fsize)
| TIVec (d : dim) (i : isize)
| TUVec (d : dim) (i : isize)
| TMat (d : dim) (f : fsize)
| TQuat (f : fsize)
| TUuid | TEntityRef
| THash | TPackageRef
| TString.

Definition iword (i : isize) : wsize := match i with I8 => W8 | I16 => W16 | I32 => W32 | I64 => W64 end.
Definition fword (f : fsize) : wsize := match f with F32 => W32 | F64 => W64 end.
Definition dimn (d : dim) : N := match d with D2 => 2 | D3 => 3 | D4 => 4 end.

(** How an object of a type is stored: data_type_information<T>::value_type and value_count
    (CodeGenerator/Generators/ISD_DataTypes.py:11-26,163-203). A bool and a string have their own
    code paths. *)
Inductive shape := ShBool | ShString | ShPod (k : kind) (count : N).
Definition dshape (t : dtype) : shape :=
  match t with
  | TBool => ShBool
  | TInt i | TUInt i => ShPod (KW (iword i)) 1
  | TFloat f => ShPod (KW (fword f)) 1
  | TVec d f => ShPod (KW (fword f)) (dimn d)
  | TIVec d i | TUVec d i => ShPod (KW (iword i)) (dimn d)
  | TMat d f => ShPod (KW (fword f)) (dimn d * dimn d)
  | TQuat f => ShPod (KW (fword f)) 4
  | TUuid | TEntityRef => ShPod KUuid 1
  | THash | TPackageRef => ShPod KHash 1
  | TString => ShString
  end.

(** ValueType of a single value: ISD/ISD_Types.h:89-144. *)
Definition dimi (d : dim) : N := match d with D2 => 0 | D3 => 1 | D4 => 2 end.
Definition vt_single (t : dtype) : N :=
  match t with
  | TBool => 0x01 | TInt _ => 0x02 | TUInt _ => 0x03 | TFloat _ => 0x04
  | TVec d _ => 0x05 + dimi d
  | TIVec d _ => 0x08 + dimi d
  | TUVec d _ => 0x0b + dimi d
  | TMat d _ => 0x0e + dimi d
  | TQuat _ => 0x11
  | TUuid | TEntityRef => 0x12
  | THash | TPackageRef => 0x13
  | TString => 0xe0
  end.
(** ValueType of an array: ISD/ISD_Types.h:116-144. *)
Definition vt_array (t : dtype) : N :=
  match t with TString => 0xe1 | _ => vt_single t + 0x40 end.
(** ISD/ISD_Types.h:139-140. *)
Definition vt_subsection : N := 0xd0.
Definition vt_array_subsection : N := 0xd1.

(** data_type_index: CodeGenerator/Generators/ISD_DataTypes.py:136-146 with the base type order of
    CodeGenerator/CodeGeneratorHelpers.py:48-67: ((base index + 1) << 4) + variant index + 1. *)
Definition ivar (i : isize) : N := match i with I8 => 1 | I16 => 2 | I32 => 3 | I64 => 4 end.
Definition fvar (f : fsize) : N := match f with F32 => 1 | F64 => 2 end.
Definition base_index (t : dtype) : N :=
  match t with TString => 19 | _ => vt_single t - 1 end.
Definition variant_number (t : dtype) : N :=
  match t with
  | TBool | TUuid | THash | TString => 1
  | TEntityRef | TPackageRef => 2
  | TInt i | TUInt i | TIVec _ i | TUVec _ i => ivar i
  | TFloat f | TVec _ f | TMat _ f | TQuat f => fvar f
  end.
Definition dt_id (t : dtype) : N := N.shiftl (base_index t + 1) 4 + variant_number t.

(** Container types and their ids: ISD/ISD_Types.h:147-155. *)
Inductive ctype := CtNone | CtOpt | CtVec | CtOptVec | CtIdx | CtOptIdx.
Definition ct_id (c : ctype) : N :=
  match c with CtNone => 0 | CtOpt => 1 | CtVec => 0x10 | CtOptVec => 0x11 | CtIdx => 0x20 | CtOptIdx => 0x21 end.

(** Enumerations of the above, for finite sweeps. *)
Definition all_isize := [I8; I16; I32; I64].
Definition all_fsize := [F32; F64].
Definition all_dim := [D2; D3; D4].
Definition all_dtypes : list dtype :=
  [TBool] ++ map TInt all_isize ++ map TUInt all_isize ++ map TFloat all_fsize
  ++ flat_map (fun d => map (TVec d) all_fsize) all_dim
  ++ flat_map (fun d => map (TIVec d) all_isize) all_dim
  ++ flat_map (fun d => map (TUVec d) all_isize) all_dim
  ++ flat_map (fun d => map (TMat d) all_fsize) all_dim
  ++ map TQuat all_fsize ++ [TUuid; TEntityRef; THash; TPackageRef; TString].
Definition all_ctypes := [CtNone; CtOpt; CtVec; CtOptVec; CtIdx; CtOptIdx].

(** ** Values *)

(** An object of a data type: a bool, a string (its bytes), or the memory image of a number, vector,
    matrix, quaternion, uuid, hash or reference. *)
Inductive val := VB (b : bool) | VS (s : list byte) | VP (img : list byte).

(** [v] is an object of type [t] (strings limited by the address space). *)
Definition shape_ok (h : shape) (v : val) : Prop :=
  match h, v with
  | ShBool, VB _ => True
  | ShString, VS s => len s < two64
  | ShPod k n, VP img => len img = n * ksize k
  | _, _ => False
  end.
Definition val_ok (t : dtype) (v : val) : Prop := shape_ok (dshape t) v.

(** A value of a container type: the six forms the entity reader and writer accept. Indices are
    i32 bit patterns. *)
Inductive cval :=
| CV (v : val)
| COpt (o : option val)
| CVec (l : list val)
| COptVec (o : option (list val))
| CIdx (l : list val) (ix : list N)
| COptIdx (o : option (list val * list N)).

Definition cval_ctype (c : cval) : ctype :=
  match c with CV _ => CtNone | COpt _ => CtOpt | CVec _ => CtVec | COptVec _ => CtOptVec
             | CIdx _ _ => CtIdx | COptIdx _ => CtOptIdx end.

Definition ix_ok (ix : list N) : Prop := Forall (fun i => i < 2^32) ix.
(** A vector of objects of type [t]; no vector holds 2^63 or more elements (std::vector::max_size is
    at most the largest ptrdiff_t). *)
Definition vec_ok (t : dtype) (l : list val) : Prop := Forall (val_ok t) l /\ len l < 2^63.
Definition cval_ok (t : dtype) (c : cval) : Prop :=
  match c with
  | CV v => val_ok t v
  | COpt o => match o with Some v => val_ok t v | None => True end
  | CVec l => vec_ok t l
  | COptVec o => match o with Some l => vec_ok t l | None => True end
  | CIdx l ix => vec_ok t l /\ ix_ok ix
  | COptIdx o => match o with Some (l, ix) => vec_ok t l /\ ix_ok ix | None => True end
  end.

(** The objects default construction gives: zero for all data types (the generated entity structs
    and optional set() value-initialise), empty strings and vectors. *)
Definition val_default (h : shape) : val :=
  match h with ShBool => VB false | ShString => VS [] | ShPod k n => VP (rep x00 (n * ksize k)) end.
Definition cval_default (t : dtype) (c : ctype) : cval :=
  match c with
  | CtNone => CV (val_default (dshape t)) | CtOpt => COpt None | CtVec => CVec []
  | CtOptVec => COptVec None | CtIdx => CIdx [] [] | CtOptIdx => COptIdx None
  end.
