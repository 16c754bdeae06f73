(** * Keys: the key types of sets, tables and graphs: order, equality, hash, limits. Model. *)
From Verif Require Import Base Bytes Values Types.
Open Scope N_scope.

(** memcmp of two memory images (first differing byte, compared as unsigned char); with the lengths
    compared last it is also std::string::compare. *)
Fixpoint lex (a b : list byte) : comparison :=
  match a, b with
  | [], [] => Eq
  | [], _ :: _ => Lt
  | _ :: _, [] => Gt
  | x :: a', y :: b' => match b2n x ?= b2n y with Eq => lex a' b' | c => c end
  end.
Definition lex_lt (a b : list byte) : bool := match lex a b with Lt => true | _ => false end.

(** Signed value of a memory image of [n] bits (two's complement). *)
Definition signed (img : list byte) : Z :=
  let v := of_le img in
  if v <? 256 ^ len img / 2 then Z.of_N v else (Z.of_N v - Z.of_N (256 ^ len img))%Z.

(** Equality of objects as a comparison of [n] words of [w] bytes each: IsEqualGUID (guiddef.h, four
    32 bit words; selected by __INLINE_ISEQUAL_GUID, CodeGenerator/InlinedCode/uuid_hash_header.inl:3)
    and operator==( HASH, HASH ) (lines 56-62: four 64 bit words). *)
Fixpoint words_eq (w : N) (n : nat) (a b : list byte) : bool :=
  match n with
  | O => true
  | S n' => (of_le (take w a) =? of_le (take w b)) && words_eq w n' (drop w a) (drop w b)
  end.
(** operator!=( HASH, HASH ), lines 64-70. *)
Fixpoint words_ne (w : N) (n : nat) (a b : list byte) : bool :=
  match n with
  | O => false
  | S n' => negb (of_le (take w a) =? of_le (take w b)) || words_ne w n' (drop w a) (drop w b)
  end.
(** std::hash<UUID> (lines 25-34) and std::hash<HASH> (lines 75-86): exclusive or of the 64 bit words.
    std::hash of entity_ref and package_ref are those of their ids
    (CodeGenerator/Generators/ISD_DataTypes.py:210-228). *)
Fixpoint words_xor (n : nat) (a : list byte) : N :=
  match n with O => 0 | S n' => N.lxor (of_le (take 8 a)) (words_xor n' (drop 8 a)) end.

(** The bytes of a value that is stored as an image. *)
Definition img (v : val) : list byte := match v with VP i => i | VS s => s | VB true => [x01] | VB false => [x00] end.

(** The types used as keys. Graph nodes need inf and sup; strings have no sup
    (CodeGenerator/Generators/ISD_DataTypes.py:22-23). *)
Definition is_key (t : dtype) : bool :=
  match t with TInt _ | TUInt _ | TUuid | TEntityRef | THash | TPackageRef | TString => true | _ => false end.
Definition is_node (t : dtype) : bool :=
  match t with TString => false | _ => is_key t end.

(** operator< : integers by value; UUID and HASH by memcmp
    (CodeGenerator/InlinedCode/uuid_hash_header.inl:17-20,51-54), references by their id
    (InlinedCode/ISD_entity_ref.inl:27, ISD_package_ref.inl:20), strings by std::string. *)
Definition key_lt (t : dtype) (a b : val) : bool :=
  match t with
  | TInt _ => (signed (img a) <? signed (img b))%Z
  | TUInt _ => of_le (img a) <? of_le (img b)
  | _ => lex_lt (img a) (img b)
  end.
(** operator==. *)
Definition key_eq (t : dtype) (a b : val) : bool :=
  match t with
  | TInt _ => (signed (img a) =? signed (img b))%Z
  | TUInt _ => of_le (img a) =? of_le (img b)
  | TUuid | TEntityRef => words_eq 4 4 (img a) (img b)
  | THash | TPackageRef => words_eq 8 4 (img a) (img b)
  | _ => match lex (img a) (img b) with Eq => true | _ => false end
  end.
(** std::hash of the reference types. *)
Definition key_hash (t : dtype) (a : val) : N :=
  match t with
  | TUuid | TEntityRef => words_xor 2 (img a)
  | THash | TPackageRef => words_xor 4 (img a)
  | _ => 0
  end.
(** data_type_information<T>::inf and sup (CodeGenerator/Generators/ISD_DataTypes.py:62-89). *)
Definition key_inf (t : dtype) : val :=
  match t with
  | TInt i => VP (le (N.to_nat (wbytes (iword i))) (256 ^ wbytes (iword i) / 2))
  | TUInt i => VP (rep x00 (wbytes (iword i)))
  | TUuid | TEntityRef => VP (rep x00 16)
  | THash | TPackageRef => VP (rep x00 32)
  | _ => VS []
  end.
Definition key_sup (t : dtype) : val :=
  match t with
  | TInt i => VP (le (N.to_nat (wbytes (iword i))) (256 ^ wbytes (iword i) / 2 - 1))
  | TUInt i => VP (rep xff (wbytes (iword i)))
  | TUuid | TEntityRef => VP (rep xff 16)
  | THash | TPackageRef => VP (rep xff 32)
  | _ => VS []
  end.

(** A key type as the class templates see it: <, ==, inf, sup, and the data type used by the entity
    writer and reader for keys (with the conversion between keys and written values). *)
Record keyops (K : Type) := KeyOps {
  k_lt : K -> K -> bool;
  k_eq : K -> K -> bool;
  k_inf : K;
  k_sup : K;
  k_type : dtype;
  k_val : K -> val;
  k_of : val -> K
}.
Arguments k_lt {K}. Arguments k_eq {K}. Arguments k_inf {K}. Arguments k_sup {K}.
Arguments k_type {K}. Arguments k_val {K}. Arguments k_of {K}.

(** The objects of key type [t]. *)
Definition key_okb (t : dtype) (v : val) : bool :=
  match dshape t, v with
  | ShString, VS s => len s <? two64
  | ShPod k n, VP i => len i =? n * ksize k
  | _, _ => false
  end.
Definition key (t : dtype) : Type := { v : val | key_okb t v = true }.
(** A key of a value, [d] if the value is not of the type. *)
Definition to_key (t : dtype) (d : key t) (v : val) : key t :=
  match Bool.bool_dec (key_okb t v) true with left H => exist _ v H | right _ => d end.
