(** * Values: the scalar values handled by the streams, and the calls of the stream interface. *)
From Verif Require Import Base Bytes.
Open Scope N_scope.

(** The item kinds of the Write/Read overloads: words, uuids, hashes.
    ISD/ISD_MemoryWriteStream.h:211-272, ISD/ISD_MemoryReadStream.h:161-224. *)
Inductive kind := KW (w : wsize) | KUuid | KHash.

(** sizeof of an item of the kind (static_asserts at ISD/ISD_MemoryReadStream.h:195,217). *)
Definition ksize (k : kind) : N :=
  match k with KW w => wbytes w | KUuid => 16 | KHash => 32 end.

(** A scalar as the user sees it: unsigned numbers (signed integers and floats stand for their bit
    pattern), a uuid by its four fields (Windows UUID struct), a hash by its 32 bytes
    (CodeGenerator/InlinedCode/uuid_hash_header.inl). *)
Inductive scalar :=
| SInt (w : wsize) (v : N)
| SUuid (d1 d2 d3 : N) (d4 : list byte)
| SHash (h : list byte).

(** Value ranges of the C++ types. *)
Definition scalar_ok (x : scalar) : Prop :=
  match x with
  | SInt w v => v < 256 ^ wbytes w
  | SUuid d1 d2 d3 d4 => d1 < 2^32 /\ d2 < 2^16 /\ d3 < 2^16 /\ len d4 = 8
  | SHash h => len h = 32
  end.

Definition scalar_kind (x : scalar) : kind :=
  match x with SInt w _ => KW w | SUuid _ _ _ _ => KUuid | SHash _ => KHash end.

(** Memory image of a scalar on the target. *)
Definition image (x : scalar) : list byte :=
  match x with
  | SInt w v => le (N.to_nat (wbytes w)) v
  | SUuid d1 d2 d3 d4 => le 4 d1 ++ le 2 d2 ++ le 2 d3 ++ d4
  | SHash h => h
  end.

(** The scalar a memory image denotes. *)
Definition scalar_of (k : kind) (d : list byte) : scalar :=
  match k with
  | KW w => SInt w (of_le d)
  | KUuid => SUuid (of_le (take 4 d)) (of_le (take 2 (drop 4 d))) (of_le (take 2 (drop 6 d))) (drop 8 d)
  | KHash => SHash d
  end.

(** One public call on a MemoryWriteStream: an array Write of items of one kind, SetPosition,
    SetFlipByteOrder. *)
Inductive wop :=
| OWrite (k : kind) (xs : list scalar)
| OSeek (p : N)
| OFlip (b : bool).

(** The call is well typed: all items are values of the item type. *)
Definition wop_ok (o : wop) : Prop :=
  match o with
  | OWrite k xs => Forall (fun x => scalar_kind x = k /\ scalar_ok x) xs
  | _ => True
  end.
