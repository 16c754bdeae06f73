(** * Bytes: integers as byte strings, byte order. Model only; facts are in BytesFacts.v. *)
From Verif Require Import Base.
Open Scope N_scope.

(** Memory image of an unsigned integer of [n] bytes on the (little endian, x86-64) target.
    Not a function of the code base: it is the object representation seen through a byte pointer. *)
Fixpoint le (n : nat) (v : N) : list byte :=
  match n with
  | O => []
  | S n' => n2b v :: le n' (v / 256)
  end.

(** Value of such a memory image. *)
Fixpoint of_le (l : list byte) : N :=
  match l with
  | [] => 0
  | b :: l' => b2n b + 256 * of_le l'
  end.

(** ISD/ISD_Types.h:168  bigendian_from_value<u16>. *)
Definition be16 (v : N) : list byte :=
  [ n2b (N.land (N.shiftr v 8) 255); n2b (N.land v 255) ].
(** ISD/ISD_Types.h:169  bigendian_from_value<u32>. *)
Definition be32 (v : N) : list byte :=
  be16 (N.land (N.shiftr v 16) 65535) ++ be16 (N.land v 65535).
(** ISD/ISD_Types.h:170  bigendian_from_value<u64>. *)
Definition be64 (v : N) : list byte :=
  be32 (N.land (N.shiftr v 32) 4294967295) ++ be32 (N.land v 4294967295).

(** ISD/ISD_Types.h:162  value_from_bigendian<u16> (reads src[0], src[1]; a source that is too
    short is read as zero here, callers always pass full arrays). *)
Definition from_be16 (l : list byte) : N :=
  N.lor (N.shiftl (b2n (nth 0 l x00)) 8) (b2n (nth 1 l x00)).
(** ISD/ISD_Types.h:163  value_from_bigendian<u32>. *)
Definition from_be32 (l : list byte) : N :=
  N.lor (N.shiftl (from_be16 l) 16) (from_be16 (skipn 2 l)).
(** ISD/ISD_Types.h:164  value_from_bigendian<u64>. *)
Definition from_be64 (l : list byte) : N :=
  N.lor (N.shiftl (from_be32 l) 32) (from_be32 (skipn 4 l)).

(** Replace element [i] of a list (array store); out of range leaves the list unchanged. *)
Fixpoint set_nth {A} (i : nat) (a : A) (l : list A) : list A :=
  match l with
  | [] => []
  | x :: l' => match i with O => a :: l' | S i' => x :: set_nth i' a l' end
  end.

(** ISD/ISD_Types.h:186-191  swap_bytes on elements [i] and [j] of one buffer. *)
Definition swap_bytes (i j : nat) (l : list byte) : list byte :=
  let tmp := nth i l x00 in
  let l1 := set_nth i (nth j l x00) l in
  set_nth j tmp l1.

(** ISD/ISD_Types.h:194-197  swap_byte_order<u16>. *)
Definition swap16 (w : list byte) : list byte := swap_bytes 0 1 w.
(** ISD/ISD_Types.h:198-202  swap_byte_order<u32>. *)
Definition swap32 (w : list byte) : list byte := swap_bytes 1 2 (swap_bytes 0 3 w).
(** ISD/ISD_Types.h:203-209  swap_byte_order<u64>. *)
Definition swap64 (w : list byte) : list byte :=
  swap_bytes 3 4 (swap_bytes 2 5 (swap_bytes 1 6 (swap_bytes 0 7 w))).

(** The word sizes [ReadValues]/[WriteValues] are instantiated with.
    ISD/ISD_MemoryReadStream.h:175-190, ISD/ISD_MemoryWriteStream.h:225-240. *)
Inductive wsize := W8 | W16 | W32 | W64.

(** sizeof the word type. *)
Definition wbytes (w : wsize) : N :=
  match w with W8 => 1 | W16 => 2 | W32 => 4 | W64 => 8 end.

(** Dispatch to the swap_byte_order<T> instance; u8 streams never swap
    (ISD/ISD_MemoryReadStream.h:119-122, ISD/ISD_MemoryWriteStream.h:176-179). *)
Definition swap_word (w : wsize) (l : list byte) : list byte :=
  match w with W8 => l | W16 => swap16 l | W32 => swap32 l | W64 => swap64 l end.

(** ISD/ISD_Types.h:211-238  swap_byte_order<T>(dest,count): swaps [count] consecutive words in a
    buffer; bytes behind them are untouched. *)
Fixpoint swap_words (w : wsize) (count : nat) (l : list byte) : list byte :=
  match count with
  | O => l
  | S c => swap_word w (take (wbytes w) l) ++ swap_words w c (drop (wbytes w) l)
  end.

(** The 16-byte memory image of a uuid is Data1 (u32, LE), Data2 (u16, LE), Data3 (u16, LE),
    Data4 (8 bytes); this is the conversion to the 16 bytes stored in a stream.
    ISD/ISD_MemoryWriteStream.h:249-256. *)
Definition uuid_to_wire (img : list byte) : list byte :=
  be32 (of_le (take 4 img)) ++
  be16 (of_le (take 2 (drop 4 img))) ++
  be16 (of_le (take 2 (drop 6 img))) ++
  take 8 (drop 8 img).

(** ISD/ISD_MemoryReadStream.h:205-208: the memory image built from the 16 stored bytes. *)
Definition uuid_from_wire (raw : list byte) : list byte :=
  le 4 (from_be32 raw) ++ le 2 (from_be16 (drop 4 raw)) ++ le 2 (from_be16 (drop 6 raw))
  ++ take 8 (drop 8 raw).
