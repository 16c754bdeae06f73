(** * Packet: PacketSerializer. Model only; facts are in PacketFacts.v. *)
From Verif Require Import Base Bytes Values Streams Loader.
Open Scope N_scope.

(** "ISD" (ISD/ISD_PacketSerializer.cpp:25,60). *)
Definition isd_magic : list byte := [x49; x53; x44].

(** this_system_is_big_endian on the x64 target. (ISD/ISD_PacketSerializer.cpp:10-14) *)
Definition this_system_is_big_endian : bool := false.

(** memcmp(a, b, n) == 0 for arrays of the same length. (ISD/ISD_PacketSerializer.cpp:60) *)
Fixpoint same_bytes (a b : list byte) : bool :=
  match a, b with
  | [], [] => true
  | x :: a', y :: b' => (b2n x =? b2n y) && same_bytes a' b'
  | _, _ => false
  end.

(** PacketSerializer::FromMemoryStream. [junk] is the indeterminate content of header.Magic before the
    first Read (three bytes; _padding is never looked at and gets zeros here). The first component is
    the returned Packet pointer, which is null on every path: None. (ISD/ISD_PacketSerializer.cpp:44-84) *)
Definition from_memory_stream (junk : list byte) (s : rstream) : res (option unit * status * rstream) :=
  do r <- rs_read (KW W8) 3 junk s;
  let '(_, magic, s1) := r in
  do r <- rs_u8 s1;
  let '(_, s2) := r in
  do r <- rs_u8 s2;
  let '(flags, s3) := r in
  do r <- rs_read (KW W8) 3 (rep x00 3) s3;
  let '(_, _, s4) := r in
  if negb (same_bytes magic isd_magic) then Done (None, EInvalid, s4) else
  let file_big := negb (N.land flags 1 =? 0) in
  let s5 := if Bool.eqb file_big this_system_is_big_endian then s4 else rs_setflip true s4 in
  do r <- rs_u64 s5;
  let '(data_size, s6) := r in
  if rs_size s6 <? add64 (rs_pos s6) data_size then Done (None, EInvalid, s6) else
  do r <- rs_read1 KUuid s6;
  let '(_, s7) := r in
  do r <- rs_read1 KUuid s7;
  let '(_, s8) := r in
  Done (None, SOk, s8).

(** PacketSerializer::ToMemoryStream: does nothing. (ISD/ISD_PacketSerializer.cpp:86-89) *)
Definition to_memory_stream (w : wstream) : res (status * wstream) := Done (SOk, w).
