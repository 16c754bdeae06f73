(** * PacketSpec: what a packet header is, independently of the code that reads it. *)
From Verif Require Import Base Bytes Values Streams.
Open Scope N_scope.

(** The sixteen bytes of a packet header: magic, version, flags, padding, data size
    (ISD/ISD_PacketSerializer.cpp:23-31). *)
Record header := Header { h_magic : byte * byte * byte; h_version : byte; h_flags : byte;
  h_padding : byte * byte * byte; h_size : list byte }.
Definition header_ok (h : header) : Prop := length (h_size h) = 8%nat.
Definition header_bytes (h : header) : list byte :=
  let '(a, b, c) := h_magic h in let '(d, e, f) := h_padding h in
  [a; b; c; h_version h; h_flags h; d; e; f] ++ h_size h.
(** 'I' 'S' 'D'. *)
Definition magic_right (h : header) : Prop := h_magic h = (x49, x53, x44).
(** The lowest bit of the flags says big endian. *)
Definition big_endian (h : header) : bool := N.odd (b2n (h_flags h)).
(** A number stored most significant byte first / least significant byte first. *)
Definition number (big : bool) (l : list byte) : N := if big then of_le (rev l) else of_le l.
