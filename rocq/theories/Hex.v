(** * Hex: hex strings of values. Model of ISD/ISD_Types.cpp:34-96. *)
From Verif Require Import Base Bytes Values.
Open Scope N_scope.

(** The table of characters '0'..'9', 'a'..'f' (as byte codes). (ISD_Types.cpp:39) *)
Definition hexchars : list byte :=
  [x30; x31; x32; x33; x34; x35; x36; x37; x38; x39; x61; x62; x63; x64; x65; x66].
(** hexchars[ i ]: out of the table is undefined. (ISD_Types.cpp:39) *)
Definition hexchar (i : N) : res byte :=
  match nth_error hexchars (N.to_nat i) with Some c => Done c | None => Undef end.

(** bytes_to_hex_string: [mem] is what is at and behind the pointer; reading past it is undefined.
    (ISD_Types.cpp:37-50; the loop carries [ret], [p] and the remaining count.) *)
Fixpoint hex_loop (count : nat) (ret mem : list byte) : res (list byte) :=
  match count with
  | O => Done ret
  | S c =>
    match mem with
    | [] => Undef
    | p :: mem' =>
      do hi <- hexchar (N.land (N.shiftr (b2n p) 4) 15);
      do lo <- hexchar (N.land (b2n p) 15);
      hex_loop c ((ret ++ [hi]) ++ [lo]) mem'
    end
  end.
Definition bytes_to_hex_string (mem : list byte) (count : nat) : res (list byte) := hex_loop count [] mem.

(** Bytes stored through a pointer over the start of an object. (Helper.) *)
Definition stored_over (new old : list byte) : list byte := new ++ skipn (length new) old.

(** value_to_hex_string<u8>. (ISD_Types.cpp:52-55) *)
Definition hex_u8 (v : N) : res (list byte) := bytes_to_hex_string (le 1 v) 1.
(** value_to_hex_string<u16>: the local copy of the value is overwritten by its big endian form.
    (ISD_Types.cpp:57-61) *)
Definition hex_u16 (v : N) : res (list byte) := bytes_to_hex_string (stored_over (be16 v) (le 2 v)) 2.
(** value_to_hex_string<u32>. (ISD_Types.cpp:63-67) *)
Definition hex_u32 (v : N) : res (list byte) := bytes_to_hex_string (stored_over (be32 v) (le 4 v)) 4.
(** value_to_hex_string<u64>. (ISD_Types.cpp:69-73) *)
Definition hex_u64 (v : N) : res (list byte) := bytes_to_hex_string (stored_over (be64 v) (le 8 v)) 8.

(** value_to_hex_string<uuid>. (ISD_Types.cpp:75-90; x2d is '-') *)
Definition hex_uuid (d1 d2 d3 : N) (d4 : list byte) : res (list byte) :=
  do a <- hex_u32 d1;
  let ret := a ++ [x2d] in
  do b <- hex_u16 d2;
  let ret := (ret ++ b) ++ [x2d] in
  do c <- hex_u16 d3;
  let ret := (ret ++ c) ++ [x2d] in
  do d <- bytes_to_hex_string d4 2;
  let ret := (ret ++ d) ++ [x2d] in
  do e <- bytes_to_hex_string (skipn 2 d4) 6;
  Done (ret ++ e).
(** value_to_hex_string<hash>. (ISD_Types.cpp:92-96) *)
Definition hex_hash (h : list byte) : res (list byte) := bytes_to_hex_string h 32.

(** value_to_hex_string of every type it is implemented for. (ISD_Types.h:175-180) *)
Definition hex_of (x : scalar) : res (list byte) :=
  match x with
  | SInt W8 v => hex_u8 v
  | SInt W16 v => hex_u16 v
  | SInt W32 v => hex_u32 v
  | SInt W64 v => hex_u64 v
  | SUuid d1 d2 d3 d4 => hex_uuid d1 d2 d3 d4
  | SHash h => hex_hash h
  end.
