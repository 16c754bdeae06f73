(** * TestStream: the test of the two memory streams. Model of Tests/ReadWriteTests.cpp. *)
From Verif Require Import Base Bytes Values Streams Keys ValueEq.
Open Scope N_scope.

(** The random values of one pass, lines 35-42; numbers and floats by their bits, the uuid by its fields. *)
Record svalues := SValues {
  v_u8 : N; v_u16 : N; v_u32 : N; v_u64 : N; v_f32 : N; v_f64 : N;
  v_uuid : N * N * N * list byte; v_hash : list byte }.
(** The value of an item type 0-7, and what the switch of lines 70-96 adds to expected_size. *)
Definition item_value (x : svalues) (i : N) : scalar :=
  match i with
  | 0 => SInt W8 (v_u8 x)
  | 1 => SInt W16 (v_u16 x)
  | 2 => SInt W32 (v_u32 x)
  | 3 => SInt W64 (v_u64 x)
  | 4 => SInt W32 (v_f32 x)
  | 5 => SInt W64 (v_f64 x)
  | 6 => let '(d1, d2, d3, d4) := v_uuid x in SUuid d1 d2 d3 d4
  | _ => SHash (v_hash x)
  end.
Definition item_size (i : N) : N := match i with 0 => 1 | 1 => 2 | 2 => 4 | 3 => 8 | 4 => 4 | 5 => 8 | 6 => 16 | _ => 32 end.
(** val == ref_value, line 26: IEEE equality for the floats; the uuid and the hash by words, as in
    Keys.v. *)
Definition same_item (i : N) (a b : scalar) : bool :=
  match a, b with
  | SInt _ x, SInt _ y => match i with 4 => float_eq 4 x y | 5 => float_eq 8 x y | _ => x =? y end
  | SUuid _ _ _ _, SUuid _ _ _ _ => words_eq 4 4 (image a) (image b)
  | SHash x, SHash y => words_eq 8 4 x y
  | _, _ => false
  end.

(** The loop of lines 64-97; [order] are the item types drawn. *)
Fixpoint write_items (x : svalues) (order : list N) (expected : N) (s : wstream) : res (N * wstream) :=
  match order with
  | [] => Done (expected, s)
  | i :: l =>
    do s' <- ws_call (OWrite (scalar_kind (item_value x i)) [item_value x i]) s;
    write_items x l (expected + item_size i) s'
  end.
(** The loop of lines 112-143; the u8 is also peeked at. *)
Fixpoint read_items (x : svalues) (order : list N) (s : rstream) : res (bool * rstream) :=
  match order with
  | [] => Done (true, s)
  | i :: l =>
    if (i =? 0) && negb (b2n (rs_peek s) =? v_u8 x) then Done (false, s) else
    do r <- rs_scalar (scalar_kind (item_value x i)) s; let '(v, s') := r in
    if same_item i v (item_value x i) then read_items x l s' else Done (false, s')
  end.
(** One pass of MemoryWriteReadStream, lines 32-149: [init] is the initial allocation, [lim] what the allocator gives. *)
Definition stream_pass (init lim : N) (flip : bool) (x : svalues) (order : list N) : res bool :=
  do s0 <- thrown (ws_new init lim);
  do r <- write_items x order 0 (ws_setflip flip s0); let '(expected, s) := r in
  if negb (expected =? ws_size s) then Done false else
  do r2 <- read_items x order (rs_setflip flip (RS (take expected (ws_data s)) 0 false)); let '(ok, rs) := r2 in
  Done (ok && (rs_pos rs =? expected)).
(** The passes, lines 31-150: the odd ones flipped. *)
Fixpoint stream_test (init lim : N) (i : nat) (passes : list (svalues * list N)) : res bool :=
  match passes with
  | [] => Done true
  | (x, order) :: l =>
    do ok <- stream_pass init lim (Nat.odd i) x order;
    if (ok : bool) then stream_test init lim (S i) l else Done false
  end.
