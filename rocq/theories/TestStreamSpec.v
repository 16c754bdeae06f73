(** * TestStreamSpec: what the test of the memory streams needs. Specification. *)
From Verif Require Import Base Bytes Values FileSpec ValueEqSpec TestStream.
Open Scope N_scope.

(** The values are in the range of their C++ types; the item types are rand() % 8. *)
Definition svalues_ok (x : svalues) : Prop :=
  v_u8 x < 2^8 /\ v_u16 x < 2^16 /\ v_u32 x < 2^32 /\ v_u64 x < 2^64 /\ v_f32 x < 2^32 /\ v_f64 x < 2^64 /\
  (let '(d1, d2, d3, d4) := v_uuid x in d1 < 2^32 /\ d2 < 2^16 /\ d3 < 2^16 /\ len d4 = 8) /\ len (v_hash x) = 32.
Definition order_ok (order : list N) : Prop := Forall (fun i => i < 8) order.
(** float(u64) is never a NaN. *)
Definition floats_ok (x : svalues) (order : list N) : Prop :=
  (In 4 order -> ~ nan 4 (v_f32 x)) /\ (In 5 order -> ~ nan 8 (v_f64 x)).
(** The sum of the sizes. *)
Definition order_size (order : list N) : N := fold_right N.add 0 (map item_size order).
