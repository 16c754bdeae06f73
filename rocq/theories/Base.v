(** * Base: outcomes, 64-bit arithmetic, byte helpers.

    Model conventions used in every file:
    - [N] numbers stand for C++ unsigned integers; wherever the code computes in [u64]/[size_t]
      and the result may leave the range, the model wraps explicitly with [w64].
    - an outcome is [Done x] (the call returned), [Throw] (a C++ exception left the call) or
      [Undef] (undefined behaviour: out-of-bounds access, null or dangling pointer). *)

From Coq Require Export List NArith ZArith Lia Bool Arith.
From Coq Require Export Strings.Byte.
From Coq Require Export ZifyBool ZifyNat ZifyN.
Export ListNotations.

Arguments N.add : simpl never.
Arguments N.mul : simpl never.
Arguments N.sub : simpl never.
Arguments N.modulo : simpl never.
Arguments N.div : simpl never.
Arguments N.pow : simpl never.
Arguments N.of_nat : simpl never.
Arguments N.to_nat : simpl never.
Arguments Z.of_nat : simpl never.

(** Outcome of a modelled C++ call. (No source counterpart; see header.) *)
Inductive res (A : Type) : Type :=
| Done (a : A)
| Throw
| Undef.
Arguments Done {A} a.
Arguments Throw {A}.
Arguments Undef {A}.

(** Sequencing of calls: an exception or undefined behaviour ends the computation. *)
Definition bind {A B} (m : res A) (f : A -> res B) : res B :=
  match m with Done a => f a | Throw => Throw | Undef => Undef end.

Declare Scope isd_scope.
Delimit Scope isd_scope with isd.
Notation "'do' x <- m ; f" := (bind m (fun x => f))
  (at level 200, x pattern, m at level 100, f at level 200, right associativity) : isd_scope.
Notation "'when' c 'otherwise' e ; f" := (if c then f else e)
  (at level 200, c at level 100, e at level 100, f at level 200, right associativity) : isd_scope.
Open Scope isd_scope.

(** 2^64, the modulus of [u64] and (on the x64 target) [size_t].
    ISD/ISD_Types.h:42ff and CodeGenerator/Generators/ISD_DataTypes.py:48-51 (std::uint64_t). *)
Definition two64 : N := 18446744073709551616%N.

(** u64 arithmetic (C++ unsigned arithmetic wraps modulo 2^64). *)
Definition w64 (n : N) : N := (n mod two64)%N.
Definition add64 (a b : N) : N := w64 (a + b).
Definition sub64 (a b : N) : N := w64 (a + two64 - b).
Definition mul64 (a b : N) : N := w64 (a * b).

(** Numeric value of a byte and the byte of a number (reduced modulo 256, as a cast to u8 does). *)
Definition b2n (b : byte) : N := Byte.to_N b.
Definition n2b (n : N) : byte :=
  match Byte.of_N (n mod 256) with Some b => b | None => x00 end.

(** Length of a list as an [N]. *)
Definition len {A} (l : list A) : N := N.of_nat (length l).
(** First [n] / all but the first [n] elements, with an [N] count. *)
Definition take {A} (n : N) (l : list A) : list A := firstn (N.to_nat n) l.
Definition drop {A} (n : N) (l : list A) : list A := skipn (N.to_nat n) l.
(** [n] copies of [a]. *)
Definition rep {A} (a : A) (n : N) : list A := repeat a (N.to_nat n).
