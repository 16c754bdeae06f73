(** * C26: hex strings. *)
From Coq Require Import Strings.String.
From Verif Require Import Base Bytes Values Hex HexSpec HexFacts.
Open Scope N_scope.

(** C26: every value prints, without touching memory outside the value, as fixed width lower case hex
    digits, most significant first; a uuid in groups of 8-4-4-4-12. *)
Theorem C26_hex_text : forall x, scalar_ok x -> exists s, hex_of x = Done s /\ hex_text x s.
Proof. exact hex_text_ok. Qed.
Print Assumptions C26_hex_text.

(** C26: different values of a type have different strings. *)
Theorem C26_hex_injective : forall x y s, scalar_ok x -> scalar_ok y -> scalar_kind x = scalar_kind y ->
  hex_of x = Done s -> hex_of y = Done s -> x = y.
Proof. exact hex_inj. Qed.
Print Assumptions C26_hex_injective.

(** C26: and the string determines the value by itself: no other value has a string of that form. *)
Theorem C26_text_determines : forall x y s, scalar_ok x -> scalar_ok y -> scalar_kind x = scalar_kind y ->
  hex_text x s -> hex_text y s -> x = y.
Proof. exact text_inj. Qed.
Print Assumptions C26_text_determines.

(** The values of the unit tests (Tests/TypeTests.cpp:96-128). *)
Definition text (s : String.string) : list byte := String.list_byte_of_string s.
Example hex_uuid_test :
  hex_of (SUuid 305419896 41378 45490 [xc1; xc2; xc3; xc4; xc5; xc6; xc7; xc8])
  = Done (text "12345678-a1a2-b1b2-c1c2-c3c4c5c6c7c8"%string).
Proof. vm_compute. reflexivity. Qed.
Example hex_u64_test : hex_of (SInt W64 3819670515434554629) = Done (text "35023218a7828505"%string).
Proof. vm_compute. reflexivity. Qed.
Example hex_u32_test : hex_of (SInt W32 35170178) = Done (text "0218a782"%string) /\ scalar_ok (SInt W32 35170178).
Proof. split; vm_compute; reflexivity. Qed.
