(** * HexSpec: what a hex numeral is. Specification. *)
From Verif Require Import Base Bytes Values.
Open Scope N_scope.

(** The digit a lower case hex character stands for: '0'..'9' are codes 48..57, 'a'..'f' 97..102. *)
Definition hex_digit (c : byte) : option N :=
  let n := b2n c in
  if (48 <=? n) && (n <=? 57) then Some (n - 48)
  else if (97 <=? n) && (n <=? 102) then Some (n - 87)
  else None.
(** [hex_numeral s v]: [s] consists of lower case hex digits and, most significant digit first, is the
    number [v]. *)
Inductive hex_numeral : list byte -> N -> Prop :=
| Hex_nil : hex_numeral [] 0
| Hex_snoc s v c d : hex_numeral s v -> hex_digit c = Some d -> hex_numeral (s ++ [c]) (16 * v + d).

(** The number whose digits in base 256 are the bytes, first byte most significant. *)
Fixpoint of_be (l : list byte) : N :=
  match l with [] => 0 | b :: r => b2n b * 256 ^ N.of_nat (length r) + of_be r end.

(** How a value is to be printed. *)
Definition dash : list byte := [x2d].
Definition hex_text (x : scalar) (s : list byte) : Prop :=
  match x with
  | SInt w v => len s = 2 * wbytes w /\ hex_numeral s v
  | SUuid d1 d2 d3 d4 =>
      exists a b c d e, s = a ++ dash ++ b ++ dash ++ c ++ dash ++ d ++ dash ++ e /\
        length a = 8%nat /\ length b = 4%nat /\ length c = 4%nat /\ length d = 4%nat /\ length e = 12%nat /\
        hex_numeral a d1 /\ hex_numeral b d2 /\ hex_numeral c d3 /\ hex_numeral (d ++ e) (of_be d4)
  | SHash h => length s = 64%nat /\ hex_numeral s (of_be h)
  end.
