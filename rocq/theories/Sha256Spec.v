(** * Sha256Spec: SHA-256 as defined in FIPS 180-4. Specification (no source counterpart: the
    implementation, Dependencies/librock_sha256, is a submodule that is not in the repository). *)
From Verif Require Import Base.
Open Scope N_scope.

(** 32 bit words. *)
Definition w32 (n : N) : N := n mod 4294967296.
Definition add32 (a b : N) : N := w32 (a + b).
Definition not32 (a : N) : N := N.lxor a 4294967295.
(** ROTR^n and SHR^n. (FIPS 180-4, 3.2) *)
Definition rotr (n a : N) : N := N.lor (N.shiftr a n) (w32 (N.shiftl a (32 - n))).
Definition shr (n a : N) : N := N.shiftr a n.
(** The functions of 4.1.2. *)
Definition ch x y z := N.lxor (N.land x y) (N.land (not32 x) z).
Definition maj x y z := N.lxor (N.lxor (N.land x y) (N.land x z)) (N.land y z).
Definition Sigma0 x := N.lxor (N.lxor (rotr 2 x) (rotr 13 x)) (rotr 22 x).
Definition Sigma1 x := N.lxor (N.lxor (rotr 6 x) (rotr 11 x)) (rotr 25 x).
Definition sigma0 x := N.lxor (N.lxor (rotr 7 x) (rotr 18 x)) (shr 3 x).
Definition sigma1 x := N.lxor (N.lxor (rotr 17 x) (rotr 19 x)) (shr 10 x).
(** The constants of 4.2.2. *)
Definition Kt : list N :=
  [1116352408; 1899447441; 3049323471; 3921009573; 961987163; 1508970993;
   2453635748; 2870763221; 3624381080; 310598401; 607225278; 1426881987;
   1925078388; 2162078206; 2614888103; 3248222580; 3835390401; 4022224774;
   264347078; 604807628; 770255983; 1249150122; 1555081692; 1996064986;
   2554220882; 2821834349; 2952996808; 3210313671; 3336571891; 3584528711;
   113926993; 338241895; 666307205; 773529912; 1294757372; 1396182291;
   1695183700; 1986661051; 2177026350; 2456956037; 2730485921; 2820302411;
   3259730800; 3345764771; 3516065817; 3600352804; 4094571909; 275423344;
   430227734; 506948616; 659060556; 883997877; 958139571; 1322822218;
   1537002063; 1747873779; 1955562222; 2024104815; 2227730452; 2361852424;
   2428436474; 2756734187; 3204031479; 3329325298].
(** The initial hash value of 5.3.3. *)
Definition H0 : list N :=
  [1779033703; 3144134277; 1013904242; 2773480762; 1359893119; 2600822924;
   528734635; 1541459225].

(** The number of the bytes of a big endian word. *)
Definition be_word (l : list byte) : N := fold_left (fun a b => 256 * a + b2n b) l 0.
(** Words of a block. *)
Fixpoint words_of (n : nat) (l : list byte) : list N :=
  match n with O => [] | S n' => be_word (firstn 4 l) :: words_of n' (skipn 4 l) end.
(** The message schedule of 6.2.2, step 1 (latest word first; [n] words more). *)
Fixpoint schedule (n : nat) (rw : list N) : list N :=
  match n with
  | O => rev rw
  | S n' => schedule n' (add32 (add32 (sigma1 (nth 1 rw 0)) (nth 6 rw 0)) (add32 (sigma0 (nth 14 rw 0)) (nth 15 rw 0)) :: rw)
  end.
(** One round of 6.2.2, step 3. *)
Definition round (s : list N) (kw : N * N) : list N :=
  match s with
  | [a; b; c; d; e; f; g; h] =>
    let t1 := add32 (add32 (add32 h (Sigma1 e)) (add32 (ch e f g) (fst kw))) (snd kw) in
    let t2 := add32 (Sigma0 a) (maj a b c) in
    [add32 t1 t2; a; b; c; add32 d t1; e; f; g]
  | _ => s
  end.
(** The hash value after one more block. (6.2.2) *)
Definition compress (h : list N) (block : list byte) : list N :=
  let w := schedule 48 (rev (words_of 16 block)) in
  map (fun p => add32 (fst p) (snd p)) (combine h (fold_left round (combine Kt w) h)).

(** Big endian bytes of a number. *)
Fixpoint be_bytes (n : nat) (v : N) : list byte :=
  match n with O => [] | S n' => be_bytes n' (v / 256) ++ [n2b v] end.
(** Padding of 5.1.1: a one bit, zero bits up to 64 bits before a block's end, the length in bits. *)
Definition pad (m : list byte) : list byte :=
  m ++ x80 :: repeat x00 (N.to_nat ((119 - len m mod 64) mod 64)) ++ be_bytes 8 (8 * len m).
(** The blocks of a padded message. *)
Fixpoint blocks (n : nat) (l : list byte) : list (list byte) :=
  match n with O => [] | S n' => firstn 64 l :: blocks n' (skipn 64 l) end.
Definition all_blocks (l : list byte) : list (list byte) := blocks (Nat.div (length l) 64) l.
(** The message digest of a hash value, and of a message. *)
Definition digest (h : list N) : list byte := flat_map (be_bytes 4) h.
Definition sha256 (m : list byte) : list byte := digest (fold_left compress (all_blocks (pad m)) H0).
