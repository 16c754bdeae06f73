(** * TestTypes: the tests of the types. Model of Tests/TypeTests.cpp: Test_entity_ref (172-199), Test_idx_vector
    (201-252), Test_optional_idx_vector (254-298), Test_optional_value (302-344), Test_optional_vector (346-376),
    Test_package_ref (378-402), Test_functors (404-466). (Test_thread_safe_map, lines 469-544, is the program of
    TestThreads.v with ten numbers in each of four threads.) A failed Assert is the result [false]. *)
From Verif Require Import Base Bytes Values Types Keys Refs Containers StdSet ThreadMap.
Local Open Scope nat_scope.

(** operator< of the references and of their ids: memcmp (ISD_entity_ref.inl:27, ISD_package_ref.inl:20;
    uuid_hash_header.inl:17-20,51-54). *)
Definition id_lt (a b : list byte) : bool := lex_lt a b.

(** Lines 174-180 of Test_entity_ref and 380-385 of Test_package_ref: a new reference is null. *)
Definition ref_test_null (k : rkind) : bool :=
  let ref := ref_default k in
  let val := ref in
  negb (ref_bool k ref) && id_eq k val (id_zero k) && id_eq k val (ref_default k) && ref_eq k ref (ref_default k).
(** Lines 183-198 and 388-401: [ref2] is the reference made in line 182 and 387. *)
Definition ref_test_made (k : rkind) (ref2 : list byte) : bool :=
  let ref := ref_default k in
  if negb (ref_ne k ref ref2 && negb (ref_eq k ref ref2) && id_lt ref ref2) then false else
  let val := ref2 in
  if negb (id_ne k val (id_zero k) && id_lt (id_zero k) val) then false else
  let ref := ref_copy ref2 in let ref2 := ref_left k in
  if negb (ref_ne k ref ref2 && negb (ref_eq k ref ref2) && id_lt ref2 ref) then false else
  let ref2 := ref_copy ref in
  ref_eq k ref ref2 && negb (ref_ne k ref ref2) && negb (id_lt ref2 ref).
(** Test_entity_ref, lines 172-199; [r]: what ::UuidCreate does. *)
Definition entity_ref_test (r : reply) : res bool :=
  if negb (ref_test_null ERef) then Done false else
  do ref2 <- make_ref r; Done (ref_test_made ERef ref2).
(** Test_package_ref, lines 378-402; [h]: the hash drawn. *)
Definition package_ref_test (h : list byte) : bool := ref_test_null PRef && ref_test_made PRef h.

Section Vectors.
Context {T : Type} (teq : T -> T -> bool).
(** What the loops emplace: [draws] are the values, two indices for each (lines 207-212, 261-266). *)
Definition drawn_index (draws : list T) : list N := flat_map (fun i => [N.of_nat i * 2; N.of_nat i * 2 + 1]%N) (seq 0 (length draws)).
Definition ix_eq : list N -> list N -> bool := vec_eq N.eqb.
Definition size_is {A} (n : nat) (l : list A) : bool := Nat.eqb (length l) n.

(** Test_idx_vector, lines 201-252: vec is object 0 and vec2 object 1. *)
Definition idx_vector_test (draws : list T) : res bool :=
  let n := length draws in
  let sizes (i v : nat) (o : ivec T) := size_is i (iv_index o) && size_is v (iv_values o) in
  let same_index (a b : ivec T) := ix_eq (iv_index a) (iv_index b) in
  let same_values (a b : ivec T) := vec_eq teq (iv_values a) (iv_values b) in
  do l <- ivx_new [];
  do vec <- ivx_obj 0 l;
  if negb (sizes 0 0 vec) then Done false else
  do l <- ivx_store 0 (iv_values vec ++ draws) (iv_index vec ++ drawn_index draws) l;
  do vec <- ivx_obj 0 l;
  if negb (sizes (2 * n) n vec) then Done false else
  do l <- ivx_new_move 0 l;
  do vec <- ivx_obj 0 l; do vec2 <- ivx_obj 1 l;
  if negb (sizes 0 0 vec && sizes (2 * n) n vec2 && negb (same_index vec vec2) && negb (same_values vec vec2)
           && ivx_ne teq vec vec2 && negb (ivx_eq teq vec vec2)) then Done false else
  do l <- ivx_copy_assign 0 1 l;
  do vec <- ivx_obj 0 l; do vec2 <- ivx_obj 1 l;
  if negb (sizes (2 * n) n vec && sizes (length (iv_index vec2)) (length (iv_values vec2)) vec && same_index vec vec2
           && same_values vec vec2 && ivx_eq teq vec vec2 && negb (ivx_ne teq vec vec2)) then Done false else
  do l <- ivx_clear 0 l;
  do vec <- ivx_obj 0 l; do vec2 <- ivx_obj 1 l;
  if negb (sizes 0 0 vec && negb (same_index vec vec2) && negb (same_values vec vec2)) then Done false else
  do l <- ivx_clear 1 l;
  do vec <- ivx_obj 0 l; do vec2 <- ivx_obj 1 l;
  Done (sizes 0 0 vec && sizes 0 0 vec2 && same_index vec vec2 && same_values vec vec2 && ivx_eq teq vec vec2
        && negb (ivx_ne teq vec vec2)).

(** ISDExpectSanityCheckDebugFailMacro of an access to the value, Tests/pch.h:24-30: in the debug build the access must
    throw, which it does if there is no value; in the release build nothing is done. *)
Definition expect_fail (debug has : bool) : bool := if debug then negb has else true.
(** An access to the value: in the debug build it throws if there is none. *)
Definition access_value {A} (debug has : bool) (a : A) : res A := if debug && negb has then Throw else Done a.

(** Test_optional_idx_vector, lines 254-298. *)
Definition optional_idx_vector_test (debug : bool) (draws : list T) : res bool :=
  let n := length draws in
  let get i l := do o <- oix_obj i l; access_value debug (oi_has o) (oi_vec o) in
  let sizes (i v : nat) (o : ivec T) := size_is i (iv_index o) && size_is v (iv_values o) in
  let same_index (a b : ivec T) := ix_eq (iv_index a) (iv_index b) in
  let same_values (a b : ivec T) := vec_eq teq (iv_values a) (iv_values b) in
  do l <- oix_new [];
  do vec <- oix_obj 0 l;
  if negb (expect_fail debug (oi_has vec) && oix_eq teq vec (OIVec (IVec [] []) false)) then Done false else
  do l <- oix_set 0 l;
  do v <- get 0 l;
  do l <- oix_store 0 (IVec (iv_values v ++ draws) (iv_index v ++ drawn_index draws)) l;
  do v <- get 0 l;
  if negb (sizes (2 * n) n v) then Done false else
  do l <- oix_new_move 0 l;
  do vec <- oix_obj 0 l; do vec2 <- oix_obj 1 l; do v2 <- get 1 l;
  if negb (expect_fail debug (oi_has vec) && sizes (2 * n) n v2 && oix_ne teq vec vec2) then Done false else
  do l <- oix_copy_assign 0 1 l;
  do v <- get 0 l; do v2 <- get 1 l;
  if negb (sizes (2 * n) n v && sizes (length (iv_index v2)) (length (iv_values v2)) v && same_index v v2 && same_values v v2)
  then Done false else
  do l <- (do v <- get 0 l; do l1 <- ivx_clear 0 [v]; do v1 <- ivx_obj 0 l1; oix_store 0 v1 l);
  do v <- get 0 l; do v2 <- get 1 l;
  if negb (sizes 0 0 v && negb (same_index v v2) && negb (same_values v v2)) then Done false else
  do l <- (do v <- get 1 l; do l1 <- ivx_clear 0 [v]; do v1 <- ivx_obj 0 l1; oix_store 1 v1 l);
  do v <- get 0 l; do v2 <- get 1 l;
  Done (sizes 0 0 v && sizes 0 0 v2 && same_index v v2 && same_values v v2).

(** Test_optional_vector, lines 346-376. *)
Definition optional_vector_test (debug : bool) (draws : list T) : res bool :=
  let n := length draws in
  let get i l := do o <- ovx_obj i l; access_value debug (ov_has o) (ov_vec o) in
  do l <- ovx_new [];
  do vec <- ovx_obj 0 l;
  if negb (expect_fail debug (ov_has vec) && ovx_eq teq vec (OVec [] false)) then Done false else
  do l <- ovx_set 0 l;
  do v <- get 0 l;
  do l <- ovx_store 0 (v ++ draws) l;
  do v <- get 0 l;
  if negb (size_is n v) then Done false else
  do l <- ovx_new_move 0 l;
  do vec <- ovx_obj 0 l; do vec2 <- ovx_obj 1 l; do v2 <- get 1 l;
  if negb (expect_fail debug (ov_has vec) && size_is n v2 && ovx_ne teq vec vec2) then Done false else
  do l <- ovx_copy_assign 0 1 l;
  do v <- get 0 l; do v2 <- get 1 l;
  if negb (size_is n v && size_is (length v2) v && vec_eq teq v v2) then Done false else
  do l <- ovx_store 0 [] l;
  do v <- get 0 l; do v2 <- get 1 l;
  if negb (size_is 0 v && vec_ne teq v v2) then Done false else
  do l <- ovx_store 1 [] l;
  do v <- get 0 l; do v2 <- get 1 l;
  Done (size_is 0 v && size_is 0 v2 && vec_eq teq v v2).
End Vectors.

(** Test_optional_value, lines 302-344: opt is object 0, opt2 object 1; [a] is 0x1337 and [b] 0x13337 there. *)
Definition optional_value_test (a b : N) : res bool :=
  let eq := ov_eq N.eqb 0 1 in
  let ne := ov_ne (fun x y => negb (N.eqb x y)) 0 1 in
  let eqv w := ov_eq_value N.eqb 0 w in
  let nev w := ov_ne_value (fun x y => negb (N.eqb x y)) 0 w in
  do s <- ov_new_value a (MkStore [] []);
  do c1 <- ov_has_value 0 s; do c2 <- eqv a s; do c3 <- nev a s;
  if negb (c1 && c2 && negb c3) then Done false else
  do s <- ov_new_move 0 s;
  do c1 <- ov_has_value 0 s; do c2 <- nev a s; do c3 <- eqv a s; do c4 <- nev 0%N s; do c5 <- ov_has_value 1 s;
  do c6 <- ov_eq_value N.eqb 1 a s; do c7 <- ne s; do c8 <- eq s;
  if negb (negb c1 && c2 && negb c3 && c4 && c5 && c6 && c7 && negb c8) then Done false else
  do v2 <- ov_value 1 s; do s <- ov_set 0 v2 s;
  do c1 <- ov_has_value 0 s; do c2 <- ov_has_value 1 s; do c3 <- eq s;
  if negb (c1 && c2 && c3) then Done false else
  do s <- ov_reset 1 s;
  do c1 <- ov_has_value 0 s; do c2 <- ov_has_value 1 s; do c3 <- ne s;
  if negb (c1 && negb c2 && c3) then Done false else
  do s <- ov_set_default 0%N 1 s;
  do c1 <- ne s;
  if negb c1 then Done false else
  do v <- ov_value 0 s; do s <- ov_store 1 v s;
  do c1 <- eq s;
  if negb c1 then Done false else
  do s <- ov_set 0 b s;
  do c1 <- ne s; do c2 <- eq s; do v2 <- ov_value 1 s; do c3 <- eqv v2 s; do c4 <- nev v2 s; do v <- ov_value 0 s;
  do c5 <- ov_has_value 0 s; do c6 <- ov_has_value 1 s;
  if negb (c1 && negb c2 && negb c3 && c4 && negb (N.eqb v v2) && c5 && c6) then Done false else
  do s <- ov_reset 0 s;
  do s <- ov_reset 1 s;
  eq s.

Section Functors.
Context {K : Type} (lt eqb : K -> K -> bool) (hash : K -> N).
(** std::unordered_map and std::unordered_set: two keys are the same if they have the same hash and are ==. emplace adds an
    element if there is none with the same key. (No source counterpart: the standard library.) *)
Definition u_same (a b : K) : bool := N.eqb (hash a) (hash b) && eqb a b.
Definition u_emplace {E} (key : E -> K) (e : E) (l : list E) : list E :=
  if existsb (fun x => u_same (key e) (key x)) l then l else l ++ [e].
Definition u_find {E} (key : E -> K) (k : K) (l : list E) : option E := List.find (fun x => u_same k (key x)) l.
(** inverse_map, lines 404-413. *)
Definition inverse_map (m : list (K * nat)) : list (nat * K) :=
  fold_left (fun inv p => fst (mp_insert Nat.ltb (snd p) (fst p) inv)) m [].
(** TestSetAndMapWithKey, lines 416-466; [keys] are those drawn (there 100). *)
Definition functors_test (keys : list K) : bool :=
  let n := length keys in
  let items := combine keys (seq 0 n) in
  let mmap := fold_left (fun m p => fst (mp_insert lt (fst p) (snd p) m)) items [] in
  let umap := fold_left (fun m p => u_emplace fst p m) items [] in
  let mset := fold_left (fun s k => set_insert lt k s) keys [] in
  let uset := fold_left (fun s k => u_emplace (fun x => x) k s) keys [] in
  if negb (size_is n mmap && size_is n umap && size_is n mset && size_is n uset) then false else
  let lookup := inverse_map mmap in
  forallb (fun i =>
    match mp_deref Nat.ltb i lookup with
    | None => false
    | Some key =>
        (match mp_deref lt key mmap with Some j => Nat.eqb j i | None => false end) &&
        (match u_find fst key umap with Some (_, j) => Nat.eqb j i | None => false end) &&
        set_mem lt key mset &&
        (match u_find (fun x => x) key uset with Some _ => true | None => false end)
    end) (seq 0 n).
End Functors.
