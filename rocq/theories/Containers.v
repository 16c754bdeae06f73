(** * Containers: optional_value, optional_vector, idx_vector, optional_idx_vector. Model.

    Objects live in numbered variables (a list); operations name the variables they work on, so that
    an operation may name the same variable twice (self assignment). std::vector is taken as a value
    (its own copy and move semantics are the standard library's); the unique_ptr inside optional_value
    is modelled with an explicit heap. *)
From Verif Require Import Base.

(** Variables: read and write the object of a variable. *)
Fixpoint put {A} (i : nat) (a : A) (l : list A) : list A :=
  match i, l with
  | O, _ :: r => a :: r
  | S i', b :: r => b :: put i' a r
  | _, [] => []
  end.
Definition alter {A} (i : nat) (f : A -> A) (l : list A) : list A :=
  match nth_error l i with Some a => put i (f a) l | None => l end.

(** ** optional_value<T>: ISD/ISD_optional_value.h *)
Section OptionalValue.
Context {T : Type}.

(** The free store: cell [p] holds an object or was deleted. New objects get new cells. *)
Record store := MkStore {
  cells : list (option T);
  ptrs : list (option nat)   (* the unique_ptr value_m of every optional_value variable, line 14 *)
}.

(** std::make_unique<T>( v ) / new T( v ). *)
Definition alloc (v : T) (s : store) : nat * store :=
  (length (cells s), MkStore (cells s ++ [Some v]) (ptrs s)).
(** delete p, for a unique_ptr holding [p]; deleting twice is undefined. *)
Definition free (p : option nat) (s : store) : res store :=
  match p with
  | None => Done s
  | Some a =>
    match nth_error (cells s) a with
    | Some (Some _) => Done (MkStore (put a None (cells s)) (ptrs s))
    | _ => Undef
    end
  end.
(** *p *)
Definition deref (p : nat) (s : store) : res T :=
  match nth_error (cells s) p with Some (Some v) => Done v | _ => Undef end.
Definition ptr (i : nat) (s : store) : res (option nat) :=
  match nth_error (ptrs s) i with Some p => Done p | None => Undef end.
Definition set_ptr (i : nat) (p : option nat) (s : store) : store := MkStore (cells s) (put i p (ptrs s)).
(** unique_ptr::reset( p ): store the new pointer, then delete the old object. *)
Definition ptr_reset (i : nat) (p : option nat) (s : store) : res store :=
  do old <- ptr i s; free old (set_ptr i p s).

(** other.value_m ? std::make_unique<T>( *other.value_m ) : nullptr, lines 19-20. *)
Definition clone (j : nat) (s : store) : res (option nat * store) :=
  do p <- ptr j s;
  match p with
  | None => Done (None, s)
  | Some a => do v <- deref a s; let '(n, s1) := alloc v s in Done (Some n, s1)
  end.
Definition new_var (p : option nat) (s : store) : store := MkStore (cells s) (ptrs s ++ [p]).

(** Constructors, lines 17-19, 21. *)
Definition ov_new (s : store) : res store := Done (new_var None s).
Definition ov_new_value (v : T) (s : store) : res store :=
  let '(n, s1) := alloc v s in Done (new_var (Some n) s1).
Definition ov_new_copy (j : nat) (s : store) : res store :=
  do r <- clone j s; let '(p, s1) := r in Done (new_var p s1).
Definition ov_new_move (j : nat) (s : store) : res store :=
  do p <- ptr j s; Done (new_var p (set_ptr j None s)).
(** operator= (copy), line 20: the temporary unique_ptr is made first, then moved in. *)
Definition ov_copy_assign (i j : nat) (s : store) : res store :=
  do r <- clone j s; let '(p, s1) := r in ptr_reset i p s1.
(** operator= (move), line 22: reset( other.release() ). *)
Definition ov_move_assign (i j : nat) (s : store) : res store :=
  do p <- ptr j s; ptr_reset i p (set_ptr j None s).
(** reset, set, has_value, value: lines 29-34. *)
Definition ov_reset (i : nat) (s : store) : res store := ptr_reset i None s.
Definition ov_set (i : nat) (v : T) (s : store) : res store :=
  let '(n, s1) := alloc v s in ptr_reset i (Some n) s1.
(** set() without an argument: the default value of the parameter is T{}, line 30. *)
Definition ov_set_default (d : T) (i : nat) (s : store) : res store := ov_set i d s.
Definition ov_has_value (i : nat) (s : store) : res bool :=
  do p <- ptr i s; Done (match p with Some _ => true | None => false end).
Definition ov_value (i : nat) (s : store) : res T :=
  do p <- ptr i s; match p with Some a => deref a s | None => Undef end.
(** An assignment through the reference value() returns. *)
Definition ov_store (i : nat) (v : T) (s : store) : res store :=
  do p <- ptr i s;
  match p with
  | Some a => do _ <- deref a s; Done (MkStore (put a (Some v) (cells s)) (ptrs s))
  | None => Undef
  end.

(** operator== and operator!=, lines 40-88, given the == and != of T. *)
Definition ov_eq_value (teq : T -> T -> bool) (i : nat) (w : T) (s : store) : res bool :=
  do p <- ptr i s; match p with None => Done false | Some a => do v <- deref a s; Done (teq v w) end.
Definition ov_ne_value (tne : T -> T -> bool) (i : nat) (w : T) (s : store) : res bool :=
  do p <- ptr i s; match p with None => Done true | Some a => do v <- deref a s; Done (tne v w) end.
Definition ov_eq (teq : T -> T -> bool) (i j : nat) (s : store) : res bool :=
  do p <- ptr i s; do q <- ptr j s;
  match p with
  | Some a =>
    match q with
    | Some b => do v <- deref a s; do w <- deref b s; Done (teq v w)
    | None => Done false
    end
  | None => match q with Some _ => Done false | None => Done true end
  end.
Definition ov_ne (tne : T -> T -> bool) (i j : nat) (s : store) : res bool :=
  do p <- ptr i s; do q <- ptr j s;
  match p with
  | Some a =>
    match q with
    | Some b => do v <- deref a s; do w <- deref b s; Done (tne v w)
    | None => Done true
    end
  | None => match q with Some _ => Done true | None => Done false end
  end.
End OptionalValue.
Arguments store : clear implicits.

(** ** std::vector, as the containers below use it: vector == and != with the item == (std::equal and
    its negation). *)
Fixpoint vec_eq {T} (teq : T -> T -> bool) (a b : list T) : bool :=
  match a, b with
  | [], [] => true
  | x :: a', y :: b' => teq x y && vec_eq teq a' b'
  | _, _ => false
  end.
Definition vec_ne {T} (teq : T -> T -> bool) (a b : list T) : bool := negb (vec_eq teq a b).

(** ** optional_vector<T>: ISD/ISD_optional_vector.h:25-26. *)
Record ovec T := OVec { ov_vec : list T; ov_has : bool }.
Arguments OVec {T}. Arguments ov_vec {T}. Arguments ov_has {T}.

Section OptionalVector.
Context {T : Type}.
(** What v = std::move( v ) leaves in v: unspecified by the standard, hence any function. *)
Context (selfmove : list T -> list T).

Definition ovx_obj (i : nat) (l : list (ovec T)) : res (ovec T) :=
  match nth_error l i with Some o => Done o | None => Undef end.
Definition with_vec (v : list T) (o : ovec T) : ovec T := OVec v (ov_has o).
Definition with_has (b : bool) (o : ovec T) : ovec T := OVec (ov_vec o) b.
(** vector_m( std::move( other.vector_m ) ): the source is left empty. *)
(** Constructors, ISD/ISD_optional_vector.h:29-30,32. *)
Definition ovx_new (l : list (ovec T)) : res (list (ovec T)) := Done (l ++ [OVec [] false]).
Definition ovx_new_copy (j : nat) (l : list (ovec T)) : res (list (ovec T)) :=
  do o <- ovx_obj j l; Done (l ++ [OVec (ov_vec o) (ov_has o)]).
Definition ovx_new_move (j : nat) (l : list (ovec T)) : res (list (ovec T)) :=
  do o <- ovx_obj j l;
  let l1 := alter j (with_vec []) l in
  Done (alter j (with_has false) l1 ++ [OVec (ov_vec o) (ov_has o)]).
(** Copy assignment, line 31. *)
Definition ovx_copy_assign (i j : nat) (l : list (ovec T)) : res (list (ovec T)) :=
  do _ <- ovx_obj i l;
  do o <- ovx_obj j l;
  let l1 := alter i (with_has (ov_has o)) l in
  do o1 <- ovx_obj j l1;
  Done (alter i (with_vec (ov_vec o1)) l1).
(** Move assignment, line 33: has_value_m, then vector_m, then other.has_value_m = false. *)
Definition ovx_move_assign (i j : nat) (l : list (ovec T)) : res (list (ovec T)) :=
  do _ <- ovx_obj i l;
  do o <- ovx_obj j l;
  let l1 := alter i (with_has (ov_has o)) l in
  do o1 <- ovx_obj j l1;
  let l2 := if Nat.eqb i j then alter i (with_vec (selfmove (ov_vec o1))) l1
            else alter j (with_vec []) (alter i (with_vec (ov_vec o1)) l1) in
  Done (alter j (with_has false) l2).
(** reset, set, set( values ): lines 38-40. *)
Definition ovx_reset (i : nat) (l : list (ovec T)) : res (list (ovec T)) :=
  do _ <- ovx_obj i l; Done (alter i (with_vec []) (alter i (with_has false) l)).
Definition ovx_set (i : nat) (l : list (ovec T)) : res (list (ovec T)) :=
  do _ <- ovx_obj i l; Done (alter i (with_vec []) (alter i (with_has true) l)).
Definition ovx_set_values (i : nat) (v : list T) (l : list (ovec T)) : res (list (ovec T)) :=
  do _ <- ovx_obj i l; Done (alter i (with_vec v) (alter i (with_has true) l)).
(** An assignment through the reference vector() returns (lines 43-50; the has_value check is a debug
    check). *)
Definition ovx_store (i : nat) (v : list T) (l : list (ovec T)) : res (list (ovec T)) :=
  do _ <- ovx_obj i l; Done (alter i (with_vec v) l).

(** operator== and !=, lines 53-85. *)
Definition ovx_eq (teq : T -> T -> bool) (a b : ovec T) : bool :=
  if ov_has a then (if ov_has b then vec_eq teq (ov_vec a) (ov_vec b) else false)
  else (if ov_has b then false else true).
Definition ovx_ne (teq : T -> T -> bool) (a b : ovec T) : bool :=
  if ov_has a then (if ov_has b then vec_ne teq (ov_vec a) (ov_vec b) else true)
  else (if ov_has b then true else false).
End OptionalVector.

(** ** idx_vector<T>: ISD/ISD_idx_vector.h:25-26. Indices are i32 bit patterns. *)
Record ivec T := IVec { iv_values : list T; iv_index : list N }.
Arguments IVec {T}. Arguments iv_values {T}. Arguments iv_index {T}.

Section IdxVector.
Context {T : Type}.
Context (selfmove : list T -> list T) (selfmove_ix : list N -> list N).
Definition ivx_obj (i : nat) (l : list (ivec T)) : res (ivec T) :=
  match nth_error l i with Some o => Done o | None => Undef end.
Definition with_values (v : list T) (o : ivec T) : ivec T := IVec v (iv_index o).
Definition with_index (x : list N) (o : ivec T) : ivec T := IVec (iv_values o) x.
(** Constructors, ISD/ISD_idx_vector.h:29-30,32. *)
Definition ivx_new (l : list (ivec T)) : res (list (ivec T)) := Done (l ++ [IVec [] []]).
Definition ivx_new_copy (j : nat) (l : list (ivec T)) : res (list (ivec T)) :=
  do o <- ivx_obj j l; Done (l ++ [IVec (iv_values o) (iv_index o)]).
Definition ivx_new_move (j : nat) (l : list (ivec T)) : res (list (ivec T)) :=
  do o <- ivx_obj j l;
  Done (alter j (with_index []) (alter j (with_values []) l) ++ [IVec (iv_values o) (iv_index o)]).
(** Copy assignment, line 31. *)
Definition ivx_copy_assign (i j : nat) (l : list (ivec T)) : res (list (ivec T)) :=
  do _ <- ivx_obj i l;
  do o <- ivx_obj j l;
  let l1 := alter i (with_values (iv_values o)) l in
  do o1 <- ivx_obj j l1;
  Done (alter i (with_index (iv_index o1)) l1).
(** Move assignment, line 33. *)
Definition ivx_move_assign (i j : nat) (l : list (ivec T)) : res (list (ivec T)) :=
  do _ <- ivx_obj i l;
  do o <- ivx_obj j l;
  let l1 := if Nat.eqb i j then alter i (with_values (selfmove (iv_values o))) l
            else alter j (with_values []) (alter i (with_values (iv_values o)) l) in
  do o1 <- ivx_obj j l1;
  Done (if Nat.eqb i j then alter i (with_index (selfmove_ix (iv_index o1))) l1
        else alter j (with_index []) (alter i (with_index (iv_index o1)) l1)).
(** clear, line 38; assignments through values() and index(), lines 40-44. *)
Definition ivx_clear (i : nat) (l : list (ivec T)) : res (list (ivec T)) :=
  do _ <- ivx_obj i l; Done (alter i (with_index []) (alter i (with_values []) l)).
Definition ivx_store (i : nat) (v : list T) (x : list N) (l : list (ivec T)) : res (list (ivec T)) :=
  do _ <- ivx_obj i l; Done (alter i (with_index x) (alter i (with_values v) l)).
(** operator== and !=, lines 47-59. *)
Definition ivx_eq (teq : T -> T -> bool) (a b : ivec T) : bool :=
  vec_eq teq (iv_values a) (iv_values b) && vec_eq N.eqb (iv_index a) (iv_index b).
Definition ivx_ne (teq : T -> T -> bool) (a b : ivec T) : bool :=
  vec_ne teq (iv_values a) (iv_values b) || vec_ne N.eqb (iv_index a) (iv_index b).
End IdxVector.

(** ** optional_idx_vector<T>: ISD/ISD_optional_idx_vector.h:25-26. *)
Record oivec T := OIVec { oi_vec : ivec T; oi_has : bool }.
Arguments OIVec {T}. Arguments oi_vec {T}. Arguments oi_has {T}.

Section OptionalIdxVector.
Context {T : Type}.
Context (selfmove : list T -> list T) (selfmove_ix : list N -> list N).
Definition oix_obj (i : nat) (l : list (oivec T)) : res (oivec T) :=
  match nth_error l i with Some o => Done o | None => Undef end.
Definition with_ivec (v : ivec T) (o : oivec T) : oivec T := OIVec v (oi_has o).
Definition with_ohas (b : bool) (o : oivec T) : oivec T := OIVec (oi_vec o) b.
(** Constructors, ISD/ISD_optional_idx_vector.h:29-30,32 (moving the idx_vector member leaves it
    empty, ISD/ISD_idx_vector.h:32). *)
Definition oix_new (l : list (oivec T)) : res (list (oivec T)) := Done (l ++ [OIVec (IVec [] []) false]).
Definition oix_new_copy (j : nat) (l : list (oivec T)) : res (list (oivec T)) :=
  do o <- oix_obj j l; Done (l ++ [OIVec (oi_vec o) (oi_has o)]).
Definition oix_new_move (j : nat) (l : list (oivec T)) : res (list (oivec T)) :=
  do o <- oix_obj j l;
  Done (alter j (with_ohas false) (alter j (with_ivec (IVec [] [])) l) ++ [OIVec (oi_vec o) (oi_has o)]).
(** Copy assignment, line 31: vector_m first, then has_value_m. *)
Definition oix_copy_assign (i j : nat) (l : list (oivec T)) : res (list (oivec T)) :=
  do _ <- oix_obj i l;
  do o <- oix_obj j l;
  let l1 := alter i (with_ivec (oi_vec o)) l in
  do o1 <- oix_obj j l1;
  Done (alter i (with_ohas (oi_has o1)) l1).
(** Move assignment, line 33: vector_m, has_value_m, then other.has_value_m = false. *)
Definition oix_move_assign (i j : nat) (l : list (oivec T)) : res (list (oivec T)) :=
  do _ <- oix_obj i l;
  do o <- oix_obj j l;
  let l1 := if Nat.eqb i j
            then alter i (with_ivec (IVec (selfmove (iv_values (oi_vec o))) (selfmove_ix (iv_index (oi_vec o))))) l
            else alter j (with_ivec (IVec [] [])) (alter i (with_ivec (oi_vec o)) l) in
  do o1 <- oix_obj j l1;
  let l2 := alter i (with_ohas (oi_has o1)) l1 in
  Done (alter j (with_ohas false) l2).
(** reset and the set overloads: lines 38-41. *)
Definition oix_reset (i : nat) (l : list (oivec T)) : res (list (oivec T)) :=
  do _ <- oix_obj i l; Done (alter i (with_ivec (IVec [] [])) (alter i (with_ohas false) l)).
Definition oix_set (i : nat) (l : list (oivec T)) : res (list (oivec T)) :=
  do _ <- oix_obj i l; Done (alter i (with_ivec (IVec [] [])) (alter i (with_ohas true) l)).
Definition oix_set_vector (i : nat) (v : ivec T) (l : list (oivec T)) : res (list (oivec T)) :=
  do _ <- oix_obj i l; Done (alter i (with_ivec v) (alter i (with_ohas true) l)).
Definition oix_set_values (i : nat) (v : list T) (x : list N) (l : list (oivec T)) : res (list (oivec T)) :=
  do _ <- oix_obj i l;
  Done (alter i (fun o => with_ivec (with_index x (oi_vec o)) o)
         (alter i (fun o => with_ivec (with_values v (oi_vec o)) o) (alter i (with_ohas true) l))).
(** An assignment through the reference vector() returns (lines 44-51; the has_value check is a debug
    check). *)
Definition oix_store (i : nat) (v : ivec T) (l : list (oivec T)) : res (list (oivec T)) :=
  do _ <- oix_obj i l; Done (alter i (with_ivec v) l).
(** operator== and !=, lines 54-86. *)
Definition oix_eq (teq : T -> T -> bool) (a b : oivec T) : bool :=
  if oi_has a then (if oi_has b then ivx_eq teq (oi_vec a) (oi_vec b) else false)
  else (if oi_has b then false else true).
Definition oix_ne (teq : T -> T -> bool) (a b : oivec T) : bool :=
  if oi_has a then (if oi_has b then ivx_ne teq (oi_vec a) (oi_vec b) else true)
  else (if oi_has b then true else false).
End OptionalIdxVector.
