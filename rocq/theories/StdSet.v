(** * StdSet: std::set and std::map as sorted lists. Model of the standard library containers.
    (No source counterpart: the trusted behaviour of std::set / std::map, on which
    ISD/ISD_DirectedGraph.h and ISD/ISD_EntityTable.h rest.) *)
From Verif Require Import Base.

Section Set_.
Context {A : Type} (lt : A -> A -> bool).

(** Two elements are equivalent if neither is less. *)
Definition equiv (a b : A) : bool := negb (lt a b) && negb (lt b a).
(** find( x ) != end(). *)
Definition set_mem (x : A) (l : list A) : bool := existsb (equiv x) l.
(** insert / emplace: before the first element that is greater, unless an equivalent one exists. *)
Fixpoint set_insert (x : A) (l : list A) : list A :=
  match l with
  | [] => [x]
  | y :: r => if lt x y then x :: y :: r else if lt y x then y :: set_insert x r else y :: r
  end.
(** erase( x ). *)
Definition set_erase (x : A) (l : list A) : list A := filter (fun y => negb (equiv x y)) l.
(** The range constructor std::set( first, last ). *)
Definition set_of (l : list A) : list A := fold_left (fun s x => set_insert x s) l [].
(** Iterators are suffixes: lower_bound( x ) is at the first element not less than [x],
    upper_bound( x ) at the first element greater than [x]. *)
Fixpoint lower_bound (x : A) (l : list A) : list A :=
  match l with [] => [] | y :: r => if lt y x then lower_bound x r else l end.
Fixpoint upper_bound (x : A) (l : list A) : list A :=
  match l with [] => [] | y :: r => if lt x y then l else upper_bound x r end.
(** The elements of an iterator range (first not after last). *)
Definition range (first last : list A) : list A := firstn (length first - length last) first.
End Set_.

(** operator< of std::pair. *)
Definition pair_lt {A} (lt : A -> A -> bool) (p q : A * A) : bool :=
  lt (fst p) (fst q) || (negb (lt (fst q) (fst p)) && lt (snd p) (snd q)).
