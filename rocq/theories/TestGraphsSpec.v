(** * TestGraphsSpec: random trees. Specification. *)
From Verif Require Import Base TestGraphs.
Local Open Scope nat_scope.

Section T.
Context {K : Type}.
(** The nodes drawn for a tree with [l] more levels, the root excepted, and its edges. *)
Fixpoint tree_nodes (l : nat) (rounds : list (draw K)) : list K :=
  flat_map (fun d => d_child d :: match l with O => [] | S l' => tree_nodes l' (d_subs d) end) rounds.
Fixpoint tree_edges (l : nat) (parent : K) (rounds : list (draw K)) : list (K * K) :=
  flat_map (fun d => (parent, d_child d) :: match l with O => [] | S l' => tree_edges l' (d_child d) (d_subs d) end) rounds.
(** All nodes of a tree, of a forest. *)
Definition tree_all (l : nat) (t : K * list (draw K)) : list K := fst t :: tree_nodes l (snd t).
Definition forest_all (l : nat) (trees : list (K * list (draw K))) : list K := flat_map (tree_all l) trees.
End T.
