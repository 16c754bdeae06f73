(** * GraphSpec: directed graphs. Specification. *)
From Coq Require Import Sorting.Sorted Relation_Operators.
From Verif Require Import Base Types Keys KeySpec StdSet Graph Items Documents.

Section G.
Context {K : Type} (Ko : keyops K).

(** The content of a std::set: strictly increasing. *)
Definition is_set {A} (lt : A -> A -> bool) (l : list A) : Prop := StronglySorted (fun a b => lt a b = true) l.
Definition is_graph (g : graph K) : Prop := is_set (k_lt Ko) (g_roots g) /\ is_set (pair_lt (k_lt Ko)) (g_edges g).

(** There is an edge from [a] to [b]; a path of one or more edges; of zero or more. *)
Definition edge (g : graph K) (a b : K) : Prop := In (a, b) (g_edges g).
Definition path (g : graph K) : K -> K -> Prop := clos_trans K (edge g).
Definition reaches (g : graph K) (a b : K) : Prop := a = b \/ path g a b.
(** A directed cycle, of any length. *)
Definition cyclic (g : graph K) : Prop := exists x, path g x x.

(** Nodes with and without incoming edges; sources have outgoing edges only. *)
Definition incoming (g : graph K) (b : K) : Prop := exists a, edge g a b.
Definition source (g : graph K) (a : K) : Prop := (exists b, edge g a b) /\ ~ incoming g a.
Definition node (g : graph K) (a : K) : Prop := (exists b, edge g a b) \/ incoming g a.

(** Exactly one key has the property. *)
Definition exactly_one {A} (P : A -> Prop) : Prop := exists a, P a /\ forall b, P b -> b = a.

(** The roots are right: no root has an incoming edge, every source is a root, and every node can be
    reached from a root. *)
Definition well_rooted (g : graph K) : Prop :=
  (forall r, In r (g_roots g) -> ~ incoming g r) /\
  (forall a, source g a -> In a (g_roots g)) /\
  (forall b, node g b -> exists r, In r (g_roots g) /\ reaches g r b).

(** Histories of changes, latest first: InsertEdge, Roots().insert, Edges().erase, Roots().erase, Clear. *)
Inductive gop := AddEdge (a b : K) | AddRoot (a : K) | DropEdge (a b : K) | DropRoot (a : K) | Clear.
Definition g_apply (o : gop) (g : graph K) : graph K :=
  match o with
  | AddEdge a b => insert_edge Ko a b g
  | AddRoot a => insert_root Ko a g
  | DropEdge a b => Graph (g_roots g) (set_erase (pair_lt (k_lt Ko)) (a, b) (g_edges g))
  | DropRoot a => Graph (set_erase (k_lt Ko) a (g_roots g)) (g_edges g)
  | Clear => g_clear g
  end.
Definition g_run (h : list gop) : graph K := fold_right g_apply g_empty h.
(** The edge (root) was inserted and not removed since. *)
Fixpoint has_edge_after (h : list gop) (x y : K) : Prop :=
  match h with
  | [] => False
  | AddEdge a b :: r => x = a /\ y = b \/ has_edge_after r x y
  | DropEdge a b :: r => ~ (x = a /\ y = b) /\ has_edge_after r x y
  | Clear :: _ => False
  | _ :: r => has_edge_after r x y
  end.
Fixpoint has_root_after (h : list gop) (x : K) : Prop :=
  match h with
  | [] => False
  | AddRoot a :: r => x = a \/ has_root_after r x
  | DropRoot a :: r => x <> a /\ has_root_after r x
  | Clear :: _ => False
  | _ :: r => has_root_after r x
  end.

(** The written form of a graph: a vector of the roots, a vector of the ends of all edges. *)
Definition graph_doc (g : graph K) : nodes :=
  Cons (NItem (Item (k_type Ko) key_roots (CVec (map (k_val Ko) (g_roots g)))))
  (Cons (NItem (Item (k_type Ko) key_edges (CVec (map (k_val Ko) (concat (map (fun e => [fst e; snd e]) (g_edges g))))))) Nil).
(** Its vectors can exist in memory. *)
Definition graph_fits (g : graph K) : Prop := (len (g_roots g) < 2^63)%N /\ (2 * len (g_edges g) < 2^63)%N.
End G.
Arguments gop : clear implicits.
