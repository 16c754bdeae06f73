(** * TestGraphsIOSpec: the stream of the serialization test of DirectedGraph. Specification. *)
From Verif Require Import Base Types Keys KeySpec KeyFacts StdSet Graph GraphSpec Items Documents DocSpec TestGraphs TestGraphsIO.
Open Scope N_scope.

(** The graph that a call of ReadWriteTest makes, and the bytes of the documented layout for it. *)
Definition call_graph (c : gcall) : graph (key (gc_type c)) := gen_forest (gc_ops c) (gc_trees c) g_empty.
Definition call_bytes (fl : bool) (c : gcall) : list byte := nodes_bytes fl (graph_doc (gc_ops c) (call_graph c)).
(** The node type is one that can be ordered and written, and the vectors can exist in memory. *)
Definition call_ok (c : gcall) : Prop := is_key (gc_type c) = true /\ graph_fits (call_graph c).
