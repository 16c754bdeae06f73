(** * TestGraphs: the random trees of the tests and the tests of DirectedGraph. Model of TestHelpers/structure_generation.h
    and Tests/DirectedGraphTests.cpp. *)
From Verif Require Import Base Types Keys StdSet Graph Validator.

Section T.
Context {K : Type} (Ko : keyops K).

(** What the generator returns in one round of the loop of GenerateRandomTreeRecursive: a child, and what it returns in the
    call for the child (not used on the last level). The number of rounds, capped_rand( 1, 7 ), is the length of the list. *)
Inductive draw := Draw (child : K) (subs : list draw).
Definition d_child (d : draw) : K := match d with Draw c _ => c end.
Definition d_subs (d : draw) : list draw := match d with Draw _ l => l end.

(** GenerateRandomTreeRecursive, TestHelpers/structure_generation.h:8-28; [l]: total_levels - current_level. *)
Fixpoint gen_tree (l : nat) (parent : K) (rounds : list draw) (g : graph K) : graph K :=
  fold_left (fun g d =>
    let g1 := insert_edge Ko parent (d_child d) g in
    match l with
    | O => g1
    | S l' => gen_tree l' (d_child d) (d_subs d) g1
    end) rounds g.

(** MF::Validate with a validator: the budget of steps [n] as in g_validate. *)
Definition validate_into (n : nat) (f : gflags) (g : graph K) (v : validator) : option validator :=
  match g_validate Ko n f g with Some log => Some (report_all log v) | None => None end.
Definition opt_bind {A B} (o : option A) (k : A -> option B) : option B := match o with Some a => k a | None => None end.
Notation "'let?' x := o 'in' k" := (opt_bind o (fun x => k)) (at level 200, x pattern, k at level 200).

(** The end of four of the tests (for example DirectedGraphTests.cpp:73-86): validate the first graph, assert that there is
    no error, validate the second one with the same validator and compare the errors. The result: do the assertions hold. *)
Definition two_validations (n : nat) (f : gflags) (g1 g2 : graph K) (expected : N) : option bool :=
  let? v1 := validate_into n f g1 new_validator in
  if negb (N.eqb (ErrorCount v1) 0) then Some false else
  let? v2 := validate_into n f g2 (clear_error_count v1) in
  if N.eqb (ErrorCount v2) 0 then Some false else
  Some (N.eqb (ErrorIds v2) expected).

(** DirectedGraphBasicTest, lines 23-39: any edges in a graph with flags 0. *)
Definition basic_test (n : nat) (edges : list (K * K)) : option bool :=
  let g := fold_left (fun g e => insert_edge Ko (fst e) (snd e) g) edges (g_empty) in
  let? v := validate_into n (GFlags false false false) g new_validator in Some (N.eqb (ErrorCount v) 0).
(** DirectedGraphDuplicateEdgesTest, lines 41-60. *)
Definition duplicate_test (n : nat) (a b : K) : option bool :=
  let g := insert_edge Ko a b (insert_edge Ko a b g_empty) in
  if negb (Nat.eqb (length (g_edges g)) 1) then Some false else
  let? v := validate_into n (GFlags false false false) g new_validator in Some (N.eqb (ErrorCount v) 0).

(** DirectedGraphAcyclicTest, lines 62-87; [k0], [k1], [k2]: the nodes 0, 1 and 2. *)
Definition acyclic_test (n : nat) (k0 k1 k2 : K) (root : K) (rounds : list draw) : option bool :=
  let g1 := gen_tree 3 root rounds g_empty in
  let g2 := insert_edge Ko k2 k0 (insert_edge Ko k1 k2 (insert_edge Ko k0 k1 g1)) in
  two_validations n (GFlags true false false) g1 g2 InvalidSetup.

(** DirectedGraphSingleRootTest, lines 89-112; [a] and [b]: the two random nodes. *)
Definition single_root_test (n : nat) (root : K) (rounds : list draw) (a b : K) : option bool :=
  let g1 := gen_tree 2 root rounds g_empty in
  two_validations n (GFlags false false true) g1 (insert_edge Ko a b g1) InvalidCount.

(** The forest of the rooted test and of the serialization test, lines 121-129 and 204-211. *)
Definition gen_forest (trees : list (K * list draw)) (g : graph K) : graph K :=
  fold_left (fun g t => gen_tree 2 (fst t) (snd t) (insert_root Ko (fst t) g)) trees g.
(** DirectedGraphRootedTest, lines 114-144. [None] as well: erase( begin() ) of an empty set (not defined); roots is at
    least 1 in the test. *)
Definition rooted_test (n : nat) (trees : list (K * list draw)) : option bool :=
  let g1 := gen_forest trees g_empty in
  match g_roots g1 with
  | [] => None
  | _ :: rest => two_validations n (GFlags false true false) g1 (Graph rest (g_edges g1)) (N.lor InvalidSetup MissingObject)
  end.

(** DirectedGraphSceneGraphTest, lines 146-196. [leaf]: leaf_node; [x], [y]: the two new roots. The set downstream_nodes of
    lines 160-165 is made as the one of MF::Validate. *)
Definition scene_graph (root leaf : K) (rounds : list draw) : graph K :=
  let g0 := gen_tree 3 root rounds (insert_root Ko root g_empty) in
  fold_left (fun g p => insert_edge Ko p leaf g) (downstream_nodes Ko (g_edges g0)) g0.
Definition scene_graph_test (n : nat) (root leaf x y : K) (rounds : list draw) : option bool :=
  let g1 := scene_graph root leaf rounds in
  let g2 := insert_edge Ko leaf root (insert_edge Ko leaf root (insert_edge Ko y root (insert_edge Ko x root g1))) in
  two_validations n (GFlags true true true) g1 g2
    (N.lor (N.lor (N.lor InvalidSetup MissingObject) InvalidObject) InvalidCount).
End T.
Arguments draw : clear implicits.
