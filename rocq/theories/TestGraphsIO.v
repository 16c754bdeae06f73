(** * TestGraphsIO: the serialization test of DirectedGraph. Model of Tests/DirectedGraphTests.cpp:198-271. *)
From Verif Require Import Base Types Keys KeySpec KeyFacts StdSet Graph TestGraphs Streams EntityWriter EntityReader Items Sections.
Open Scope N_scope.

(** The assertions of ReadWriteTest, lines 198-228, on a writer at any point of its stream (the reader is made on the data
    written so far, at the position where this graph begins); [trees]: the random forest (lines 204-211, any number of
    trees). The template parameters are the operations of the node type; the flags make no difference to what is written.
    Set equality (operator==, line 227) is size and element-wise equality. *)
Definition rw_test {K} (Ko : keyops K) (e : renv) (trees : list (K * list (draw K))) (st : wstate) : res (bool * wstate) :=
  let dg := gen_forest Ko trees g_empty in
  let start_pos := ws_pos (w_stream st) in
  do r <- g_write Ko 0 dg st; let '(ok, st1) := r in
  if negb (ok : bool) then Done (false, st1) else
  let rs := RS (ws_data (w_stream st1)) start_pos (ws_flip (w_stream st1)) in
  do r2 <- g_read Ko e 0 g_empty (r_open rs); let '(ok2, back, _) := r2 in
  if negb (ok2 : bool) then Done (false, st1) else
  Done (Nat.eqb (length (g_edges dg)) (length (g_edges back)) && all_equal (pair_eq Ko) (g_edges dg) (g_edges back), st1).

(** One of the calls of ReadWriteTest: a node type (with its limits, as in the graph theorems) and a forest. *)
Record gcall := GCall {
  gc_type : dtype; gc_inf : key_okb gc_type (key_inf gc_type) = true; gc_sup : key_okb gc_type (key_sup gc_type) = true;
  gc_trees : list (key gc_type * list (draw (key gc_type))) }.
Definition gc_ops (c : gcall) : keyops (key (gc_type c)) := key_ops (gc_type c) (gc_inf c) (gc_sup c).
(** Calls one after another on one writer (lines 231-242 and 264-269); an assertion that fails ends the test. *)
Fixpoint rw_tests (e : renv) (l : list gcall) (st : wstate) : res (bool * wstate) :=
  match l with
  | [] => Done (true, st)
  | c :: l' =>
    do r <- rw_test (gc_ops c) e (gc_trees c) st; let '(ok, st1) := r in
    if (ok : bool) then rw_tests e l' st1 else Done (false, st1)
  end.
