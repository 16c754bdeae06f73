(** * Graph: DirectedGraph. Model of ISD/ISD_DirectedGraph.h. *)
From Verif Require Import Base Types Keys StdSet EntityWriter EntityReader Streams Sections Validator.

Section Graph.
Context {K : Type} (Ko : keyops K).
Notation lt := (k_lt Ko).

(** The members v_Roots and v_Edges, ISD/ISD_DirectedGraph.h:48-49. *)
Record graph := Graph { g_roots : list K; g_edges : list (K * K) }.
Definition g_empty : graph := Graph [] [].

(** set_contains, ISD/ISD_DirectedGraph.h:113-116. *)
Definition contains (s : list K) (x : K) : bool := set_mem lt x s.

(** InsertEdge, ISD/ISD_DirectedGraph.h:72-75. *)
Definition insert_edge (a b : K) (g : graph) : graph :=
  Graph (g_roots g) (set_insert (pair_lt lt) (a, b) (g_edges g)).
(** HasEdge, ISD/ISD_DirectedGraph.h:78-81. (The code names an undeclared type pair_type; it is only
    well formed if never instantiated. Modelled as evidently meant.) *)
Definition has_edge (a b : K) (g : graph) : bool := set_mem (pair_lt lt) (a, b) (g_edges g).
(** Roots().insert / erase: direct access, ISD/ISD_DirectedGraph.h:67. *)
Definition insert_root (a : K) (g : graph) : graph := Graph (set_insert lt a (g_roots g)) (g_edges g).
(** GetSuccessors, ISD/ISD_DirectedGraph.h:83-101: the edges of the iterator range. *)
Definition get_successors (a : K) (g : graph) : list (K * K) :=
  range (lower_bound (pair_lt lt) (a, k_inf Ko) (g_edges g)) (lower_bound (pair_lt lt) (a, k_sup Ko) (g_edges g)).

(** MF::Clear, ISD/ISD_DirectedGraph.h:119-123. *)
Definition g_clear (g : graph) : graph := Graph [] [].
(** MF::DeepCopy, ISD/ISD_DirectedGraph.h:125-136; a null source is [None]. *)
Definition g_deep_copy (dest : graph) (source : option graph) : graph :=
  match source with
  | None => g_clear dest
  | Some s => Graph (set_of lt (g_roots s)) (set_of (pair_lt lt) (g_edges s))
  end.
(** The element loops of MF::Equals, ISD/ISD_DirectedGraph.h:154-174. *)
Fixpoint all_equal {A} (eq : A -> A -> bool) (a b : list A) : bool :=
  match a, b with
  | [], _ => true
  | x :: a', y :: b' => if eq x y then all_equal eq a' b' else false
  | _ :: _, [] => false
  end.
Definition pair_eq (p q : K * K) : bool := k_eq Ko (fst p) (fst q) && k_eq Ko (snd p) (snd q).
(** MF::Equals, ISD/ISD_DirectedGraph.h:138-177, for two objects ([same]: the pointers are equal). *)
Definition g_equals (same : bool) (l r : option graph) : bool :=
  if same then true else
  match l, r with
  | Some a, Some b =>
    if negb (Nat.eqb (length (g_roots a)) (length (g_roots b))) then false else
    if negb (Nat.eqb (length (g_edges a)) (length (g_edges b))) then false else
    if all_equal (k_eq Ko) (g_roots a) (g_roots b) then all_equal pair_eq (g_edges a) (g_edges b) else false
  | _, _ => false
  end.

(** ** Serialization *)

(** ISDKeyMacro("Roots") and ISDKeyMacro("Edges"), ISD/ISD_Types.h:32. *)
Definition key_roots : list byte := [x52; x6f; x6f; x74; x73].
Definition key_edges : list byte := [x45; x64; x67; x65; x73].

(** graph_pairs, ISD/ISD_DirectedGraph.h:187-193. *)
Definition flatten (edges : list (K * K)) : list K := flat_map (fun e => [fst e; snd e]) edges.
(** MF::Write, ISD/ISD_DirectedGraph.h:179-201, on the writer [h]. *)
Definition g_write (h : N) (g : graph) (st : wstate) : res (bool * wstate) :=
  do r <- w_write h (k_type Ko) key_roots (CVec (map (k_val Ko) (g_roots g))) st; let '(ok, st1) := r in
  if (ok : bool) then w_write h (k_type Ko) key_edges (CVec (map (k_val Ko) (flatten (g_edges g)))) st1
  else Done (false, st1).

Definition keys_of (c : cval) : list K := match c with CVec l => map (k_of Ko) l | _ => [] end.
(** The insertion loop of MF::Read, ISD/ISD_DirectedGraph.h:221-226: pairs of the vector. *)
Fixpoint insert_pairs (l : list K) (g : graph) : graph :=
  match l with
  | a :: b :: r => insert_pairs r (insert_edge a b g)
  | _ => g
  end.
(** MF::Read, ISD/ISD_DirectedGraph.h:203-229, from the reader [h]. *)
Definition g_read (e : renv) (h : N) (g : graph) (st : rstate) : res (bool * graph * rstate) :=
  do r <- r_read e h (k_type Ko) key_roots (CVec []) st; let '(ok, roots, st1) := r in
  if (ok : bool) then
    let g1 := Graph (set_of lt (keys_of roots)) (g_edges g) in
    do r2 <- r_read e h (k_type Ko) key_edges (CVec []) st1; let '(ok2, pairs, st2) := r2 in
    if (ok2 : bool) then Done (true, insert_pairs (keys_of pairs) (Graph (g_roots g1) []), st2)
    else Done (false, g1, st2)
  else Done (false, g, st1).

(** ** Validation. The model returns the ids passed to ReportError, in order
    (ISD/ISD_EntityValidator.h:27-33). *)

(** The nodes downstream of a node: lines 272-277 and 328-333. *)
Definition downstream (edges : list (K * K)) (curr : K) : list K :=
  map snd (range (lower_bound (pair_lt lt) (curr, k_inf Ko) edges) (upper_bound (pair_lt lt) (curr, k_sup Ko) edges)).

(** The loop over the children in ValidateNoCycles, lines 274-295: pushes unchecked children; [true]
    when a child on the stack was met. *)
Fixpoint scan_children (on_stack checked : list K) (children stack : list K) : bool * list K :=
  match children with
  | [] => (false, stack)
  | c :: r =>
    if negb (contains checked c) then scan_children on_stack checked r (c :: stack)
    else if contains on_stack c then (true, stack)
    else scan_children on_stack checked r stack
  end.

(** The while loop, lines 253-296. [None]: the step budget [n] is used up. Otherwise: was a cycle
    reported, and the sets after the loop. *)
Fixpoint dfs (n : nat) (edges : list (K * K)) (stack on_stack checked : list K) : option (bool * list K * list K) :=
  match stack with
  | [] => Some (false, on_stack, checked)
  | curr :: rest =>
    match n with
    | O => None
    | S n' =>
      let '(stack1, on1, checked1) :=
        if negb (contains checked curr) then (stack, set_insert lt curr on_stack, set_insert lt curr checked)
        else (rest, set_erase lt curr on_stack, checked) in
      let '(cycle, stack2) := scan_children on1 checked1 (downstream edges curr) stack1 in
      if cycle then Some (true, on1, checked1) else dfs n' edges stack2 on1 checked1
    end
  end.

(** The loop over all edges, lines 241-297. *)
Fixpoint no_cycles_loop (n : nat) (edges todo : list (K * K)) (on_stack checked : list K) : option (list N) :=
  match todo with
  | [] => Some []
  | p :: r =>
    if contains checked (fst p) then no_cycles_loop n edges r on_stack checked
    else match dfs n edges [fst p] on_stack checked with
         | None => None
         | Some (true, _, _) => Some [InvalidSetup]
         | Some (false, on1, checked1) => no_cycles_loop n edges r on1 checked1
         end
  end.
(** ValidateNoCycles, lines 232-300. *)
Definition validate_no_cycles (n : nat) (edges : list (K * K)) : option (list N) :=
  no_cycles_loop n edges edges [] [].

(** The while loop of ValidateRooted, lines 314-342 (the queue's front is the head of the list). *)
Fixpoint bfs (n : nat) (edges : list (K * K)) (queue reached : list K) : option (list K) :=
  match queue with
  | [] => Some reached
  | curr :: rest =>
    match n with
    | O => None
    | S n' =>
      if contains reached curr then bfs n' edges rest reached
      else
        let reached1 := set_insert lt curr reached in
        bfs n' edges (rest ++ filter (fun c => negb (contains reached1 c)) (downstream edges curr)) reached1
    end
  end.
(** ValidateRooted, lines 302-356. *)
Definition validate_rooted (n : nat) (roots downstream_nodes : list K) (edges : list (K * K)) : option (list N) :=
  match bfs n edges roots [] with
  | None => None
  | Some reached =>
    Some (map (fun _ => InvalidSetup) (filter (fun x => negb (contains reached x)) downstream_nodes))
  end.

(** downstream_nodes and root_nodes, lines 362-375. *)
Definition downstream_nodes (edges : list (K * K)) : list K :=
  fold_left (fun s p => if negb (contains s (snd p)) then set_insert lt (snd p) s else s) edges [].
Definition root_nodes (edges : list (K * K)) : list K :=
  fold_left (fun s p => if negb (contains (downstream_nodes edges) (fst p)) then set_insert lt (fst p) s else s) edges [].

(** The flags of the graph type, lines 14-19 and 33-35. *)
Record gflags := GFlags { f_acyclic : bool; f_rooted : bool; f_single : bool }.

(** MF::Validate, lines 359-430, with a budget of [n] steps for each search. *)
Definition g_validate (n : nat) (f : gflags) (g : graph) : option (list N) :=
  let dn := downstream_nodes (g_edges g) in
  let rn := root_nodes (g_edges g) in
  let e1 := if f_single f then (if negb (Nat.eqb (length rn) 1) then [InvalidCount] else []) else [] in
  let e2 := if f_rooted f then (if f_single f then (if negb (Nat.eqb (length (g_roots g)) 1) then [InvalidCount] else []) else []) else [] in
  let e3 := if f_rooted f then map (fun _ => InvalidObject) (filter (contains dn) (g_roots g)) else [] in
  let e4 := if f_rooted f then map (fun _ => MissingObject) (filter (fun x => negb (contains (g_roots g) x)) rn) else [] in
  match (if f_rooted f then validate_rooted n (g_roots g) dn (g_edges g) else Some []) with
  | None => None
  | Some e5 =>
    match (if f_acyclic f then validate_no_cycles n (g_edges g) else Some []) with
    | None => None
    | Some e6 => Some (e1 ++ e2 ++ e3 ++ e4 ++ e5 ++ e6)
    end
  end.
End Graph.
Arguments graph : clear implicits.
