(** * C15-C18: DirectedGraph. All statements hold for every node type [t]: integers, uuid, entity_ref,
    hash, package_ref ([Hi] and [Hs] say that the limits are values of the type). *)
From Verif Require Import Base Bytes Types Keys KeySpec KeyFacts StdSet Graph Validator GraphSpec GraphFacts GraphProps GraphSets
  Streams EntityWriter EntityReader Sections Items ItemSpec Documents DocSpec.
Local Open Scope nat_scope.

(** C15: with the acyclic flag Validate terminates (within a number of steps that depends on the graph
    alone) and reports exactly what it reports without the flag, plus one InvalidSetup if and only if there is a
    directed cycle of any length. *)
Theorem C15_acyclic_exact : forall t Hi Hs, is_node t = true -> forall (g : graph (key t)),
  is_graph (key_ops t Hi Hs) g ->
  exists steps, forall n rooted single, steps <= n ->
    exists log e, g_validate (key_ops t Hi Hs) n (GFlags false rooted single) g = Some log /\
      g_validate (key_ops t Hi Hs) n (GFlags true rooted single) g = Some (log ++ e) /\
      (e = [] /\ ~ cyclic g \/ e = [InvalidSetup] /\ cyclic g).
Proof.
  intros t Hi Hs H g G. assert (K : is_key t = true) by (destruct t; auto).
  exists (steps_needed (key_ops t Hi Hs) g). intros n rooted single Hn.
  exact (t_acyclic _ (t_key_laws t Hi Hs K) (t_key_bounds t Hi Hs H) n rooted single g G Hn).
Qed.
Print Assumptions C15_acyclic_exact.

(** C15: a graph that is only flagged acyclic is reported valid exactly if it has no cycle. *)
Theorem C15_acyclic_only : forall t Hi Hs, is_node t = true -> forall (g : graph (key t)),
  is_graph (key_ops t Hi Hs) g ->
  exists steps, forall n, steps <= n ->
    exists log, g_validate (key_ops t Hi Hs) n (GFlags true false false) g = Some log /\ (log = [] <-> ~ cyclic g).
Proof.
  intros t Hi Hs H g G. assert (K : is_key t = true) by (destruct t; auto).
  exists (steps_needed (key_ops t Hi Hs) g). intros n Hn.
  destruct (t_validate _ (t_key_laws t Hi Hs K) (t_key_bounds t Hi Hs H) n (GFlags true false false) g G Hn) as (log & E & V).
  exists log. split; [exact E|]. cbn [f_acyclic f_rooted f_single] in V. rewrite V. split; [intros (A & _); auto|].
  intros A. split; [auto|]. split; [discriminate|]. split; discriminate.
Qed.
Print Assumptions C15_acyclic_only.

(** C16: Validate reports nothing exactly if: (acyclic) there is no cycle; (rooted) no root has an
    incoming edge, every source is a root and every node of an edge can be reached from a root; (single
    root) there is exactly one source; (rooted and single root) there is exactly one root. *)
Theorem C16_validate_exact : forall t Hi Hs, is_node t = true -> forall (g : graph (key t)),
  is_graph (key_ops t Hi Hs) g ->
  exists steps, forall n f, steps <= n ->
    exists log, g_validate (key_ops t Hi Hs) n f g = Some log /\
      (log = [] <-> (f_acyclic f = true -> ~ cyclic g) /\ (f_rooted f = true -> well_rooted g) /\
         (f_single f = true -> exactly_one (source g)) /\
         (f_rooted f = true -> f_single f = true -> exactly_one (fun r => In r (g_roots g)))).
Proof.
  intros t Hi Hs H g G. assert (K : is_key t = true) by (destruct t; auto).
  exists (steps_needed (key_ops t Hi Hs) g). intros n f Hn.
  exact (t_validate _ (t_key_laws t Hi Hs K) (t_key_bounds t Hi Hs H) n f g G Hn).
Qed.
Print Assumptions C16_validate_exact.

(** C16: which error is reported for what. *)
Theorem C16_error_ids : forall t Hi Hs, is_node t = true -> forall (g : graph (key t)),
  is_graph (key_ops t Hi Hs) g ->
  exists steps, forall n acyclic single, steps <= n ->
    exists log, g_validate (key_ops t Hi Hs) n (GFlags acyclic true single) g = Some log /\
      (In InvalidObject log <-> exists r, In r (g_roots g) /\ incoming g r) /\
      (In MissingObject log <-> exists a, source g a /\ ~ In a (g_roots g)) /\
      (In InvalidCount log <-> single = true /\ (~ exactly_one (source g) \/ ~ exactly_one (fun r => In r (g_roots g)))) /\
      (In InvalidSetup log <->
         (exists b, incoming g b /\ forall r, In r (g_roots g) -> ~ reaches g r b) \/ acyclic = true /\ cyclic g).
Proof.
  intros t Hi Hs H g G. assert (K : is_key t = true) by (destruct t; auto).
  exists (steps_needed (key_ops t Hi Hs) g). intros n acyclic single Hn.
  exact (t_rooted_ids _ (t_key_laws t Hi Hs K) (t_key_bounds t Hi Hs H) n single acyclic g G Hn).
Qed.
Print Assumptions C16_error_ids.

(** A small graph type for the examples: nodes are u8. *)
Definition u8_ops : keyops (key (TUInt I8)) := key_ops (TUInt I8) eq_refl eq_refl.
Definition u8 (b : byte) : key (TUInt I8) := exist _ (VP [b]) eq_refl.

(** C16, finding: "the roots are exactly the sources" is not what is validated: a root without any edge
    is accepted, even in a graph flagged rooted and acyclic. *)
Theorem C16_isolated_root_refuted :
  let g := g_run u8_ops [AddRoot (u8 x07); AddRoot (u8 x01); AddEdge (u8 x01) (u8 x02)] in
  g_validate u8_ops 100 (GFlags true true false) g = Some [] /\
  In (u8 x07) (g_roots g) /\ ~ source g (u8 x07).
Proof.
  cbn zeta. split; [vm_compute; reflexivity|]. split; [vm_compute; tauto|].
  intros [[b Hb] _]. vm_compute in Hb. destruct Hb as [Hb|[]]. discriminate.
Qed.
Print Assumptions C16_isolated_root_refuted.

(** C17: the edges and roots are sets: after any history of changes exactly those are present that were
    inserted and not removed since; HasEdge finds exactly the edges. *)
Theorem C17_sets : forall t Hi Hs, is_node t = true -> forall (h : list (gop (key t))),
  let g := g_run (key_ops t Hi Hs) h in
  is_graph (key_ops t Hi Hs) g /\ NoDup (g_edges g) /\ NoDup (g_roots g) /\
  (forall a b, has_edge (key_ops t Hi Hs) a b g = true <-> has_edge_after h a b) /\
  (forall a b, edge g a b <-> has_edge_after h a b) /\
  (forall a, In a (g_roots g) <-> has_root_after h a).
Proof.
  intros t Hi Hs H h g. assert (K : is_key t = true) by (destruct t; auto). pose proof (t_key_laws t Hi Hs K) as KL.
  destruct (run_ok _ KL h) as (G & E & R). split; [exact G|].
  split; [exact (StdSetFacts.sorted_nodup _ (StdSetFacts.pair_lt_order _ (proj1 KL)) _ (proj2 G))|].
  split; [exact (StdSetFacts.sorted_nodup _ (proj1 KL) _ (proj1 G))|].
  split; [intros a b; rewrite (has_edge_iff _ KL); apply E|]. split; [exact E|exact R].
Qed.
Print Assumptions C17_sets.

(** C17: Equals of two objects is equality of the two sets; an object equals itself, and null only
    null. *)
Theorem C17_equals : forall t Hi Hs, is_node t = true -> forall (l r : graph (key t)),
  is_graph (key_ops t Hi Hs) l -> is_graph (key_ops t Hi Hs) r ->
  (g_equals (key_ops t Hi Hs) false (Some l) (Some r) = true <->
   (forall a, In a (g_roots l) <-> In a (g_roots r)) /\ (forall a b, edge l a b <-> edge r a b)) /\
  g_equals (key_ops t Hi Hs) true (Some l) (Some l) = true /\
  g_equals (key_ops t Hi Hs) true None None = true /\
  g_equals (key_ops t Hi Hs) false None (Some r) = false /\ g_equals (key_ops t Hi Hs) false (Some l) None = false.
Proof.
  intros t Hi Hs H l r Gl Gr. assert (K : is_key t = true) by (destruct t; auto).
  split; [exact (t_equals _ (t_key_laws t Hi Hs K) l r Gl Gr)|]. auto.
Qed.
Print Assumptions C17_equals.

(** C17: DeepCopy gives the same sets whatever the destination held, so an equal graph; a null source
    gives the empty graph. *)
Theorem C17_deep_copy : forall t Hi Hs, is_node t = true -> forall (d s : graph (key t)),
  is_graph (key_ops t Hi Hs) s ->
  let c := g_deep_copy (key_ops t Hi Hs) d (Some s) in
  (forall a, In a (g_roots c) <-> In a (g_roots s)) /\ (forall a b, edge c a b <-> edge s a b) /\
  g_equals (key_ops t Hi Hs) false (Some c) (Some s) = true /\
  g_deep_copy (key_ops t Hi Hs) d None = g_empty.
Proof.
  intros t Hi Hs H d s G c. assert (K : is_key t = true) by (destruct t; auto). pose proof (t_key_laws t Hi Hs K) as KL.
  assert (E : c = s) by exact (copy_eq _ KL d s G). rewrite E.
  split; [reflexivity|]. split; [reflexivity|]. split; [apply (equals_eq _ KL); reflexivity|reflexivity].
Qed.
Print Assumptions C17_deep_copy.

(** C17: GetSuccessors returns exactly the edges of the node, except an edge to the largest value of the
    node type. *)
Theorem C17_get_successors : forall t Hi Hs, is_node t = true -> forall (g : graph (key t)) a p,
  is_graph (key_ops t Hi Hs) g ->
  (In p (get_successors (key_ops t Hi Hs) a g) <-> exists b, p = (a, b) /\ edge g a b /\ proj1_sig b <> key_sup t).
Proof.
  intros t Hi Hs H g a p G. assert (K : is_key t = true) by (destruct t; auto).
  rewrite (t_successors _ (t_key_laws t Hi Hs K) (t_key_bounds t Hi Hs H) g a p G).
  split; intros (b & E & Hb & N); exists b; split; auto; split; auto; intros X; apply N.
  - apply (key_ext t). exact X.
  - rewrite X. reflexivity.
Qed.
Print Assumptions C17_get_successors.

(** C17, finding: GetSuccessors misses a successor with the largest value of the type. *)
Theorem C17_get_successors_sup_refuted :
  let g := g_run u8_ops [AddEdge (u8 x01) (u8 xff); AddEdge (u8 x01) (u8 x02)] in
  has_edge u8_ops (u8 x01) (u8 xff) g = true /\ get_successors u8_ops (u8 x01) g = [(u8 x01, u8 x02)].
Proof. split; vm_compute; reflexivity. Qed.
Print Assumptions C17_get_successors_sup_refuted.

(** C18: Write succeeds and Read, into any graph and with anything behind in the stream, gives back the
    same graph and ends behind it. *)
Theorem C18_roundtrip : forall t Hi Hs, is_node t = true -> forall (g : graph (key t)) init lim fl,
  is_graph (key_ops t Hi Hs) g -> graph_fits g ->
  room init lim (len (nodes_bytes fl (graph_doc (key_ops t Hi Hs) g))) ->
  exists s0 st, fresh init lim fl = Done s0 /\ g_write (key_ops t Hi Hs) 0%N g (w_open s0) = Done (true, st) /\
    ws_data (w_stream st) = nodes_bytes fl (graph_doc (key_ops t Hi Hs) g) /\
    forall e d post, read_room e (ws_pos (w_stream st)) (ws_pos (w_stream st) + len post)%N ->
      exists st', g_read (key_ops t Hi Hs) e 0%N d (r_open (RS (ws_data (w_stream st) ++ post) 0%N fl)) = Done (true, g, st') /\
        r_stream st' = RS (ws_data (w_stream st) ++ post) (ws_pos (w_stream st)) fl.
Proof.
  intros t Hi Hs H g init lim fl. assert (K : is_key t = true) by (destruct t; auto).
  exact (t_g_roundtrip _ (t_key_laws t Hi Hs K) g init lim fl).
Qed.
Print Assumptions C18_roundtrip.

(** The hypotheses are met: a diamond with one root is valid, with an edge back it is not. *)
Definition diamond : graph (key (TUInt I8)) := g_run u8_ops
  [AddRoot (u8 x01); AddEdge (u8 x03) (u8 x04); AddEdge (u8 x02) (u8 x04); AddEdge (u8 x01) (u8 x03); AddEdge (u8 x01) (u8 x02)].
Example graph_example : is_graph u8_ops diamond /\ graph_fits diamond /\
  g_validate u8_ops 100 (GFlags true true true) diamond = Some [] /\
  g_validate u8_ops 100 (GFlags true true true) (insert_edge u8_ops (u8 x04) (u8 x02) diamond) = Some [InvalidSetup] /\
  room 64%N 1000%N (len (nodes_bytes false (graph_doc u8_ops diamond))).
Proof.
  split; [apply (run_ok u8_ops (t_key_laws (TUInt I8) eq_refl eq_refl eq_refl))|].
  split; [split; vm_compute; reflexivity|]. split; [vm_compute; reflexivity|]. split; [vm_compute; reflexivity|].
  unfold room. repeat split; vm_compute; congruence.
Qed.
