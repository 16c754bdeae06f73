(** * C58: the project's own tests succeed for every outcome of the random generator and every schedule. *)
From Coq Require Import Strings.String.
From Verif Require Import Base Bytes Values KeySpec StdSet ThreadMap ThreadMapSpec ThreadMapFacts TestThreads TestThreadsFacts
  Streams FileSpec Types Format EntityWriter EntityReader Items ItemSpec EntityProps Sections Documents DocSpec Damage
  TestSections TestSectionsSpec TestSectionsFacts TestFuzz TestFuzzFacts Keys KeyFacts Graph Validator GraphSpec TestGraphs TestGraphsSpec TestGraphsFacts TestGraphsProofs
  TestGraphsIO TestGraphsIOSpec TestGraphsIOFacts TestValues TestValuesSpec TestValuesFacts TestStream TestStreamSpec TestStreamFacts.
Open Scope N_scope.

(** C58, the system test of thread_safe_map: for every number of threads up to 2^16, whatever rand() returns and however the
    threads are scheduled (and no allocation fails), every find gets the text that belongs to its key, and when all threads are
    finished the map is empty; until then some thread can move. *)
Theorem C58_thread_test : forall (V : Type) (dflt : V) (text : N -> V) (draws : list (list N * list N)) (sch : list (nat * bool)),
  N.of_nat (length draws) <= 2^16 -> Forall (fun d => fst d <> []) draws -> Forall (fun x => snd x = false) sch ->
  let s := mrun N.ltb dflt (mstart (test_threads text draws)) sch in
  (forall t i k r, In (ERet t i (MFind k) r) (m_hist s) -> r = RFind (text k) true) /\
  ((forall t, m_pc s t = PIdle /\ m_prog s t = []) -> m_data s = []) /\
  ((exists t, m_pc s t <> PIdle \/ m_prog s t <> []) -> exists t s', mstep N.ltb dflt s t false = Some s').
Proof.
  intros V dflt text draws sch HN HD HS s. destruct (t_thread_test text dflt draws sch HN HD HS) as (A & B).
  split; [exact A|]. split; [exact B|]. exact (t_progress N.ltb uint_order dflt (test_threads text draws) sch).
Qed.
Print Assumptions C58_thread_test.

(** C58, the test of section hierarchies: whatever object SetupRandom makes, of any depth, and in both byte orders, Write
    succeeds with the bytes of the documented layout, and Read (with a stack that is deep enough) makes the same object. *)
Theorem C58_sections_test : forall f o init lim fl, obj_ok f o -> room init lim (len (nodes_bytes fl (doc f o))) ->
  exists s0 st, fresh init lim fl = Done s0 /\ write f 0 o (w_open s0) = Done (true, st) /\
    ws_data (w_stream st) = nodes_bytes fl (doc f o) /\
    forall e d post, (depth o <= d)%nat -> read_room e (ws_pos (w_stream st)) (ws_pos (w_stream st) + len post) ->
      exists st', read f d e 0 (r_open (RS (ws_data (w_stream st) ++ post) 0 fl)) = Done (true, o, st') /\
        r_stream st' = RS (ws_data (w_stream st) ++ post) (ws_pos (w_stream st)) fl.
Proof. exact t_sections_test. Qed.
Print Assumptions C58_sections_test.
(** ... and the final comparison of the test succeeds, unless a matrix has a NaN in it. *)
Theorem C58_sections_compare : forall f o, obj_ok f o -> no_nan f o -> compare f o o = true.
Proof. intros f. exact (proj1 (compare_self f)). Qed.
Print Assumptions C58_sections_compare.

(** C58, the fuzz test: on every file and with any number of rounds there is no undefined behaviour, the file is not changed,
    and the only possible exception is that of a "dv" or "ds" block with damaged sizes (or of too little memory). *)
Theorem C58_fuzz_test : forall e file flip vs, len file < 2^62 -> e_lim e < 2^60 -> Forall (fun v => len v = 4) vs ->
  match fuzz_pass e file flip vs with
  | Done (_, s') => exists p, p <= len file /\ s' = RS file p flip
  | Throw => e_lim e < 4 * len file \/ exists p, p <= len file /\
      (size_damage flip p (TInt I8) (CVec []) (list_byte_of_string "dv") (drop p file) \/
       size_damage flip p TString (CV (VS [])) (list_byte_of_string "ds") (drop p file))
  | Undef => False
  end.
Proof. exact t_fuzz. Qed.
Print Assumptions C58_fuzz_test.

(** C58, finding: the name of the test (expect_no_exceptions) is not true of every file: with 2^39 bytes of memory this one of
    10000 bytes makes the first round throw. *)
Definition bad_file : list byte :=
  encode false (TInt I32) (list_byte_of_string "i") (CV (VP [x07; x00; x00; x00])) ++
  encode false (TInt I8) (list_byte_of_string "dv") (CVec [VP [x01]; VP [x02]]) ++
  n2b 0xe0 :: num W64 false 4 ++ n2b 2 :: list_byte_of_string "ds" ++ num W64 false (2^40).
Theorem C58_fuzz_exception_refuted : forall vs,
  len (bad_file ++ rep x00 9949) = 10000 /\
  fuzz_pass (RE (2^39) (fun _ => x00)) (bad_file ++ rep x00 9949) false ([x00; x00; x00; x00] :: vs) = Throw.
Proof. intros vs. split; vm_compute; reflexivity. Qed.
Print Assumptions C58_fuzz_exception_refuted.

(** C58, the tests of DirectedGraph: for every node type, every tree the generator can make (up to 2^20 nodes, all of them
    different) and every number of steps from some point on (the searches end), all assertions of the tests hold. In the
    acyclic test the three nodes of the cycle can be any; in the others the added nodes are new, as said for each. *)
Theorem C58_graph_tests : forall t Hi Hs, is_node t = true ->
  let Ko := key_ops t Hi Hs in
  (forall edges, exists N, forall n, (N <= n)%nat -> basic_test Ko n edges = Some true) /\
  (forall a b, exists N, forall n, (N <= n)%nat -> duplicate_test Ko n a b = Some true) /\
  (forall k0 k1 k2 root rounds, NoDup (root :: tree_nodes 3 rounds) -> len (tree_nodes 3 rounds) <= 2^20 ->
     exists N, forall n, (N <= n)%nat -> acyclic_test Ko n k0 k1 k2 root rounds = Some true) /\
  (forall root rounds a b, NoDup (root :: tree_nodes 2 rounds) -> rounds <> [] -> len (tree_nodes 2 rounds) <= 2^20 ->
     ~ In a (root :: tree_nodes 2 rounds) -> a <> b -> b <> root ->
     exists N, forall n, (N <= n)%nat -> single_root_test Ko n root rounds a b = Some true) /\
  (forall trees, NoDup (forest_all 2 trees) -> trees <> [] -> (forall t, In t trees -> snd t <> []) -> len (forest_all 2 trees) <= 2^20 ->
     exists N, forall n, (N <= n)%nat -> rooted_test Ko n trees = Some true) /\
  (forall root leaf x y rounds, NoDup (root :: tree_nodes 3 rounds ++ [leaf]) -> rounds <> [] -> len (tree_nodes 3 rounds) <= 2^20 ->
     ~ In x (root :: tree_nodes 3 rounds ++ [leaf]) -> ~ In y (root :: tree_nodes 3 rounds ++ [leaf]) -> x <> y ->
     exists N, forall n, (N <= n)%nat -> scene_graph_test Ko n root leaf x y rounds = Some true).
Proof.
  intros t Hi Hs H Ko. assert (K : is_key t = true) by (destruct t; auto).
  pose proof (t_key_laws t Hi Hs K) as KL. pose proof (t_key_bounds t Hi Hs H) as KB.
  split; [exact (t_basic Ko KL KB)|]. split; [exact (t_duplicate Ko KL KB)|]. split; [exact (t_acyclic_test Ko KL KB)|].
  split; [exact (t_single_root_test Ko KL KB)|]. split; [exact (t_rooted_test Ko KL KB)|exact (t_scene_graph_test Ko KL KB)].
Qed.
Print Assumptions C58_graph_tests.
(** C58, the serialization test of DirectedGraph: whatever forests are made, also with the same node drawn twice, for any
    node types one after another on one writer, every graph is written, read back from where it begins, and equal. *)
Theorem C58_graph_serialize : forall e l init lim fl, Forall call_ok l -> room init lim (len (flat_map (call_bytes fl) l)) ->
  4 * len (flat_map (call_bytes fl) l) <= e_lim e ->
  exists s0 st, fresh init lim fl = Done s0 /\ rw_tests e l (w_open s0) = Done (true, st) /\ ws_data (w_stream st) = flat_map (call_bytes fl) l.
Proof. exact t_graph_serialize. Qed.
Print Assumptions C58_graph_serialize.
(** The added nodes do have to be new: if the second node is the root of the tree, the single-root test fails, and so does the
    scene graph test if the two new roots are the same node. *)
Definition u8o : keyops (key (TUInt I8)) := key_ops (TUInt I8) eq_refl eq_refl.
Definition k8 (b : byte) : key (TUInt I8) := exist _ (VP [b]) eq_refl.
Definition rounds0 : list (draw (key (TUInt I8))) :=
  [Draw (k8 x05) [Draw (k8 x02) []; Draw (k8 x09) [Draw (k8 x03) []]]; Draw (k8 x07) []].
Theorem C58_graph_distinct_refuted :
  single_root_test u8o 100 (k8 x06) rounds0 (k8 x0a) (k8 x06) = Some false /\
  scene_graph_test u8o 200 (k8 x06) (k8 x0a) (k8 x0b) (k8 x0b) rounds0 = Some false.
Proof. split; vm_compute; reflexivity. Qed.
Print Assumptions C58_graph_distinct_refuted.

(** C58, the test of EntityWriter and EntityReader: whatever values the generators deliver and in whatever passes, every write
    and every read succeeds and the test passes exactly if no value contains a NaN; one pass writes the documented blocks. *)
Theorem C58_value_test : forall e init lim passes,
  (forall j ds, nth_error passes j = Some ds -> let l := combine test_types ds in let fl := Nat.odd j in
     Forall (fun x => draws_ok (fst x) (snd x)) l /\ room init lim (len (calls_bytes fl l)) /\ 4 * len (calls_bytes fl l) <= e_lim e) ->
  exists ok, values_test e init lim 0 passes = Done ok /\
    (ok = true <-> Forall (fun ds => Forall (fun x => draws_clean (fst x) (snd x)) (combine test_types ds)) passes).
Proof. intros e init lim passes H. exact (t_values_test e init lim passes 0 H). Qed.
Print Assumptions C58_value_test.
Theorem C58_value_pass : forall e init lim i ds, let l := combine test_types ds in let fl := Nat.odd i in
  Forall (fun x => draws_ok (fst x) (snd x)) l -> room init lim (len (calls_bytes fl l)) -> 4 * len (calls_bytes fl l) <= e_lim e ->
  exists ok st, value_pass e init lim i ds = Done (ok, st) /\ (ok = true <-> Forall (fun x => draws_clean (fst x) (snd x)) l) /\
    (ok = true -> ws_data (w_stream st) = calls_bytes fl l).
Proof. exact t_value_pass. Qed.
Print Assumptions C58_value_pass.
(** C58, findings: this test covers every type except the two quaternions; and whatever indices are drawn, the indexed arrays
    written have an empty index (the generator fills a copy of the index), so no index is ever written or read. *)
Theorem C58_value_coverage : (forall t, In t test_types <-> ~ (exists f, t = TQuat f)) /\
  (forall d, snd (random_idx d) = []) /\
  (forall fl t d, exists p, draws_bytes fl t d = p ++ encode fl t (test_key d) (CIdx (fst (d_idx d)) []) ++
     encode fl t (test_key d) (COptIdx (option_map (fun x => (fst x, [])) (d_optidx d)))).
Proof. exact t_value_coverage. Qed.
Print Assumptions C58_value_coverage.

(** C58, the test of the memory streams: for all values in the range of their types and every order of item types, written
    and read in either byte order, the test passes exactly if no float that is written is a NaN. *)
Theorem C58_stream_test : forall init lim passes, 0 < init -> init <= lim -> lim < two64 ->
  Forall (fun p => svalues_ok (fst p) /\ order_ok (snd p) /\ 2 * order_size (snd p) <= lim) passes ->
  exists ok, stream_test init lim 0 passes = Done ok /\ (ok = true <-> Forall (fun p => floats_ok (fst p) (snd p)) passes).
Proof. intros init lim passes H1 H2 H3. exact (t_stream_test init lim H1 H2 H3 passes 0). Qed.
Print Assumptions C58_stream_test.

(** A concrete case of each. Two threads, one with a number drawn twice. *)
Definition draws0 : list (list N * list N) := [([5; 7; 5], [1; 2]); ([5], [0; 4; 9])].
Example C58_thread_example :
  let s := mrun N.ltb 0 (mstart (test_threads (fun k => k + 100) draws0)) (flat_map (fun _ => [(1%nat, false); (0%nat, false)]) (seq 0 200)) in
  N.of_nat (length draws0) <= 2^16 /\ Forall (fun d => fst d <> []) draws0 /\
  (forall t, m_pc s t = PIdle /\ m_prog s t = []) /\
  In (ERet 0 7 (MFind (7 * 65536)) (RFind (7 * 65536 + 100) true)) (m_hist s) /\ length (m_hist s) = 26%nat.
Proof.
  cbv zeta. split; [vm_compute; discriminate|]. split; [repeat constructor; discriminate|]. split; [|split; [vm_compute; tauto|vm_compute; reflexivity]].
  intros [|[|t]]; split; try (vm_compute; reflexivity). destruct t; vm_compute; reflexivity.
Qed.
(** An object with an object inside, and in an indexed array, one of them absent. *)
Definition tf1 : list byte := [x00; x00; x80; x3f] ++ rep x00 60.
Definition leaf : sobj := SObj (Some [x61]) tf1 ONull VNil ANone.
Definition tree : sobj := SObj None tf1 (OSome leaf) (VCons ONull (VCons (OSome leaf) VNil)) (ASome [1; 0; 1] (VCons (OSome leaf) VNil)).
Example C58_sections_example : obj_ok F32 tree /\ no_nan F32 tree /\ depth tree = 2%nat /\ count tree = 4 /\
  room 64 100000 (len (nodes_bytes true (doc F32 tree))) /\
  exists s0 st st', fresh 64 100000 true = Done s0 /\ write F32 0 tree (w_open s0) = Done (true, st) /\
    read F32 2 (RE 100000 (fun _ => x00)) 0 (r_open (RS (ws_data (w_stream st)) 0 true)) = Done (true, tree, st').
Proof.
  assert (T : val_ok (TMat D4 F32) (VP tf1)) by (vm_compute; reflexivity).
  assert (L : obj_ok F32 leaf) by (split; [vm_compute; reflexivity|repeat split; exact T]).
  assert (C : ValueEqSpec.clean (TMat D4 F32) (VP tf1)).
  { intros i Hi. assert (Hi' : i < 16) by exact Hi. clear Hi. intros (N1 & N2). revert N1. 
    assert (X : In i [0;1;2;3;4;5;6;7;8;9;10;11;12;13;14;15]) by (cbn; lia). cbn in X.
    repeat (destruct X as [<-|X]; [vm_compute; discriminate|]). destruct X. }
  split; [split; [exact Logic.I|split; [exact T|split; [exact L|split; [split; [exact Logic.I|split; [exact L|exact Logic.I]]|split; [repeat constructor; vm_compute; reflexivity|split; [exact L|exact Logic.I]]]]]]|].
  split; [repeat split; exact C|]. split; [reflexivity|]. split; [reflexivity|]. split; [repeat split; vm_compute; congruence|].
  eexists _, _, _. split; [vm_compute; reflexivity|]. split; [vm_compute; reflexivity|]. vm_compute. reflexivity.
Qed.
(** The fuzz test does not throw on every file. *)
Example C58_fuzz_example : exists r p, fuzz_pass (RE 1000 (fun _ => x00)) (repeat x07 50) true [[x00; x00; x00; x00]; [x01; x00; x00; x00]] = Done (r, RS (repeat x07 50) p true).
Proof. eexists _, _. vm_compute. reflexivity. Qed.
(** The tests of graphs on a small tree; a forest of two trees. *)
Example C58_graphs_example :
  NoDup (k8 x06 :: tree_nodes 3 rounds0 ++ [k8 x0a]) /\ len (tree_nodes 3 rounds0) = 5 /\
  acyclic_test u8o 200 (k8 x00) (k8 x01) (k8 x02) (k8 x06) rounds0 = Some true /\
  single_root_test u8o 200 (k8 x06) rounds0 (k8 x0a) (k8 x0b) = Some true /\
  NoDup (forest_all 2 [(k8 x20, [Draw (k8 x21) []]); (k8 x06, rounds0)]) /\
  rooted_test u8o 200 [(k8 x20, [Draw (k8 x21) []]); (k8 x06, rounds0)] = Some true /\
  scene_graph_test u8o 300 (k8 x06) (k8 x0a) (k8 x0b) (k8 x0c) rounds0 = Some true.
Proof.
  split; [repeat constructor; cbn; intros H; repeat (destruct H as [H|H]; [discriminate H|]); destruct H|].
  split; [reflexivity|]. split; [vm_compute; reflexivity|]. split; [vm_compute; reflexivity|].
  split; [repeat constructor; cbn; intros H; repeat (destruct H as [H|H]; [discriminate H|]); destruct H|].
  split; vm_compute; reflexivity.
Qed.
Definition call0 : gcall := GCall (TUInt I8) eq_refl eq_refl [(k8 x20, [Draw (k8 x21) []]); (k8 x06, rounds0)].
Example C58_graph_serialize_example : Forall call_ok [call0; call0] /\
  room 64 1000 (len (flat_map (call_bytes true) [call0; call0])) /\ g_edges (call_graph call0) <> [].
Proof.
  split; [repeat constructor; vm_compute; reflexivity|]. split; [repeat split; vm_compute; congruence|]. vm_compute. discriminate.
Qed.
(** One pass whose first six types have values, among them a string of bits for a float; and a NaN. *)
Definition d8 (v : val) : draws := Draws v (Some v) [v; v] (Some [v]) ([v], [0]) (Some ([v; v], [1; 0])) 17 v.
Definition pass0 (x : byte) : list draws :=
  [d8 (VB true); d8 (VP [x05]); d8 (VP [x05; x06]); d8 (VP [x05; x06; x07; x08]); d8 (VP (rep x05 8)); d8 (VP [x09]); d8 (VP [x05; x06]);
   d8 (VP (rep x05 4)); d8 (VP (rep x05 8)); d8 (VP [x01; x00; x80; x])].
Lemma vps_ok (P : val -> Prop) v : P v -> Forall P [v] /\ Forall P [v; v].
Proof. intros. repeat constructor; auto. Qed.
Example C58_value_example :
  Forall (fun x => draws_ok (fst x) (snd x)) (combine test_types (pass0 x3f)) /\
  Forall (fun x => draws_ok (fst x) (snd x)) (combine test_types (pass0 x7f)) /\
  room 64 100000 (len (calls_bytes true (combine test_types (pass0 x7f)))) /\
  values_test (RE 100000 (fun _ => x00)) 64 100000 0 [pass0 x3f; pass0 x3f] = Done true /\
  values_test (RE 100000 (fun _ => x00)) 64 100000 0 [pass0 x3f; pass0 x7f] = Done false.
Proof.
  assert (Q : forall t v, val_ok t v -> draws_ok t (d8 v)).
  { intros t v H. destruct (vps_ok _ v H) as [H1 H2]. repeat split; try exact H; try exact H1; try exact H2. }
  split; [repeat (constructor; [apply Q; vm_compute; try exact Logic.I; reflexivity|]); constructor|].
  split; [repeat (constructor; [apply Q; vm_compute; try exact Logic.I; reflexivity|]); constructor|].
  split; [repeat split; vm_compute; congruence|].
  split; vm_compute; reflexivity.
Qed.
Definition sval0 : svalues := SValues 200 0x1234 0x12345678 0x123456789abcdef0 0x7fc00000 0x3ff0000000000000 (1, 2, 3, rep x07 8) (rep x09 32).
Example C58_stream_example : svalues_ok sval0 /\ order_ok [0; 7; 6; 3; 5; 2; 1; 4; 0] /\ 2 * order_size [0; 7; 6; 3; 5; 2; 1; 4; 0] <= 1000 /\
  stream_test 16 1000 0 [(sval0, [0; 7; 6; 3; 5; 2; 1; 0]); (sval0, [0; 7; 6; 3; 5; 2; 1; 0])] = Done true /\
  stream_test 16 1000 0 [(sval0, [0; 7; 6; 3; 5; 2; 1; 0]); (sval0, [0; 4])] = Done false.
Proof.
  split; [repeat split; vm_compute; reflexivity|]. split; [repeat constructor; vm_compute; reflexivity|]. split; [vm_compute; discriminate|].
  split; vm_compute; reflexivity.
Qed.
