(** * TestGraphsIO: proofs. *)
From Verif Require Import Base Bytes BytesFacts Types Keys KeySpec KeyFacts StdSet Graph GraphSpec GraphFacts GraphSets
  Streams StreamFacts EntityWriter EntityReader Items ItemSpec EntityProps Sections SectionFacts SectionReadFacts SectionTheorems Documents DocSpec CodecFacts
  TestGraphs TestGraphsSpec TestGraphsFacts TestGraphsProofs TestGraphsIO TestGraphsIOSpec.
Open Scope N_scope.

Lemma rw_ok {K} (Ko : keyops K) (KL : key_laws Ko) e trees st f c fl lim :
  let g := gen_forest Ko trees g_empty in
  let b := nodes_bytes fl (graph_doc Ko g) in
  graph_fits g -> wready 0 [] f st -> ws_at (w_stream st) c fl lim -> 2 * (len c + len b) <= lim -> lim < two64 -> 4 * len b <= e_lim e ->
  exists st', rw_test Ko e trees st = Done (true, st') /\ wready 0 [] f st' /\ ws_at (w_stream st') (c ++ b) fl lim.
Proof.
  intros g b GF WR WA LM L64 RL. assert (IG : is_graph Ko g) by (apply (forest_ok Ko KL trees g_empty), empty_ok).
  unfold rw_test. fold g. rewrite (ws_at_pos _ _ _ _ WA).
  destruct (g_writes Ko KL g GF 0 [] f st c fl lim WR WA LM) as (st1 & E1 & (P1 & P2 & P3)). fold b in P1. rewrite E1. cbn [bind negb].
  rewrite (ws_at_data _ _ _ _ P1). assert (FL : ws_flip (w_stream st1) = fl) by (destruct P1 as (_ & F & _); exact F). rewrite FL.
  set (rs := RS (c ++ b) (len c) fl).
  destruct (g_reads Ko KL g g_empty IG GF e 0 [] (rf_new 0 (rs_size rs)) (r_open rs) c [] fl (rready_open rs)) as (st2 & E2 & _).
  - unfold rs_at. rewrite app_nil_r. reflexivity.
  - exact RL.
  - rewrite len_nil. fold b. lia.
  - rewrite E2. cbn [bind negb]. exists st1. split; [|split; auto].
    + rewrite Nat.eqb_refl. rewrite (proj2 (all_equal_iff (pair_eq Ko) (pair_eq_iff Ko KL) (g_edges g) (g_edges g) eq_refl) eq_refl). reflexivity.
    + eapply wready_keep; eauto.
Qed.

Lemma rws_ok e : forall l st f c fl lim, Forall call_ok l -> wready 0 [] f st -> ws_at (w_stream st) c fl lim ->
  2 * (len c + len (flat_map (call_bytes fl) l)) <= lim -> lim < two64 -> 4 * len (flat_map (call_bytes fl) l) <= e_lim e ->
  exists st', rw_tests e l st = Done (true, st') /\ ws_at (w_stream st') (c ++ flat_map (call_bytes fl) l) fl lim.
Proof.
  induction l as [|a l IH]; intros st f c fl lim OK WR WA LM L64 RL.
  - exists st. cbn [flat_map]. rewrite app_nil_r. auto.
  - inversion OK as [|? ? [KT GF] OK']; subst. cbn [flat_map] in *. rewrite len_app in *.
    destruct (rw_ok (gc_ops a) (t_key_laws _ _ _ KT) e (gc_trees a) st f c fl lim GF WR WA) as (st1 & E1 & W1 & A1).
    + fold (call_graph a). fold (call_bytes fl a). lia.
    + exact L64.
    + fold (call_graph a). fold (call_bytes fl a). lia.
    + fold (call_graph a) in A1. fold (call_bytes fl a) in A1.
      destruct (IH st1 f (c ++ call_bytes fl a) fl lim OK' W1 A1) as (st2 & E2 & A2); auto.
      * rewrite len_app. lia.
      * lia.
      * exists st2. cbn [rw_tests]. rewrite E1. cbn [bind]. rewrite <- app_assoc in A2. auto.
Qed.

Lemma t_graph_serialize e l init lim fl : Forall call_ok l -> room init lim (len (flat_map (call_bytes fl) l)) ->
  4 * len (flat_map (call_bytes fl) l) <= e_lim e ->
  exists s0 st, fresh init lim fl = Done s0 /\ rw_tests e l (w_open s0) = Done (true, st) /\ ws_data (w_stream st) = flat_map (call_bytes fl) l.
Proof.
  intros OK (R1 & R2 & R3 & R4) RL. destruct (fresh_at init lim fl R1 R2 R3) as (s0 & E0 & H0).
  destruct (rws_ok e l (w_open s0) (wf_new 0 s0) [] fl lim OK (wready_open s0) H0) as (st & E & A); try assumption.
  exists s0, st. split; auto. split; auto. exact (ws_at_data _ _ _ _ A).
Qed.
