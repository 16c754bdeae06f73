(** * The checks in the graph validation always hold. *)
From Coq Require Import Sorting.Sorted.
From Verif Require Import Base Types Keys KeySpec StdSet StdSetFacts Graph Validator GraphSpec GraphFacts Debug.
Local Open Scope nat_scope.

Section G.
Context {K : Type} (Ko : keyops K) (KL : key_laws Ko) (KB : key_bounds Ko).
Notation lt := (k_lt Ko).
Notation LT := (proj1 KL).
Context (edges : list (K * K)) (ES : is_set (pair_lt lt) edges).

Lemma out_first x p : In p (out_edges Ko edges x) -> k_eq Ko (fst p) x = true.
Proof.
  unfold out_edges.
  destruct (range_lower_upper _ (pair_lt_order _ LT) (x, k_inf Ko) (x, k_sup Ko) edges ES) as [_ ->].
  { unfold pair_lt; cbn. rewrite (lt_irr _ LT). cbn. apply KB. }
  intros Hf. destruct p as [a b]. apply filter_In in Hf. destruct Hf as [Hi Hf].
  apply andb_true_iff in Hf. destruct Hf as [H1 H2]. rewrite !negb_true_iff in *. unfold pair_lt in *. cbn in *.
  apply orb_false_iff in H1, H2. destruct H1 as [H1 _], H2 as [H2 _].
  apply (proj1 (proj2 KL)). symmetry. apply (lt_neither _ LT); assumption.
Qed.

Lemma d_scan_eq x on chk es : (forall p, In p es -> k_eq Ko (fst p) x = true) -> forall st,
  d_scan Ko x on chk es st = Done (scan_children Ko on chk (map snd es) st).
Proof.
  induction es as [|p es IH]; intros H st; [reflexivity|]. cbn [d_scan map scan_children].
  rewrite (H p (or_introl eq_refl)). unfold check. cbn zeta.
  destruct (negb (contains Ko chk (snd p))); [apply IH; intros q Hq; apply H; right; exact Hq|].
  destruct (contains Ko on (snd p)); [reflexivity|]. apply IH. intros q Hq. apply H. right. exact Hq.
Qed.
Lemma d_fresh_eq x re es : (forall p, In p es -> k_eq Ko (fst p) x = true) ->
  d_fresh Ko x re es = Done (filter (fun c => negb (contains Ko re c)) (map snd es)).
Proof.
  induction es as [|p es IH]; intros H; [reflexivity|]. cbn [d_fresh map filter].
  rewrite (H p (or_introl eq_refl)). unfold check. rewrite IH by (intros q Hq; apply H; right; exact Hq). reflexivity.
Qed.

Lemma d_dfs_eq n : forall st on chk, d_dfs Ko n edges st on chk = option_map Done (dfs Ko n edges st on chk).
Proof.
  induction n as [|n IH]; intros st on chk; destruct st as [|x st]; cbn [d_dfs dfs option_map]; try reflexivity.
  destruct (if negb (contains Ko chk x) then _ else _) as [[st1 on1] chk1].
  rewrite d_scan_eq by (intros p; apply out_first). change (map snd (out_edges Ko edges x)) with (downstream Ko edges x).
  destruct (scan_children Ko on1 chk1 (downstream Ko edges x) st1) as [cyc st2]. destruct cyc; [reflexivity|apply IH].
Qed.
Lemma d_loop_eq n todo : forall on chk, d_no_cycles_loop Ko n edges todo on chk = option_map Done (no_cycles_loop Ko n edges todo on chk).
Proof.
  induction todo as [|p todo IH]; intros on chk; cbn [d_no_cycles_loop no_cycles_loop option_map]; [reflexivity|].
  destruct (contains Ko chk (fst p)); [apply IH|]. rewrite d_dfs_eq.
  destruct (dfs Ko n edges [fst p] on chk) as [[[cyc on1] chk1]|]; cbn [option_map]; [|reflexivity].
  destruct cyc; [reflexivity|apply IH].
Qed.
Lemma d_bfs_eq n : forall q re, d_bfs Ko n edges q re = option_map Done (bfs Ko n edges q re).
Proof.
  induction n as [|n IH]; intros q re; destruct q as [|x q]; cbn [d_bfs bfs option_map]; try reflexivity.
  destruct (contains Ko re x); [apply IH|]. cbn zeta.
  rewrite d_fresh_eq by (intros p; apply out_first). change (map snd (out_edges Ko edges x)) with (downstream Ko edges x). apply IH.
Qed.
End G.

Lemma d_g_validate_eq {K} (Ko : keyops K) (KL : key_laws Ko) (KB : key_bounds Ko) n f (g : graph K) : is_graph Ko g ->
  d_g_validate Ko n f g = option_map Done (g_validate Ko n f g).
Proof.
  intros (_ & ES). unfold d_g_validate, g_validate, validate_rooted, validate_no_cycles.
  rewrite (d_bfs_eq Ko KL KB (g_edges g) ES), (d_loop_eq Ko KL KB (g_edges g) ES).
  destruct (f_rooted f).
  - destruct (bfs Ko n (g_edges g) (g_roots g) []) as [re|]; cbn [option_map bind]; [|reflexivity].
    destruct (f_acyclic f); [|reflexivity]. destruct (no_cycles_loop _ _ _ _ _ _) as [e6|]; reflexivity.
  - destruct (f_acyclic f); [|reflexivity]. destruct (no_cycles_loop _ _ _ _ _ _) as [e6|]; reflexivity.
Qed.
