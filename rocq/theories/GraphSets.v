(** * The graph as a pair of sets, and its serialization. Proofs. *)
From Coq Require Import Sorting.Sorted.
From Verif Require Import Base Bytes BytesFacts Types Format ItemSpec Keys KeySpec StdSet StdSetFacts Graph GraphSpec GraphFacts
  Streams EntityWriter EntityReader Items Sections Documents DocSpec CodecFacts.
Local Open Scope nat_scope.

Lemma replaced_nil t : replaced t (CVec []).
Proof. destruct t; exact I || reflexivity. Qed.

Section G.
Context {K : Type} (Ko : keyops K) (KL : key_laws Ko).
Notation lt := (k_lt Ko).
Notation plt := (pair_lt (k_lt Ko)).
Let LT : strict_total_order lt := proj1 KL.
Let PLT : strict_total_order plt := pair_lt_order lt LT.

Lemma erase_sorted {A} (l0 : A -> A -> bool) x l : is_set l0 l -> is_set l0 (set_erase l0 x l).
Proof.
  unfold is_set, set_erase. induction 1 as [|a l H IH F]; cbn; [constructor|]. destruct (negb _); auto. constructor; auto.
  rewrite Forall_forall in *. intros y Hy. apply filter_In in Hy. apply F. tauto.
Qed.

Lemma run_ok (h : list (gop K)) : is_graph Ko (g_run Ko h) /\
  (forall a b, edge (g_run Ko h) a b <-> has_edge_after h a b) /\ (forall a, In a (g_roots (g_run Ko h)) <-> has_root_after h a).
Proof.
  induction h as [|o h (IG & IE & IR)].
  - split; [split; constructor|]. split; intros; cbn; tauto.
  - cbn [g_run fold_right]. fold (g_run Ko h). set (g := g_run Ko h) in *. destruct IG as [GR GE].
    destruct o; cbn [g_apply has_edge_after has_root_after]; unfold insert_edge, insert_root, g_clear, edge in *; cbn [g_roots g_edges].
    + split; [split; auto; apply (insert_sorted plt PLT); auto|]. split; auto. intros x y. rewrite (insert_in plt PLT), IE.
      split; [intros [H|H]; auto; inversion H; auto|intros [[-> ->]|H]; auto].
    + split; [split; auto; apply (insert_sorted lt LT); auto|]. split; auto. intros x. rewrite (insert_in lt LT), IR. tauto.
    + split; [split; auto; apply erase_sorted; auto|]. split; auto. intros x y. rewrite (erase_in plt PLT), IE.
      split; [intros [H1 H2]; split; auto; intros [-> ->]; auto|intros [H1 H2]; split; auto; intros H; inversion H; auto].
    + split; [split; auto; apply erase_sorted; auto|]. split; auto. intros x. rewrite (erase_in lt LT), IR. tauto.
    + split; [split; constructor|]. cbn. split; intros; tauto.
Qed.

Lemma has_edge_iff g a b : has_edge Ko a b g = true <-> edge g a b.
Proof. apply (mem_iff plt PLT). Qed.

Lemma pair_eq_iff (p q : K * K) : pair_eq Ko p q = true <-> p = q.
Proof.
  unfold pair_eq. rewrite andb_true_iff, !(proj1 (proj2 KL)). destruct p, q; cbn. split; [intros [-> ->]; auto|intros H; inversion H; auto].
Qed.
Lemma all_equal_iff {A} (eq : A -> A -> bool) (E : forall a b, eq a b = true <-> a = b) : forall l r,
  length l = length r -> (all_equal eq l r = true <-> l = r).
Proof.
  induction l as [|a l IH]; intros [|b r] H; cbn in *; try discriminate; [tauto|].
  destruct (eq a b) eqn:Eab.
  - apply E in Eab. subst. rewrite IH by lia. split; congruence.
  - split; [discriminate|]. intros H1. inversion H1; subst. assert (eq b b = true) by (apply E; auto). congruence.
Qed.
Lemma equals_eq l r : g_equals Ko false (Some l) (Some r) = true <-> l = r.
Proof.
  destruct l as [lr le], r as [rr re]. unfold g_equals. cbn [g_roots g_edges].
  destruct (Nat.eqb_spec (length lr) (length rr)) as [E1|E1]; cbn [negb]; [|split; [discriminate|intros H; inversion H; subst; tauto]].
  destruct (Nat.eqb_spec (length le) (length re)) as [E2|E2]; cbn [negb]; [|split; [discriminate|intros H; inversion H; subst; tauto]].
  pose proof (all_equal_iff (k_eq Ko) (proj1 (proj2 KL)) lr rr E1) as A1.
  pose proof (all_equal_iff (pair_eq Ko) pair_eq_iff le re E2) as A2.
  destruct (all_equal (k_eq Ko) lr rr).
  - rewrite A2. assert (lr = rr) by tauto. subst. split; [intros ->; auto|intros H; inversion H; auto].
  - split; [discriminate|]. intros H. inversion H; subst. destruct A1 as [_ A1]. rewrite A1 in *; auto.
Qed.
Lemma graph_ext g1 g2 : is_graph Ko g1 -> is_graph Ko g2 ->
  (g1 = g2 <-> (forall r, In r (g_roots g1) <-> In r (g_roots g2)) /\ (forall a b, edge g1 a b <-> edge g2 a b)).
Proof.
  intros [R1 E1] [R2 E2]. split; [intros ->; split; reflexivity|]. intros [HR HE].
  destruct g1 as [r1 e1], g2 as [r2 e2]. unfold edge in *. cbn [g_roots g_edges] in *. f_equal.
  - apply (sorted_ext lt LT); auto.
  - apply (sorted_ext plt PLT); auto. intros [a b]. apply HE.
Qed.
Lemma t_equals l r : is_graph Ko l -> is_graph Ko r ->
  (g_equals Ko false (Some l) (Some r) = true <->
   (forall a, In a (g_roots l) <-> In a (g_roots r)) /\ (forall a b, edge l a b <-> edge r a b)).
Proof. intros H1 H2. rewrite equals_eq. apply graph_ext; auto. Qed.

Lemma copy_eq d s : is_graph Ko s -> g_deep_copy Ko d (Some s) = s.
Proof.
  intros [R E]. cbn [g_deep_copy]. rewrite (set_of_id lt LT) by auto. rewrite (set_of_id plt PLT) by auto. destruct s; reflexivity.
Qed.

Lemma t_successors (KB : key_bounds Ko) g a p : is_graph Ko g ->
  (In p (get_successors Ko a g) <-> exists b, p = (a, b) /\ edge g a b /\ b <> k_sup Ko).
Proof.
  intros [_ E]. unfold get_successors. 
  assert (IS : plt (a, k_sup Ko) (a, k_inf Ko) = false).
  { unfold pair_lt. cbn. rewrite (proj1 LT). cbn. apply KB. }
  destruct (range_lower_lower plt PLT (a, k_inf Ko) (a, k_sup Ko) (g_edges g) E IS) as [_ ->]. rewrite filter_In, andb_true_iff, negb_true_iff.
  destruct p as [x y]. unfold pair_lt at 1 2. cbn [fst snd]. rewrite orb_false_iff.
  assert (S : lt y (k_sup Ko) = true <-> y <> k_sup Ko).
  { split; [intros H ->; rewrite (proj1 LT) in H; discriminate|]. intros H.
    destruct (proj2 (proj2 LT) y (k_sup Ko)) as [?|[?|H1]]; [auto|tauto|]. rewrite (proj2 (KB y)) in H1. discriminate. }
  split.
  - intros (Hin & (H1 & H2) & H3). rewrite orb_true_iff, andb_true_iff, negb_true_iff in H3.
    destruct H3 as [H3|[H3 H4]]; [congruence|].
    assert (x = a) by (apply (lt_neither lt LT); auto). subst. exists y. split; auto. split; auto. tauto.
  - intros (b & Hp & Hin & Hb). inversion Hp; subst. split; auto. rewrite (proj1 LT). cbn. rewrite (proj1 (KB b)).
    split; auto. tauto.
Qed.

(** ** Serialization *)
Lemma flatten_concat (e : list (K * K)) : flatten e = concat (map (fun e => [fst e; snd e]) e).
Proof. unfold flatten. apply flat_map_concat_map. Qed.
Lemma len_flatten (e : list (K * K)) : len (flatten e) = (2 * len e)%N.
Proof. induction e as [|x e IH]; [reflexivity|]. change (flatten (x :: e)) with (fst x :: snd x :: flatten e). rewrite !len_cons, IH. lia. Qed.
Lemma vec_ok_map (l : list K) : (len l < 2^63)%N -> vec_ok (k_type Ko) (map (k_val Ko) l).
Proof. intros H. split; [apply Forall_map, Forall_forall; intros; apply KL|]. unfold len in *. rewrite map_length. exact H. Qed.
Lemma keys_back (l : list K) : map (k_of Ko) (map (k_val Ko) l) = l.
Proof. rewrite map_map. rewrite <- (map_id l) at 2. apply map_ext. intros. apply KL. Qed.

Lemma g_doc_ok g : graph_fits g ->
  item_ok (Item (k_type Ko) key_roots (CVec (map (k_val Ko) (g_roots g)))) /\
  item_ok (Item (k_type Ko) key_edges (CVec (map (k_val Ko) (flatten (g_edges g))))).
Proof.
  intros [H1 H2]. split.
  - split; [exact (vec_ok_map _ H1)|vm_compute; discriminate].
  - split; [|vm_compute; discriminate]. apply vec_ok_map. rewrite len_flatten. exact H2.
Qed.
Lemma g_doc_bytes g fl : nodes_bytes fl (graph_doc Ko g) =
  encode fl (k_type Ko) key_roots (CVec (map (k_val Ko) (g_roots g))) ++
  encode fl (k_type Ko) key_edges (CVec (map (k_val Ko) (flatten (g_edges g)))).
Proof. unfold graph_doc. cbn [nodes_bytes node_bytes i_type i_key i_val]. rewrite app_nil_r, <- flatten_concat. reflexivity. Qed.
Lemma insert_pairs_flatten e : forall r s, insert_pairs Ko (flatten e) (Graph r s) = Graph r (fold_left (fun s x => set_insert plt x s) e s).
Proof.
  induction e as [|[a b] e IH]; intros r s; [reflexivity|].
  change (flatten ((a, b) :: e)) with (a :: b :: flatten e). cbn [insert_pairs]. unfold insert_edge. cbn [g_roots g_edges]. rewrite IH. reflexivity.
Qed.

Lemma g_writes g : graph_fits g -> writes (fun h st => g_write Ko h g st) (fun fl => nodes_bytes fl (graph_doc Ko g)).
Proof.
  intros H. destruct (g_doc_ok g H) as (D1 & D2).
  eapply writes_ext; [exact (writes_seq _ _ _ _ (writes_item _ _ _ D1) (writes_item _ _ _ D2))|reflexivity|].
  intros fl. apply g_doc_bytes.
Qed.
Lemma g_reads g d : is_graph Ko g -> graph_fits g -> reads (fun e h st => g_read Ko e h d st) (fun fl => nodes_bytes fl (graph_doc Ko g)) g.
Proof.
  intros [GR GE] H. destruct (g_doc_ok g H) as (D1 & D2).
  pose proof (replaced_nil (k_type Ko)) as Rep.
  assert (Ok0 : cval_ok (k_type Ko) (CVec [])) by (split; [constructor|reflexivity]).
  set (fin := fun (roots : cval) (ok2 : bool) (pairs : cval) => if ok2
     then insert_pairs Ko (keys_of Ko pairs) (Graph (set_of lt (keys_of Ko roots)) [])
     else Graph (set_of lt (keys_of Ko roots)) (g_edges d)).
  assert (Q := reads_seq _ (fun roots e h st1 => do r2 <- r_read e h (k_type Ko) key_edges (CVec []) st1; let '(ok2, pairs, st2) := r2 in
      Done (ok2, fin roots ok2 pairs, st2)) (fun _ => d) _ _ _ _
      (reads_item _ _ _ (CVec []) D1 eq_refl Ok0 Rep)
      (reads_map _ (fin (CVec (map (k_val Ko) (g_roots g)))) _ _ (reads_item _ _ _ (CVec []) D2 eq_refl Ok0 Rep))).
  assert (X : fin (CVec (map (k_val Ko) (g_roots g))) true (CVec (map (k_val Ko) (flatten (g_edges g)))) = g).
  { unfold fin. cbn [keys_of]. rewrite !keys_back, insert_pairs_flatten. 
    fold (set_of plt (g_edges g)). rewrite (set_of_id lt LT), (set_of_id plt PLT) by auto. destruct g; reflexivity. }
  rewrite X in Q. eapply reads_ext; [exact Q| |].
  - intros e h st. unfold g_read. destruct (r_read e h (k_type Ko) key_roots (CVec []) st) as [[[ok v] st1]| |]; cbn [bind]; auto.
    destruct ok; auto. destruct (r_read e h (k_type Ko) key_edges (CVec []) st1) as [[[ok2 v2] st2]| |]; cbn [bind]; auto. destruct ok2; auto.
  - intros fl. apply g_doc_bytes.
Qed.

Lemma t_g_roundtrip g init lim fl : is_graph Ko g -> graph_fits g -> room init lim (len (nodes_bytes fl (graph_doc Ko g))) ->
  exists s0 st, fresh init lim fl = Done s0 /\ g_write Ko 0%N g (w_open s0) = Done (true, st) /\
    ws_data (w_stream st) = nodes_bytes fl (graph_doc Ko g) /\
    forall e d post, read_room e (ws_pos (w_stream st)) (ws_pos (w_stream st) + len post)%N ->
      exists st', g_read Ko e 0%N d (r_open (RS (ws_data (w_stream st) ++ post) 0%N fl)) = Done (true, g, st') /\
        r_stream st' = RS (ws_data (w_stream st) ++ post) (ws_pos (w_stream st)) fl.
Proof.
  intros G F R. destruct (roundtrip (fun h st => g_write Ko h g st) (fun d e h st => g_read Ko e h d st) _ g init lim fl (fun _ => True)
    (g_writes g F) (fun d _ => g_reads g d G F) R) as (s0 & st & A & B & C & D).
  exists s0, st. auto 6.
Qed.
End G.
