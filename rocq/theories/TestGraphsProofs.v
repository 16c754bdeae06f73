(** * TestGraphs: the tests. Proofs. *)
From Coq Require Import Relation_Operators Operators_Properties.
From Verif Require Import Base Types Keys KeySpec StdSet StdSetFacts Graph Validator GraphSpec GraphFacts GraphProps GraphSets
  TestGraphs TestGraphsSpec TestGraphsFacts.
Local Open Scope nat_scope.

Lemma flat_map_nodup {A B} (f : A -> list B) : forall l, NoDup (flat_map f l) -> (forall t, In t l -> NoDup (f t)) /\
  (forall t t' x, In t l -> In t' l -> In x (f t) -> In x (f t') -> t = t').
Proof.
  assert (APP : forall u v : list B, NoDup (u ++ v) -> NoDup u /\ NoDup v /\ forall x, In x u -> ~ In x v).
  { induction u as [|y u IH]; intros v H; cbn in *; [split; [constructor|auto]|]. inversion H; subst. destruct (IH v) as (P & Q & R); auto.
    split; [constructor; auto; intros X; apply H2, in_or_app; auto|]. split; auto. intros x [<-|X] Y; [apply H2, in_or_app; auto|exact (R x X Y)]. }
  induction l as [|a l IH]; cbn; intros N; [split; [intros ? []|intros ? ? ? []]|].
  destruct (APP _ _ N) as (P & Q & R). destruct (IH Q) as (I1 & I2).
  assert (X : forall t x, In t l -> In x (f t) -> In x (f a) -> False).
  { intros t x H1 H2 H3. apply (R x H3). apply in_flat_map. exists t; auto. }
  split; [intros t [<-|H]; auto|]. intros t t' x [<-|H] [<-|H'] H1 H2; auto; [exfalso; exact (X t' x H' H2 H1)|exfalso; exact (X t x H H1 H2)|exact (I2 t t' x H H' H1 H2)].
Qed.

Section T.
Context {K : Type} (Ko : keyops K) (KL : key_laws Ko) (KB : key_bounds Ko).
Notation lt := (k_lt Ko).
Notation plt := (pair_lt (k_lt Ko)).
Let LT : strict_total_order lt := proj1 KL.
Let PLT : strict_total_order plt := pair_lt_order lt LT.

Lemma empty_ok : is_graph Ko g_empty.
Proof. split; constructor. Qed.
Lemma ins_ok g a b : is_graph Ko g -> is_graph Ko (insert_edge Ko a b g) /\ g_roots (insert_edge Ko a b g) = g_roots g /\
  forall x y, edge (insert_edge Ko a b g) x y <-> x = a /\ y = b \/ edge g x y.
Proof.
  intros [GR GE]. split; [split; auto; apply (insert_sorted plt PLT); auto|]. split; auto. intros x y. unfold edge, insert_edge. cbn [g_edges].
  rewrite (insert_in plt PLT). split; [intros [H|H]; auto; inversion H; auto|intros [[-> ->]|H]; auto].
Qed.
Lemma insr_ok g a : is_graph Ko g -> is_graph Ko (insert_root Ko a g) /\ (forall x, In x (g_roots (insert_root Ko a g)) <-> x = a \/ In x (g_roots g)) /\
  forall x y, edge (insert_root Ko a g) x y <-> edge g x y.
Proof.
  intros [GR GE]. split; [split; auto; apply (insert_sorted lt LT); auto|]. split; [|reflexivity]. intros x. apply (insert_in lt LT).
Qed.
Lemma edges_bound g (E : list (K * K)) : is_graph Ko g -> (forall a b, edge g a b -> In (a, b) E) -> length (g_edges g) <= length E.
Proof.
  intros [_ GE] H. apply NoDup_incl_length; [apply (sorted_nodup plt PLT); exact GE|]. intros [a b] I. apply H; exact I.
Qed.

(** ** One tree *)
Lemma first_child l (root : K) cs : cs <> [] -> exists c, In (root, c) (tree_edges l root cs).
Proof. intros NE. destruct cs as [|d r]; [destruct (NE eq_refl)|]. exists (d_child d). destruct l; left; reflexivity. Qed.
Section Tree.
Context (l : nat) (root : K) (cs : list (draw K)) (ND : NoDup (root :: tree_nodes l cs)).
Notation T a b := (In (a, b) (tree_edges l root cs)).
Notation names := (tree_nodes l cs).

Lemma names_in b : In b names -> exists a, T a b.
Proof.
  intros H. apply (tree_reached l root cs) in H. apply clos_trans_tn1 in H. inversion H; eauto.
Qed.
Lemma root_out b : ~ T b root.
Proof. intros H. apply tree_parents in H. inversion ND; subst. tauto. Qed.
Lemma tree_source a : (exists b, T a b) -> ~ (exists c, T c a) -> a = root.
Proof. intros [b H] N. apply tree_parents in H. destruct H as [[->|H] _]; auto. destruct N. apply names_in; auto. Qed.
End Tree.

(** ** The tests *)
Lemma t_basic edges : exists N, forall n, N <= n -> basic_test Ko n edges = Some true.
Proof.
  assert (G : forall l g, is_graph Ko g -> is_graph Ko (fold_left (fun g e => insert_edge Ko (fst e) (snd e) g) l g)).
  { induction l as [|e l IH]; intros g H; cbn; auto. apply IH, ins_ok; auto. }
  specialize (G edges g_empty empty_ok). eexists. intros n Hn. unfold basic_test.
  rewrite (one_ok Ko KL KB n _ _ G Hn).
  - reflexivity.
  - intros log E e He. destruct (log_in Ko KL KB n (GFlags false false false) _ G Hn) as (log' & E' & H). rewrite E in E'. inversion E'; subst.
    apply H in He. cbn in He. intuition discriminate.
Qed.
Lemma t_duplicate a b : exists N, forall n, N <= n -> duplicate_test Ko n a b = Some true.
Proof.
  destruct (t_basic [(a, b); (a, b)]) as [N H]. exists N. intros n Hn. specialize (H n Hn). unfold duplicate_test.
  unfold basic_test in H. cbn [fold_left fst snd] in H. rewrite H.
  assert (E : length (g_edges (insert_edge Ko a b (insert_edge Ko a b g_empty))) = 1).
  { cbn. assert (I : plt (a, b) (a, b) = false) by (apply (proj1 PLT)). rewrite I. reflexivity. }
  rewrite E. reflexivity.
Qed.

Lemma t_acyclic_test k0 k1 k2 root cs : NoDup (root :: tree_nodes 3 cs) -> (len (tree_nodes 3 cs) <= 2^20)%N ->
  exists N, forall n, N <= n -> acyclic_test Ko n k0 k1 k2 root cs = Some true.
Proof.
  intros ND SZ. destruct (gen_ok Ko KL 3 root cs g_empty empty_ok) as (G1 & R1 & E1).
  unfold acyclic_test. set (g1 := gen_tree Ko 3 root cs g_empty) in *.
  destruct (ins_ok g1 k0 k1 G1) as (Ga & Ra & Ea). destruct (ins_ok _ k1 k2 Ga) as (Gb & Rb & Eb). destruct (ins_ok _ k2 k0 Gb) as (G2 & R2 & E2).
  set (g2 := insert_edge Ko k2 k0 _) in *.
  exists (steps_needed Ko g1 + steps_needed Ko g2). intros n Hn.
  assert (X : forall a b, edge g1 a b <-> In (a, b) (tree_edges 3 root cs)) by (intros a b; rewrite E1; cbn; tauto).
  apply (two_ok Ko KL KB n _ g1 g2 [InvalidSetup]); auto; try lia; try discriminate.
  - assert (B : length (g_edges g2) <= length ((k2, k0) :: (k1, k2) :: (k0, k1) :: tree_edges 3 root cs)).
    { apply edges_bound; auto. intros a b H. rewrite E2, Eb, Ea, X in H. cbn. intuition (subst; auto). }
    cbn [length] in B. rewrite edges_len in B.
    assert (L : length (g_roots g2) = 0) by (rewrite R2, Rb, Ra, R1; reflexivity).
    rewrite L. unfold len in SZ. change (2^32)%N with (4096 * 2^20)%N. lia.
  - intros log E e He. destruct (log_in Ko KL KB n (GFlags true false false) g1 G1 ltac:(lia)) as (log' & E' & H). rewrite E in E'. inversion E'; subst.
    apply H in He. cbn in He. assert (C : ~ cyclic g1).
    { apply (ordered_acyclic g1 (root :: tree_nodes 3 cs) ND). intros a b Hab. apply tree_before, X; auto. }
    intuition discriminate.
  - intros log E e. destruct (log_in Ko KL KB n (GFlags true false false) g2 G2 ltac:(lia)) as (log' & E' & H). rewrite E in E'. inversion E'; subst.
    rewrite H. cbn. assert (C : cyclic g2).
    { exists k0. apply t_trans with k2; [apply t_trans with k1|]; apply t_step; apply E2; rewrite ?Eb, ?Ea; auto. }
    intuition (try discriminate; auto).
Qed.

Lemma t_single_root_test root cs a b : NoDup (root :: tree_nodes 2 cs) -> cs <> [] -> (len (tree_nodes 2 cs) <= 2^20)%N ->
  ~ In a (root :: tree_nodes 2 cs) -> a <> b -> b <> root ->
  exists N, forall n, N <= n -> single_root_test Ko n root cs a b = Some true.
Proof.
  intros ND NE SZ Ha Hab Hb. destruct (gen_ok Ko KL 2 root cs g_empty empty_ok) as (G1 & R1 & E1).
  unfold single_root_test. set (g1 := gen_tree Ko 2 root cs g_empty) in *.
  destruct (ins_ok g1 a b G1) as (G2 & R2 & E2). set (g2 := insert_edge Ko a b g1) in *.
  exists (steps_needed Ko g1 + steps_needed Ko g2). intros n Hn.
  assert (X : forall a b, edge g1 a b <-> In (a, b) (tree_edges 2 root cs)) by (intros x y; rewrite E1; cbn; tauto).
  destruct (first_child 2 root cs NE) as [c Hc].
  assert (S1 : exactly_one (source g1)).
  { exists root. split.
    - split; [exists c; apply X; auto|]. intros [y Hy]. apply X, root_out in Hy; auto.
    - intros x [[y Hy] N]. apply (tree_source 2 root cs); [exists y; apply X; auto|]. intros [z Hz]. apply N. exists z. apply X; auto. }
  assert (S2 : ~ exactly_one (source g2)).
  { intros (s & _ & U).
    assert (Q1 : source g2 root).
    { split; [exists c; apply E2; right; apply X; auto|]. intros [y Hy]. apply E2 in Hy. destruct Hy as [[_ Hy]|Hy]; [congruence|].
      apply X, root_out in Hy; auto. }
    assert (Q2 : source g2 a).
    { split; [exists b; apply E2; auto|]. intros [y Hy]. apply E2 in Hy. destruct Hy as [[_ Hy]|Hy]; [congruence|].
      apply X, tree_parents in Hy. apply Ha. right; apply Hy. }
    apply Ha. left. rewrite (U root Q1), (U a Q2). reflexivity. }
  apply (two_ok Ko KL KB n _ g1 g2 [InvalidCount]); auto; try lia; try discriminate.
  - assert (B : length (g_edges g2) <= length ((a, b) :: tree_edges 2 root cs)).
    { apply edges_bound; auto. intros x y H. rewrite E2, X in H. cbn. intuition (subst; auto). }
    cbn [length] in B. rewrite edges_len in B.
    assert (L : length (g_roots g2) = 0) by (rewrite R2, R1; reflexivity).
    rewrite L. unfold len in SZ. change (2^32)%N with (4096 * 2^20)%N. lia.
  - intros log E e He. destruct (log_in Ko KL KB n (GFlags false false true) g1 G1 ltac:(lia)) as (log' & E' & H). rewrite E in E'. inversion E'; subst.
    apply H in He. cbn in He. intuition discriminate.
  - intros log E e. destruct (log_in Ko KL KB n (GFlags false false true) g2 G2 ltac:(lia)) as (log' & E' & H). rewrite E in E'. inversion E'; subst.
    rewrite H. cbn. intuition (try discriminate; auto).
Qed.

(** ** Forests *)
Lemma forest_ok : forall trees g, is_graph Ko g -> is_graph Ko (gen_forest Ko trees g) /\
  (forall r, In r (g_roots (gen_forest Ko trees g)) <-> In r (g_roots g) \/ In r (map fst trees)) /\
  (forall a b, edge (gen_forest Ko trees g) a b <-> edge g a b \/ exists t, In t trees /\ In (a, b) (tree_edges 2 (fst t) (snd t))).
Proof.
  induction trees as [|t trees IH]; intros g G.
  - cbn. split; auto. split; intros; [tauto|]. split; auto. intros [H|(t & [] & _)]; auto.
  - cbn [gen_forest fold_left]. destruct (insr_ok g (fst t) G) as (G1 & R1 & E1).
    destruct (gen_ok Ko KL 2 (fst t) (snd t) _ G1) as (G2 & R2 & E2). destruct (IH _ G2) as (G3 & R3 & E3).
    unfold gen_forest in G3, R3, E3. split; [exact G3|]. split.
    + intros r. rewrite R3, R2, R1. cbn [map In]. intuition.
    + intros a b. rewrite E3, E2, E1. split.
      * intros [[H|H]|(t' & H1 & H2)]; auto; right; [exists t|exists t']; cbn; auto.
      * intros [H|(t' & [<-|H1] & H2)]; auto. right. exists t'; auto.
Qed.

Lemma t_rooted_test trees : NoDup (forest_all 2 trees) -> trees <> [] -> (forall t, In t trees -> snd t <> []) ->
  (len (forest_all 2 trees) <= 2^20)%N ->
  exists N, forall n, N <= n -> rooted_test Ko n trees = Some true.
Proof.
  intros ND NE NS SZ. destruct (forest_ok trees g_empty empty_ok) as (G1 & R1 & E1).
  unfold rooted_test. set (g1 := gen_forest Ko trees g_empty) in *.
  assert (X : forall a b, edge g1 a b <-> exists t, In t trees /\ In (a, b) (tree_edges 2 (fst t) (snd t))) by (intros x y; rewrite E1; cbn; tauto).
  assert (R : forall r, In r (g_roots g1) <-> In r (map fst trees)) by (intros x; rewrite R1; cbn; tauto).
  clear R1 E1. destruct (flat_map_nodup _ _ ND) as (ND1 & UQ).
  destruct (g_roots g1) as [|r0 rest] eqn:ER.
  { destruct trees as [|t tr]; [congruence|]. destruct (proj2 (R (fst t))). left; auto. }
  set (g2 := Graph rest (g_edges g1)).
  assert (G2 : is_graph Ko g2).
  { destruct G1 as [GR GE]. split; auto. rewrite ER in GR. inversion GR; auto. }
  assert (N0 : ~ In r0 rest).
  { destruct G1 as [GR _]. rewrite ER in GR. apply (sorted_nodup lt LT) in GR. inversion GR; auto. }
  assert (X2 : forall a b, edge g2 a b <-> exists t, In t trees /\ In (a, b) (tree_edges 2 (fst t) (snd t))) by exact X.
  assert (NOIN : forall r, In r (map fst trees) -> ~ incoming g1 r).
  { intros r H [a Ha]. apply in_map_iff in H. destruct H as (t & <- & Ht). apply X in Ha. destruct Ha as (t' & Ht' & Ha).
    assert (t = t'). { apply (UQ t t' (fst t)); auto; [left; auto|right]. apply tree_parents in Ha. apply Ha. }
    subst. apply root_out in Ha; auto. apply (ND1 t'); auto. }
  assert (SRC : forall a, source g1 a -> In a (map fst trees)).
  { intros a [[b Hb] N]. apply X in Hb. destruct Hb as (t & Ht & Hb). apply in_map_iff. exists t. split; auto. symmetry.
    apply (tree_source 2 (fst t) (snd t)); [exists b; auto|]. intros [c Hc]. apply N. exists c. apply X. exists t; auto. }
  assert (STAY : forall t a b, In t trees -> In a (tree_all 2 t) -> path g1 a b -> In b (tree_all 2 t)).
  { intros t a b Ht Ha P. induction P as [a b H|a c b H1 IH1 H2 IH2]; auto. apply X in H. destruct H as (t' & Ht' & H).
    apply tree_parents in H. destruct H as [Ha' Hb]. assert (t = t'). { apply (UQ t t' a); auto. destruct Ha'; [left|right]; auto. }
    subst. right; auto. }
  assert (T0 : exists t0, In t0 trees /\ fst t0 = r0).
  { destruct (proj1 (in_map_iff _ _ _) (proj1 (R r0) (or_introl eq_refl))) as (t & F & H). exists t; auto. }
  destruct T0 as (t0 & Ht0 & F0). destruct (first_child 2 (fst t0) (snd t0) (NS t0 Ht0)) as [c Hc].
  exists (steps_needed Ko g1 + steps_needed Ko g2). intros n Hn.
  apply (two_ok Ko KL KB n _ g1 g2 [InvalidSetup; MissingObject]); auto; try lia; try discriminate.
  - assert (B1 : length (g_edges g1) <= length (flat_map (fun t => tree_edges 2 (fst t) (snd t)) trees)).
    { apply edges_bound; auto. intros x y H. apply X in H. apply in_flat_map; auto. }
    assert (B2 : length (flat_map (fun t => tree_edges 2 (fst t) (snd t)) trees) + length trees = length (forest_all 2 trees)).
    { clear. unfold forest_all. induction trees as [|t tr IH]; cbn [flat_map length]; auto. rewrite !app_length, edges_len, <- IH.
      cbn [tree_all length]. lia. }
    assert (B3 : length (g_roots g1) <= length (map fst trees)).
    { apply NoDup_incl_length; [apply (sorted_nodup lt LT); apply G1|]. intros x Hx. apply R. rewrite <- ER. exact Hx. }
    rewrite ER, map_length in B3. cbn [g2 g_roots g_edges length] in *. unfold len in SZ. change (2^32)%N with (4096 * 2^20)%N. lia.
  - intros log E e He. destruct (log_in Ko KL KB n (GFlags false true false) g1 G1 ltac:(lia)) as (log' & E' & H). rewrite E in E'. inversion E'; subst.
    apply H in He. cbn [f_single f_rooted f_acyclic] in He. rewrite ER in He.
    destruct He as [(_ & F & _)|[(_ & _ & r & Hr & Hi)|[(_ & _ & a & Ha & Hn')|(_ & [(_ & b & Hb & Hr)|(F & _)])]]]; try discriminate.
    + apply (NOIN r); auto. apply R; auto.
    + apply Hn', R, SRC; auto.
    + destruct Hb as [a Hab]. apply X in Hab. destruct Hab as (t & Ht & Hab). apply (Hr (fst t)); [apply R, in_map; auto|].
      right. apply tree_parents in Hab. destruct Hab as [_ Hb]. eapply tc_mono; [|apply (tree_reached 2 (fst t) (snd t)); exact Hb].
      intros x y Hxy. apply X. exists t; auto.
  - intros log E e. destruct (log_in Ko KL KB n (GFlags false true false) g2 G2 ltac:(lia)) as (log' & E' & H). rewrite E in E'. inversion E'; subst.
    rewrite H. cbn [f_single f_rooted f_acyclic In]. split.
    + intros [(_ & F & _)|[(_ & _ & r & Hr & Hi)|[(-> & _)|(-> & _)]]]; auto; try discriminate.
      exfalso. apply (NOIN r); [apply R; right; exact Hr|exact Hi].
    + intros [<-|[<-|[]]].
      * right; right; right. split; auto. left. split; auto. exists c. split; [exists (fst t0); apply X2; exists t0; auto|].
        intros r Hr RC. assert (In r (map fst trees)) as Hr' by (apply R; right; auto). apply in_map_iff in Hr'. destruct Hr' as (t & <- & Ht).
        assert (t = t0).
        { apply (UQ t t0 c); auto; [|right; apply tree_parents in Hc; apply Hc].
          destruct RC as [<-|P]; [left; auto|]. apply (STAY t (fst t)); auto. left; auto. }
        subst. auto.
      * right; right; left. split; auto. split; auto. exists (fst t0). split; [split; [exists c; apply X2; exists t0; auto|]|].
        -- apply NOIN. apply in_map; auto.
        -- exact N0.
Qed.

(** ** The scene graph *)
Lemma leaf_ok leaf : forall ps g, is_graph Ko g -> is_graph Ko (fold_left (fun g p => insert_edge Ko p leaf g) ps g) /\
  g_roots (fold_left (fun g p => insert_edge Ko p leaf g) ps g) = g_roots g /\
  (forall a b, edge (fold_left (fun g p => insert_edge Ko p leaf g) ps g) a b <-> edge g a b \/ In a ps /\ b = leaf).
Proof.
  induction ps as [|p ps IH]; intros g G; cbn [fold_left].
  - split; auto. split; auto. cbn. intros; tauto.
  - destruct (ins_ok g p leaf G) as (G1 & R1 & E1). destruct (IH _ G1) as (G2 & R2 & E2). split; auto. split; [congruence|].
    intros a b. rewrite E2, E1. cbn. intuition.
Qed.

Lemma t_scene_graph_test root leaf x y cs : NoDup (root :: tree_nodes 3 cs ++ [leaf]) -> cs <> [] -> (len (tree_nodes 3 cs) <= 2^20)%N ->
  ~ In x (root :: tree_nodes 3 cs ++ [leaf]) -> ~ In y (root :: tree_nodes 3 cs ++ [leaf]) -> x <> y ->
  exists N, forall n, N <= n -> scene_graph_test Ko n root leaf x y cs = Some true.
Proof.
  intros NDL NE SZ Hx Hy Hxy.
  assert (ND : NoDup (root :: tree_nodes 3 cs)).
  { change (root :: tree_nodes 3 cs ++ [leaf]) with ((root :: tree_nodes 3 cs) ++ [leaf]) in NDL. revert NDL. generalize (root :: tree_nodes 3 cs).
    induction l as [|u l IH]; intros H; [constructor|]. inversion H; subst. constructor; auto. intros I. apply H2, in_or_app; auto. }
  assert (LR : leaf <> root) by (intros ->; inversion NDL; subst; apply H1, in_or_app; right; left; auto).
  assert (LN : ~ In leaf (tree_nodes 3 cs)).
  { inversion NDL as [|? ? _ N]; subst. apply NoDup_remove_2 in N. rewrite app_nil_r in N. exact N. }
  destruct (insr_ok g_empty root empty_ok) as (Gr & Rr & Er).
  unfold scene_graph_test, scene_graph.
  destruct (gen_ok Ko KL 3 root cs _ Gr) as (G0 & R0 & E0). set (g0 := gen_tree Ko 3 root cs _) in *.
  assert (X0 : forall a b, edge g0 a b <-> In (a, b) (tree_edges 3 root cs)) by (intros a b; rewrite E0, Er; cbn; tauto).
  destruct (leaf_ok leaf (downstream_nodes Ko (g_edges g0)) g0 G0) as (G1 & R1 & E1). set (g1 := fold_left _ _ g0) in *.
  assert (X : forall a b, edge g1 a b <-> In (a, b) (tree_edges 3 root cs) \/ In a (tree_nodes 3 cs) /\ b = leaf).
  { intros a b. rewrite E1, X0. assert (D : In a (downstream_nodes Ko (g_edges g0)) <-> In a (tree_nodes 3 cs)); [|tauto].
    rewrite (downstream_nodes_in Ko KL (g_edges g0) (g_roots g0)). unfold incoming. split.
    - intros [c Hc]. assert (Hc' : edge g0 c a) by exact Hc. apply X0, tree_parents in Hc'. apply Hc'.
    - intros Ha. apply (names_in 3 root cs) in Ha. destruct Ha as [c Hc]. exists c. apply X0 in Hc. exact Hc. }
  clear E1.
  destruct (ins_ok g1 x root G1) as (Ga & Ra & Ea). destruct (ins_ok _ y root Ga) as (Gb & Rb & Eb).
  destruct (ins_ok _ leaf root Gb) as (Gc & Rc & Ec). destruct (ins_ok _ leaf root Gc) as (G2 & R2 & E2).
  set (g2 := insert_edge Ko leaf root (insert_edge Ko leaf root _)) in *.
  assert (X2 : forall a b, edge g2 a b <-> (b = root /\ (a = x \/ a = y \/ a = leaf)) \/ edge g1 a b) by (intros a b; rewrite E2, Ec, Eb, Ea; intuition).
  assert (RT1 : g_roots g1 = [root]) by (rewrite R1, R0; reflexivity).
  assert (RT2 : g_roots g2 = [root]) by (rewrite R2, Rc, Rb, Ra; exact RT1).
  clear E2 Ec Eb Ea Ra Rb Rc R2 R1 R0 E0 X0.
  destruct (first_child 3 root cs NE) as [c Hc].
  assert (Hcn : In c (tree_nodes 3 cs)) by (apply tree_parents in Hc; apply Hc).
  assert (ROUT : ~ incoming g1 root).
  { intros [a Ha]. apply X in Ha. destruct Ha as [Ha|[_ Ha]]; [apply root_out in Ha; auto|congruence]. }
  assert (REACH : forall b, incoming g1 b -> reaches g1 root b).
  { intros b [a Ha]. right. apply X in Ha. destruct Ha as [Ha|[Ha ->]].
    - apply tree_parents in Ha. destruct Ha as [_ Hb]. eapply tc_mono; [|apply (tree_reached 3 root cs); exact Hb]. intros u v Huv. apply X; auto.
    - eapply t_trans; [|apply t_step; apply X; right; split; [exact Ha|reflexivity]].
      eapply tc_mono; [|apply (tree_reached 3 root cs); exact Ha]. intros u v Huv. apply X; auto. }
  assert (SRC : source g1 root) by (split; [exists c; apply X; auto|auto]).
  assert (SRCU : forall a, source g1 a -> a = root).
  { intros a [[b Hb] N]. apply X in Hb. destruct Hb as [Hb|[Hb _]].
    - apply (tree_source 3 root cs); [exists b; auto|]. intros [z Hz]. apply N. exists z. apply X; auto.
    - destruct N. apply (names_in 3 root cs) in Hb. destruct Hb as [z Hz]. exists z. apply X; auto. }
  assert (ACY : ~ cyclic g1).
  { apply (ordered_acyclic g1 (root :: tree_nodes 3 cs ++ [leaf]) NDL). intros a b Hab. apply X in Hab. destruct Hab as [Hab|[Ha ->]].
    - apply (before_app (root :: tree_nodes 3 cs)). apply tree_before; auto.
    - apply before_cons. apply in_split in Ha. destruct Ha as (l1 & l2 & ->). exists l1, (l2 ++ [leaf]). rewrite <- app_assoc. split; auto.
      apply in_or_app. right; left; auto. }
  assert (ONE : exactly_one (fun r => In r [root])) by (exists root; split; [left; auto|intros b [<-|[]]; auto]).
  assert (NX : forall z, ~ In z (root :: tree_nodes 3 cs ++ [leaf]) -> ~ incoming g2 z).
  { intros z Hz [a Ha]. apply Hz. apply X2 in Ha. destruct Ha as [[-> _]|Ha]; [left; auto|]. right. apply in_or_app. apply X in Ha.
    destruct Ha as [Ha|[_ ->]]; [left; apply tree_parents in Ha; apply Ha|right; left; auto]. }
  assert (SX : source g2 x) by (split; [exists root; apply X2; auto|auto]).
  assert (SY : source g2 y) by (split; [exists root; apply X2; auto|auto]).
  exists (steps_needed Ko g1 + steps_needed Ko g2). intros n Hn.
  change (N.lor _ InvalidCount) with (ids_of [InvalidSetup; MissingObject; InvalidObject; InvalidCount]).
  apply (two_ok Ko KL KB n _ g1 g2); auto; try lia; try discriminate.
  - assert (B : length (g_edges g2) <= length ((x, root) :: (y, root) :: (leaf, root) :: tree_edges 3 root cs ++ map (fun a => (a, leaf)) (tree_nodes 3 cs))).
    { apply edges_bound; auto. intros a b H. apply X2 in H. cbn [In]. rewrite in_app_iff, in_map_iff.
      destruct H as [[-> [->|[->| ->]]]|H]; auto. apply X in H. destruct H as [H|[H ->]]; auto. do 4 right. exists a; auto. }
    cbn [length] in B. rewrite app_length, map_length, edges_len in B.
    rewrite RT2. cbn [length]. unfold len in SZ. change (2^32)%N with (4096 * 2^20)%N. lia.
  - intros log E e He. destruct (log_in Ko KL KB n (GFlags true true true) g1 G1 ltac:(lia)) as (log' & E' & H). rewrite E in E'. inversion E'; subst.
    apply H in He. cbn [f_single f_rooted f_acyclic] in He. rewrite RT1 in He.
    destruct He as [(_ & _ & [F|[_ F]])|[(_ & _ & r & Hr & Hi)|[(_ & _ & a & Ha & Hn')|(_ & [(_ & b & Hb & Hr)|(_ & F)])]]]; auto.
    + apply F. exists root; auto.
    + destruct Hr as [<-|[]]. auto.
    + apply Hn'. left. symmetry; auto.
    + apply (Hr root); [left; auto|]. auto.
  - intros log E e. destruct (log_in Ko KL KB n (GFlags true true true) g2 G2 ltac:(lia)) as (log' & E' & H). rewrite E in E'. inversion E'; subst.
    rewrite H. cbn [f_single f_rooted f_acyclic In]. rewrite RT2. split.
    + intros [(-> & _)|[(-> & _)|[(-> & _)|(-> & _)]]]; auto.
    + intros [<-|[<-|[<-|[<-|[]]]]].
      * right; right; right. split; auto. right. split; auto. exists root. apply t_trans with c; [apply t_step, X2; right; apply X; auto|].
        apply t_trans with leaf; apply t_step; apply X2; [right; apply X; auto|left; auto].
      * right; right; left. split; auto. split; auto. exists x. split; auto. intros [<-|[]]. apply Hx. left; auto.
      * right; left. split; auto. split; auto. exists root. split; [left; auto|]. exists x. apply X2. auto.
      * left. split; auto. split; auto. left. intros (s & _ & U). apply Hxy. rewrite (U x SX), (U y SY). reflexivity.
Qed.
End T.
