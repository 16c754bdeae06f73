(** * TestGraphs: proofs. *)
From Coq Require Import Relation_Operators Operators_Properties.
From Verif Require Import Base Types Keys KeySpec StdSet StdSetFacts Graph Validator GraphSpec GraphFacts GraphProps GraphSets TestGraphs TestGraphsSpec.
Local Open Scope nat_scope.

Section T.
Context {K : Type} (Ko : keyops K) (KL : key_laws Ko) (KB : key_bounds Ko).
Notation lt := (k_lt Ko).
Notation plt := (pair_lt (k_lt Ko)).
Let LT : strict_total_order lt := proj1 KL.
Let PLT : strict_total_order plt := pair_lt_order lt LT.

(** ** One thing before another in a list *)
Definition before {A} (l : list A) (a b : A) : Prop := exists l1 l2, l = l1 ++ a :: l2 /\ In b l2.
Lemma before_in {A} (l : list A) a b : before l a b -> In a l /\ In b l.
Proof. intros (l1 & l2 & -> & H). split; apply in_or_app; right; [left; auto|right; auto]. Qed.
Lemma before_cons {A} (l : list A) a b x : before l a b -> before (x :: l) a b.
Proof. intros (l1 & l2 & -> & H). exists (x :: l1), l2. auto. Qed.
Lemma before_head {A} (l : list A) a b : In b l -> before (a :: l) a b.
Proof. intros H. exists [], l. auto. Qed.
Lemma before_mid {A} (m l : list A) a b x : before (x :: l) a b -> before (x :: m ++ l) a b.
Proof.
  intros ([|y l1] & l2 & E & H); cbn in E; inversion E; subst.
  - apply before_head. apply in_or_app; auto.
  - exists (y :: m ++ l1), l2. split; auto. cbn. rewrite <- app_assoc. reflexivity.
Qed.
Lemma before_app {A} (l m : list A) a b : before l a b -> before (l ++ m) a b.
Proof. intros (l1 & l2 & -> & H). exists l1, (l2 ++ m). rewrite <- app_assoc. split; auto. apply in_or_app; auto. Qed.
Lemma before_inv {A} (l : list A) x a b : before (x :: l) a b -> a <> x -> before l a b.
Proof. intros ([|y l1] & l2 & E & H) N; cbn in E; inversion E; subst; [congruence|]. exists l1, l2. auto. Qed.
Lemma before_tail {A} (l : list A) x a b : before (x :: l) a b -> In b l.
Proof.
  intros ([|y l1] & l2 & E & H); cbn in E; inversion E; subst; auto. apply in_or_app. right. right; auto.
Qed.
Lemma before_tc {A} (l : list A) x : NoDup (x :: l) -> forall a b, clos_trans A (before (x :: l)) a b -> In b l /\ (a <> x -> clos_trans A (before l) a b).
Proof.
  intros N a b H. inversion N as [|? ? Hx _]; subst. induction H as [a b H|a c b H1 [I1 C1] H2 [I2 C2]].
  - split; [eapply before_tail; eauto|]. intros Ha. apply t_step. eapply before_inv; eauto.
  - split; auto. intros Ha. eapply t_trans; [apply C1; auto|]. apply C2. intros ->; auto.
Qed.
Lemma before_acyclic {A} (l : list A) : NoDup l -> forall a, ~ clos_trans A (before l) a a.
Proof.
  induction l as [|x l IH]; intros N a H.
  - assert (X : forall a b : A, clos_trans A (before []) a b -> False).
    { clear. intros a b H. induction H as [a b H|]; auto. destruct H as ([|] & l2 & E & _); discriminate. }
    eauto.
  - inversion N as [|? ? Hx N']; subst. destruct (before_tc l x N a a H) as [I C]. apply (IH N' a), C. intros ->; auto.
Qed.
Lemma tc_mono {A} (R S : A -> A -> Prop) : (forall a b, R a b -> S a b) -> forall a b, clos_trans A R a b -> clos_trans A S a b.
Proof. intros H a b C. induction C; [apply t_step; auto|eapply t_trans; eauto]. Qed.
Lemma ordered_acyclic (g : graph K) l : NoDup l -> (forall a b, edge g a b -> before l a b) -> ~ cyclic g.
Proof. intros N H [a C]. apply (before_acyclic l N a). eapply tc_mono; [|exact C]. auto. Qed.

(** ** Trees *)
Lemma gen_ok : forall l p cs g, is_graph Ko g -> is_graph Ko (gen_tree Ko l p cs g) /\ g_roots (gen_tree Ko l p cs g) = g_roots g /\
  (forall a b, edge (gen_tree Ko l p cs g) a b <-> edge g a b \/ In (a, b) (tree_edges l p cs)).
Proof.
  assert (INS : forall g a b, is_graph Ko g -> is_graph Ko (insert_edge Ko a b g) /\ forall x y, edge (insert_edge Ko a b g) x y <-> x = a /\ y = b \/ edge g x y).
  { intros g a b [GR GE]. split; [split; auto; apply (insert_sorted plt PLT); auto|]. intros x y. unfold edge, insert_edge. cbn [g_edges].
    rewrite (insert_in plt PLT). split; [intros [H|H]; auto; inversion H; auto|intros [[-> ->]|H]; auto]. }
  induction l as [|l IH]; intros p cs; induction cs as [|[c subs] cs IHc]; intros g G.
  - cbn. split; auto. split; auto. intros; tauto.
  - cbn [gen_tree fold_left d_child]. destruct (INS g p c G) as [G1 E1]. destruct (IHc _ G1) as (A & B & C).
    cbn [gen_tree] in *. split; [exact A|]. split; [rewrite B; reflexivity|]. intros a b.
    rewrite C, E1. cbn [tree_edges flat_map d_child]. rewrite in_app_iff. cbn [In app].
    split; [intros [[[-> ->]|H]|H]; auto|intros [H|[[H|[]]|H]]; auto]. inversion H; auto.
  - cbn. split; auto. split; auto. intros; tauto.
  - cbn [gen_tree fold_left d_child d_subs]. destruct (INS g p c G) as [G1 E1]. destruct (IH c subs _ G1) as (A2 & B2 & C2).
    destruct (IHc _ A2) as (A & B & C). cbn [gen_tree] in *. split; [exact A|]. split; [rewrite B, B2; reflexivity|]. intros a b.
    rewrite C, C2, E1. cbn [tree_edges flat_map d_child d_subs app In]. rewrite in_app_iff.
    split; [intros [[[[-> ->]|H]|H]|H]; auto|intros [H|[H|[H|H]]]; auto]. inversion H; auto.
Qed.

Lemma tree_before : forall l (p : K) cs a b, In (a, b) (tree_edges l p cs) -> before (p :: tree_nodes l cs) a b.
Proof.
  induction l as [|l IH]; intros p cs; induction cs as [|[c subs] cs IHc]; intros a b H; cbn [tree_edges tree_nodes flat_map d_child d_subs app In] in *; try destruct H.
  - inversion H; subst. apply before_head; left; auto.
  - apply (before_mid [c]). auto.
  - inversion H; subst. apply before_head. left; auto.
  - apply in_app_iff in H. destruct H as [H|H].
    + apply before_cons. apply (before_app (c :: tree_nodes l subs)). apply IH; auto.
    + apply (before_mid (c :: tree_nodes l subs)). auto.
Qed.
Lemma tree_parents : forall l (p : K) cs a b, In (a, b) (tree_edges l p cs) -> (a = p \/ In a (tree_nodes l cs)) /\ In b (tree_nodes l cs).
Proof.
  intros l p cs a b H. apply tree_before in H. split; [|eapply before_tail; eauto]. apply before_in in H. destruct H as [[H|H] _]; auto.
Qed.
Lemma tree_reached : forall l (p : K) cs b, In b (tree_nodes l cs) -> clos_trans K (fun x y => In (x, y) (tree_edges l p cs)) p b.
Proof.
  induction l as [|l IH]; intros p cs; induction cs as [|[c subs] cs IHc]; intros b H; cbn [tree_edges tree_nodes flat_map d_child d_subs app In] in *; try destruct H.
  - subst. apply t_step. left; auto.
  - eapply tc_mono; [|apply IHc; auto]. cbn. auto.
  - subst. apply t_step. left; auto.
  - apply in_app_iff in H. destruct H as [H|H].
    + eapply t_trans; [apply t_step; left; reflexivity|]. eapply tc_mono; [|apply (IH c subs); auto]. cbn. intros. right. apply in_or_app; auto.
    + eapply tc_mono; [|apply IHc; auto]. cbn. intros. right. apply in_or_app; auto.
Qed.

Lemma edges_len : forall l (p : K) cs, length (tree_edges l p cs) = length (tree_nodes l cs).
Proof.
  induction l as [|l IH]; intros p cs; induction cs as [|[c subs] cs IHc]; cbn [tree_edges tree_nodes flat_map d_child d_subs app length] in *; auto.
  rewrite !app_length, IH, IHc. reflexivity.
Qed.

(** ** Which ids are in the log, and how many *)
Definition ids_of (log : list N) : N := fold_left N.lor log 0%N.
Lemma ids_bits : forall log a i, N.testbit (fold_left N.lor log a) i = true <-> N.testbit a i = true \/ exists e, In e log /\ N.testbit e i = true.
Proof.
  induction log as [|e log IH]; intros a i; cbn [fold_left].
  - split; auto. intros [H|(e & [] & _)]; auto.
  - rewrite IH, N.lor_spec, orb_true_iff. split.
    + intros [[H|H]|(x & H1 & H2)]; auto; right; [exists e|exists x]; cbn; auto.
    + intros [H|(x & [<-|H1] & H2)]; auto. right. exists x; auto.
Qed.
Lemma ids_same log es : (forall e, In e log <-> In e es) -> ids_of log = ids_of es.
Proof.
  intros H. apply N.bits_inj. intros i. apply eq_true_iff_eq. unfold ids_of. rewrite !ids_bits.
  split; (intros [X|(e & X & Y)]; [auto|right; exists e; split; auto; apply H; auto]).
Qed.
Lemma report_ids : forall log v, ErrorIds (report_all log v) = fold_left N.lor log (ErrorIds v).
Proof. induction log as [|e log IH]; intros v; cbn [report_all fold_left]; auto. exact (IH _). Qed.
Lemma report_count : forall log v, (ErrorCount v < 2^32)%N -> ErrorCount (report_all log v) = ((ErrorCount v + N.of_nat (length log)) mod 2^32)%N.
Proof.
  induction log as [|e log IH]; intros v H.
  - cbn. rewrite N.add_0_r, N.mod_small; auto.
  - change (report_all (e :: log) v) with (report_all log (report_error e v)). rewrite IH.
    + cbn [report_error ErrorCount length]. rewrite N.add_mod_idemp_l by discriminate. f_equal. lia.
    + cbn [report_error ErrorCount]. apply N.mod_lt. discriminate.
Qed.

Lemma log_in n f g : is_graph Ko g -> steps_needed Ko g <= n ->
  exists log, g_validate Ko n f g = Some log /\ forall e, In e log <->
    (e = InvalidCount /\ f_single f = true /\ (~ exactly_one (source g) \/ f_rooted f = true /\ ~ exactly_one (fun r => In r (g_roots g)))) \/
    (e = InvalidObject /\ f_rooted f = true /\ exists r, In r (g_roots g) /\ incoming g r) \/
    (e = MissingObject /\ f_rooted f = true /\ exists a, source g a /\ ~ In a (g_roots g)) \/
    (e = InvalidSetup /\ (f_rooted f = true /\ (exists b, incoming g b /\ forall r, In r (g_roots g) -> ~ reaches g r b) \/ f_acyclic f = true /\ cyclic g)).
Proof.
  intros HG Hn. destruct (t_log Ko KL KB n f g HG Hn) as (e1 & e2 & e3 & e4 & e5 & e6 & Ev & H1 & H2 & (F3 & H3 & N3) & (F4 & H4 & N4) & (F5 & H5 & N5) & H6).
  eexists. split; [exact Ev|]. intros e. rewrite !in_app_iff.
  rewrite (in_forall_eq e InvalidObject _ F3), (in_forall_eq e MissingObject _ F4), (in_forall_eq e InvalidSetup _ F5).
  assert (X1 : In e e1 <-> e = InvalidCount /\ f_single f = true /\ ~ exactly_one (source g)).
  { destruct H1 as [(-> & A & B)|[-> A]]; cbn; (split; [intros [H|[]]; auto|intros (C1 & C2 & C3); subst; auto]) || (split; [tauto|intros (C1 & C2 & C3); destruct (C3 (A C2))]). }
  assert (X2 : In e e2 <-> e = InvalidCount /\ f_rooted f = true /\ f_single f = true /\ ~ exactly_one (fun r => In r (g_roots g))).
  { destruct H2 as [(-> & A & B & C)|[-> A]]; cbn; (split; [intros [H|[]]; auto|intros (C1 & C2 & C3 & C4); subst; auto]) || (split; [tauto|intros (C1 & C2 & C3 & C4); destruct (C4 (A C2 C3))]). }
  assert (X6 : In e e6 <-> e = InvalidSetup /\ f_acyclic f = true /\ cyclic g).
  { destruct H6 as [(-> & A & B)|[-> A]]; cbn; (split; [intros [H|[]]; auto|intros (C1 & C2 & C3); subst; auto]) || (split; [tauto|intros (C1 & C2 & C3); destruct ((A C2) C3)]). }
  assert (X3 : e3 <> [] <-> f_rooted f = true /\ exists r, In r (g_roots g) /\ incoming g r).
  { split.
    - intros H. destruct (f_rooted f) eqn:E; [|exfalso; apply H, H3; discriminate]. split; auto.
    - intros (R & r & A & B) H. exact (proj1 H3 H R r A B). }
  assert (X4 : e4 <> [] <-> f_rooted f = true /\ exists a, source g a /\ ~ In a (g_roots g)).
  { split.
    - intros H. destruct (f_rooted f) eqn:E; [|exfalso; apply H, H4; discriminate]. split; auto.
    - intros (R & r & A & B) H. exact (B (proj1 H4 H R r A)). }
  assert (X5 : e5 <> [] <-> f_rooted f = true /\ exists b, incoming g b /\ forall r, In r (g_roots g) -> ~ reaches g r b).
  { split.
    - intros H. destruct (f_rooted f) eqn:E; [|exfalso; apply H, H5; discriminate]. split; auto.
    - intros (R & b & A & B) H. destruct (proj1 H5 H R b A) as (r & C & D). exact (B r C D). }
  rewrite X1, X2, X3, X4, X5, X6. clear. generalize (e = InvalidCount) (e = InvalidObject) (e = MissingObject) (e = InvalidSetup).
  generalize (f_single f = true) (f_rooted f = true) (f_acyclic f = true) (exactly_one (source g)) (exactly_one (fun r => In r (g_roots g)))
    (exists r, In r (g_roots g) /\ incoming g r) (exists a, source g a /\ ~ In a (g_roots g)) (cyclic g)
    (exists b, incoming g b /\ forall r, In r (g_roots g) -> ~ reaches g r b).
  intros A1 A2 A3 A4 A5 A6 A7 A8 A9 B1 B2 B3 B4.
  split; [intros [H|[H|[H|[H|[H|H]]]]]|intros [(H1 & H2 & [H3|H3])|[H|[H|(H1 & [H2|H2])]]]].
  all: intuition.
Qed.

Lemma fold_len {A} (f : list K -> A -> list K) : (forall s a, length (f s a) <= S (length s)) -> forall l s, length (fold_left f l s) <= length l + length s.
Proof.
  intros H l. induction l as [|a l IH]; intros s; cbn; auto. specialize (IH (f s a)). specialize (H s a). lia.
Qed.
Lemma set_insert_len (x : K) s : length (set_insert lt x s) <= S (length s).
Proof. induction s as [|y s IH]; cbn; auto. destruct (lt x y); cbn; auto. destruct (lt y x); cbn; lia. Qed.
Lemma downstream_len e : length (downstream_nodes Ko e) <= length e.
Proof.
  unfold downstream_nodes. rewrite <- (Nat.add_0_r (length e)). apply (fold_len _) with (s := []). intros s a. destruct (negb _); [apply set_insert_len|auto].
Qed.
Lemma root_nodes_len e : length (root_nodes Ko e) <= length e.
Proof.
  unfold root_nodes. rewrite <- (Nat.add_0_r (length e)). apply (fold_len _) with (s := []). intros s a. destruct (negb _); [apply set_insert_len|auto].
Qed.
Lemma no_cycles_len n edges : forall todo on chk log, no_cycles_loop Ko n edges todo on chk = Some log -> length log <= 1.
Proof.
  induction todo as [|p todo IH]; intros on chk log H; cbn [no_cycles_loop] in H; [inversion H; cbn; auto|].
  destruct (contains _ _ _); [eauto|]. destruct (dfs _ _ _ _ _ _) as [[[[|] o] c]|]; try discriminate; [inversion H; cbn; auto|eauto].
Qed.
Lemma log_len n f g log : g_validate Ko n f g = Some log -> length log <= 3 + length (g_roots g) + 2 * length (g_edges g).
Proof.
  unfold g_validate. intros H.
  destruct (if f_rooted f then _ else Some []) as [e5|] eqn:E5; [|discriminate].
  destruct (if f_acyclic f then _ else Some []) as [e6|] eqn:E6; [|discriminate].
  assert (L5 : length e5 <= length (g_edges g)).
  { destruct (f_rooted f); [|inversion E5; cbn; lia]. unfold validate_rooted in E5. destruct (bfs _ _ _ _ _); inversion E5.
    rewrite map_length. etransitivity; [apply filter_len|apply downstream_len]. }
  assert (L6 : length e6 <= 1).
  { destruct (f_acyclic f); [|inversion E6; cbn; lia]. eapply no_cycles_len; exact E6. }
  inversion H. rewrite !app_length. clear H E5 E6 H1.
  assert (L3 : length (if f_rooted f then map (fun _ : K => InvalidObject) (filter (contains Ko (downstream_nodes Ko (g_edges g))) (g_roots g)) else []) <= length (g_roots g)).
  { destruct (f_rooted f); [|cbn; lia]. rewrite map_length. apply filter_len. }
  assert (L4 : length (if f_rooted f then map (fun _ : K => MissingObject) (filter (fun x : K => negb (contains Ko (g_roots g) x)) (root_nodes Ko (g_edges g))) else []) <= length (g_edges g)).
  { destruct (f_rooted f); [|cbn; lia]. rewrite map_length. etransitivity; [apply filter_len|apply root_nodes_len]. }
  assert (L1 : forall (b : bool) (x : N), length (if negb b then [x] else []) <= 1) by (intros [] ?; cbn; lia).
  assert (L2 : forall (c : bool) (l : list N), length l <= 1 -> length (if c then l else []) <= 1) by (intros [] ? ?; cbn; lia).
  pose proof (L2 (f_single f) _ (L1 (length (root_nodes Ko (g_edges g)) =? 1) InvalidCount)).
  pose proof (L2 (f_rooted f) _ (L2 (f_single f) _ (L1 (length (g_roots g) =? 1) InvalidCount))).
  lia.
Qed.

(** The end of the tests: the first graph has no error, the second one exactly those expected. *)
Lemma two_ok n f g1 g2 es : is_graph Ko g1 -> is_graph Ko g2 -> steps_needed Ko g1 <= n -> steps_needed Ko g2 <= n ->
  (N.of_nat (3 + length (g_roots g2) + 2 * length (g_edges g2)) < 2^32)%N -> es <> [] ->
  (forall log, g_validate Ko n f g1 = Some log -> forall e, ~ In e log) ->
  (forall log, g_validate Ko n f g2 = Some log -> forall e, In e log <-> In e es) ->
  two_validations Ko n f g1 g2 (ids_of es) = Some true.
Proof.
  intros G1 G2 N1 N2 L NE H1 H2. unfold two_validations, validate_into.
  destruct (log_in n f g1 G1 N1) as (l1 & E1 & _). destruct (log_in n f g2 G2 N2) as (l2 & E2 & _).
  rewrite E1. cbn [opt_bind]. specialize (H1 _ E1). destruct l1 as [|x l1]; [|destruct (H1 x); left; auto].
  cbn [report_all fold_left new_validator ErrorCount N.eqb negb clear_error_count ErrorIds]. rewrite E2. cbn [opt_bind].
  specialize (H2 _ E2). pose proof (log_len _ _ _ _ E2) as L2.
  rewrite report_count by (cbn; reflexivity). cbn [ErrorCount]. rewrite N.add_0_l, N.mod_small by lia.
  destruct (N.eqb_spec (N.of_nat (length l2)) 0) as [e|e].
  { exfalso. destruct l2; [|cbn in e; lia]. destruct es as [|y es]; [auto|]. apply (proj2 (H2 y)). left; auto. }
  rewrite report_ids. change (Some (ids_of l2 =? ids_of es)%N = Some true). rewrite (ids_same _ _ H2), N.eqb_refl. reflexivity.
Qed.
Lemma one_ok n f g : is_graph Ko g -> steps_needed Ko g <= n -> (forall log, g_validate Ko n f g = Some log -> forall e, ~ In e log) ->
  validate_into Ko n f g new_validator = Some new_validator.
Proof.
  intros G N1 H. unfold validate_into. destruct (log_in n f g G N1) as (l1 & E1 & _). rewrite E1. specialize (H _ E1).
  destruct l1 as [|x l1]; [|destruct (H x); left; auto]. reflexivity.
Qed.
End T.
