(** * GraphProps: DirectedGraph validation and set behaviour. Proofs. *)
From Coq Require Import Sorting.Sorted Relation_Operators Operators_Properties.
From Verif Require Import Base Types Keys KeySpec StdSet StdSetFacts Graph Validator GraphSpec GraphFacts.
Local Open Scope nat_scope.

Section G.
Context {K : Type} (Ko : keyops K) (KL : key_laws Ko) (KB : key_bounds Ko).
Notation lt := (k_lt Ko).
Notation LT := (proj1 KL).

Section Edges.
Context (edges : list (K * K)) (ES : is_set (pair_lt lt) edges).
Notation E := (fun a b => In (a, b) edges).
Context (roots : list K).
Notation g := (Graph roots edges).

Lemma path_step_r x y z : reaches g x y -> E y z -> reaches g x z.
Proof.
  intros [->|H] H2; right; [apply t_step; auto|]. eapply t_trans; [exact H|]. apply t_step; auto.
Qed.

Definition binv (queue reached : list K) : Prop :=
  (forall y, In y queue \/ In y reached -> exists r, In r roots /\ reaches g r y) /\
  (forall r, In r roots -> In r queue \/ In r reached) /\
  (forall x c, In x reached -> E x c -> In c queue \/ In c reached).

Lemma bfs_correct (U : list K) (HU : forall x c, E x c -> In c U) : forall n queue reached,
  binv queue reached -> incl queue U -> weight Ko edges U reached + length queue <= n ->
  exists reached', bfs Ko n edges queue reached = Some reached' /\ binv [] reached'.
Proof.
  induction n as [|n IH]; intros queue reached HB HQ HM; destruct queue as [|x queue].
  - exists reached. auto.
  - cbn [length] in HM. lia.
  - exists reached. auto.
  - destruct HB as (B1 & B2 & B3). cbn [bfs]. destruct (contains Ko reached x) eqn:Ex.
    + apply (contains_iff Ko KL) in Ex. apply IH.
      * split; [|split].
        -- intros y Hy. apply B1. cbn. tauto.
        -- intros r Hr. destruct (B2 r Hr) as [[<-|]|]; auto.
        -- intros y c Hy Hc. destruct (B3 y c Hy Hc) as [[<-|]|]; auto.
      * intros y Hy; apply HQ; right; auto.
      * cbn [length] in HM. lia.
    + assert (Hx : ~ In x reached) by (apply (contains_false Ko KL); auto).
      set (new := filter (fun c => negb (contains Ko (set_insert lt x reached) c)) (downstream Ko edges x)).
      assert (Hnew : forall c, In c new <-> E x c /\ ~ In c (set_insert lt x reached)).
      { intros c. unfold new. rewrite filter_In, (downstream_iff Ko KL KB edges ES), negb_true_iff, (contains_false Ko KL). tauto. }
      apply IH.
      * split; [|split].
        -- intros y. rewrite in_app_iff, (insert_in _ LT). intros [[Hy|Hy]|[->|Hy]].
           ++ apply B1. cbn; auto.
           ++ apply Hnew in Hy. destruct (B1 x) as (r & Hr & R); [cbn; auto|]. exists r. split; auto. eapply path_step_r; eauto. apply Hy.
           ++ apply B1. cbn; auto.
           ++ apply B1. auto.
        -- intros r Hr. rewrite in_app_iff, (insert_in _ LT). destruct (B2 r Hr) as [[<-|]|]; auto.
        -- intros y c. rewrite !in_app_iff, !(insert_in _ LT). intros [->|Hy] Hc.
           ++ destruct (in_dec_k Ko KL c (set_insert lt x reached)) as [Hi|Hi].
              ** apply (insert_in _ LT) in Hi. auto.
              ** left; right. apply Hnew; auto.
           ++ destruct (B3 y c Hy Hc) as [[<-|]|]; auto.
      * intros y Hy. apply in_app_iff in Hy. destruct Hy as [Hy|Hy]; [apply HQ; right; auto|].
        apply Hnew in Hy. eapply HU; apply Hy.
      * cbn [length] in HM. rewrite app_length.
        pose proof (weight_visit Ko KL edges U reached x (HQ x (or_introl eq_refl)) Hx) as HW.
        pose proof (filter_len (fun c => negb (contains Ko (set_insert lt x reached) c)) (downstream Ko edges x)) as HL.
        fold new in HL. unfold deg in HW. lia.
Qed.

Definition bound_r : nat := weight Ko edges (roots ++ universe edges) [] + length roots.

Lemma t_reached n : bound_r <= n ->
  exists reached, bfs Ko n edges roots [] = Some reached /\
    forall y, In y reached <-> exists r, In r roots /\ reaches g r y.
Proof.
  intros Hn.
  destruct (bfs_correct (roots ++ universe edges)) with (n := n) (queue := roots) (reached := @nil K) as (re & E1 & B1 & B2 & B3).
  - intros x c Hc. apply in_or_app. right. apply in_or_app. right. apply in_map_iff. exists (x, c); auto.
  - split; [|split].
    + intros y [Hy|[]]. exists y. split; auto. left; auto.
    + auto.
    + intros x c [].
  - intros y Hy. apply in_or_app; auto.
  - unfold bound_r in Hn. exact Hn.
  - exists re. split; auto. intros y. split.
    + intros Hy. apply B1. auto.
    + intros (r & Hr & [<-|P]).
      * destruct (B2 r Hr) as [[]|]; auto.
      * apply clos_trans_tn1 in P. induction P as [y H|y z H P IHP].
        -- destruct (B2 r Hr) as [[]|H1]. destruct (B3 r y H1 H) as [[]|]; auto.
        -- destruct (B3 y z IHP H) as [[]|]; auto.
Qed.

Lemma downstream_nodes_in : forall b, In b (downstream_nodes Ko edges) <-> incoming g b.
Proof.
  intros b. unfold downstream_nodes, incoming, edge. cbn [g_edges].
  assert (X : forall (l : list (K * K)) (s : list K), In b (fold_left (fun s p => if negb (contains Ko s (snd p)) then set_insert lt (snd p) s else s) l s) <->
    In b s \/ exists a, In (a, b) l).
  { induction l as [|[a c] l IH]; intros s; cbn [fold_left].
    - split; auto. intros [|[? []]]; auto.
    - rewrite IH. cbn [snd].
      assert (Y : In b (if negb (contains Ko s c) then set_insert lt c s else s) <-> b = c \/ In b s).
      { destruct (contains Ko s c) eqn:Ec; cbn [negb].
        - apply (contains_iff Ko KL) in Ec. split; auto. intros [->|]; auto.
        - apply (insert_in _ LT). }
      rewrite Y. split.
      + intros [[->|H]|[d H]]; auto.
        * right. exists a. left; auto.
        * right. exists d. right; auto.
      + intros [H|[d [H|H]]]; auto.
        * inversion H; subst; auto.
        * right. exists d; auto. }
  rewrite X. cbn. split; [intros [[]|]; auto|auto].
Qed.

Lemma root_nodes_in : forall a, In a (root_nodes Ko edges) <-> source g a.
Proof.
  intros a. unfold root_nodes, source.
  assert (X : forall (l : list (K * K)) (s : list K), In a (fold_left (fun s p => if negb (contains Ko (downstream_nodes Ko edges) (fst p)) then set_insert lt (fst p) s else s) l s) <->
    In a s \/ (exists b, In (a, b) l) /\ ~ incoming g a).
  { induction l as [|[c d] l IH]; intros s; cbn [fold_left].
    - split; auto. intros [|[[? []] _]]; auto.
    - rewrite IH. cbn [fst]. destruct (contains Ko (downstream_nodes Ko edges) c) eqn:Ec; cbn [negb].
      + apply (contains_iff Ko KL), downstream_nodes_in in Ec. split.
        * intros [H|[[b H] N]]; auto. right. split; auto. exists b; right; auto.
        * intros [H|[[b [H|H]] N]]; auto.
          -- inversion H; subst. tauto.
          -- right. split; auto. exists b; auto.
      + assert (N : ~ incoming g c). { rewrite <- downstream_nodes_in. apply (contains_false Ko KL); auto. }
        rewrite (insert_in _ LT). split.
        * intros [[->|H]|[[b H] N']]; auto.
          -- right. split; auto. exists d; left; auto.
          -- right. split; auto. exists b; right; auto.
        * intros [H|[[b [H|H]] N']]; auto.
          -- inversion H; subst. auto.
          -- right. split; auto. exists b; auto. }
  rewrite X. cbn. unfold edge. cbn. tauto.
Qed.
Lemma root_nodes_nodup : NoDup (root_nodes Ko edges).
Proof.
  apply (sorted_nodup lt LT). unfold root_nodes.
  assert (X : forall (l : list (K * K)) (s : list K), is_set lt s -> is_set lt (fold_left (fun s p => if negb (contains Ko (downstream_nodes Ko edges) (fst p)) then set_insert lt (fst p) s else s) l s)).
  { induction l as [|p l IH]; intros s Hs; cbn; auto. apply IH. destruct (negb _); auto. apply (insert_sorted lt LT); auto. }
  apply X. constructor.
Qed.
End Edges.

Lemma exactly_one_len {A} (l : list A) : NoDup l -> (length l = 1 <-> exactly_one (fun a => In a l)).
Proof.
  intros N. split.
  - destruct l as [|a [|b l]]; try discriminate. intros _. exists a. split; [left; auto|]. intros b [|[]]; auto.
  - intros (a & Ha & H). destruct l as [|b [|c l]]; auto; [destruct Ha|].
    exfalso. pose proof (H b (or_introl eq_refl)). pose proof (H c (or_intror (or_introl eq_refl))). subst.
    inversion N as [|? ? N1]; subst. apply N1. left; auto.
Qed.
Lemma exactly_one_ext {A} (P Q : A -> Prop) : (forall a, P a <-> Q a) -> (exactly_one P <-> exactly_one Q).
Proof. intros H. unfold exactly_one. split; intros (a & Ha & H1); exists a; split; try apply H; auto; intros b Hb; apply H1, H, Hb. Qed.

Lemma filter_nil {A} (f : A -> bool) l : filter f l = [] <-> forall x, In x l -> f x = false.
Proof.
  induction l as [|a l IH]; cbn; [tauto|]. destruct (f a) eqn:Ef.
  - split; [discriminate|]. intros H. rewrite (H a) in Ef; auto. discriminate.
  - rewrite IH. split; auto. intros H x [<-|Hx]; auto.
Qed.
Lemma map_nil {A B} (f : A -> B) l : map f l = [] <-> l = [].
Proof. destruct l; cbn; split; congruence. Qed.
Lemma map_filter_ex {A B} (f : A -> bool) (h : A -> B) l : map h (filter f l) <> [] -> exists x, In x l /\ f x = true.
Proof.
  intros H. destruct (filter f l) as [|a r] eqn:E; [destruct H; reflexivity|].
  exists a. apply filter_In. rewrite E. left; auto.
Qed.
Lemma in_map_const {A B} (b c : B) (l : list A) : In b (map (fun _ => c) l) <-> b = c /\ l <> [].
Proof.
  induction l as [|a l IH]; cbn; [tauto|]. rewrite IH. split; [intros [->|[-> _]]; split; auto; discriminate|].
  intros [-> _]; auto.
Qed.

Definition steps_needed (g : graph K) : nat := bound Ko (g_edges g) + bound_r (g_edges g) (g_roots g).

Lemma cyclic_roots r r' edges : cyclic (Graph r edges) <-> cyclic (@Graph K r' edges).
Proof. reflexivity. Qed.

(** The log, part by part. *)
Lemma t_log n f g : is_graph Ko g -> steps_needed g <= n ->
  exists e1 e2 e3 e4 e5 e6, g_validate Ko n f g = Some (e1 ++ e2 ++ e3 ++ e4 ++ e5 ++ e6) /\
    (e1 = [InvalidCount] /\ f_single f = true /\ ~ exactly_one (source g) \/ e1 = [] /\ (f_single f = true -> exactly_one (source g))) /\
    (e2 = [InvalidCount] /\ f_rooted f = true /\ f_single f = true /\ ~ exactly_one (fun r => In r (g_roots g)) \/
       e2 = [] /\ (f_rooted f = true -> f_single f = true -> exactly_one (fun r => In r (g_roots g)))) /\
    (Forall (fun e => e = InvalidObject) e3 /\ (e3 = [] <-> (f_rooted f = true -> forall r, In r (g_roots g) -> ~ incoming g r)) /\
       (f_rooted f = true -> e3 <> [] -> exists r, In r (g_roots g) /\ incoming g r)) /\
    (Forall (fun e => e = MissingObject) e4 /\ (e4 = [] <-> (f_rooted f = true -> forall a, source g a -> In a (g_roots g))) /\
       (f_rooted f = true -> e4 <> [] -> exists a, source g a /\ ~ In a (g_roots g))) /\
    (Forall (fun e => e = InvalidSetup) e5 /\ (e5 = [] <-> (f_rooted f = true -> forall b, incoming g b -> exists r, In r (g_roots g) /\ reaches g r b)) /\
       (f_rooted f = true -> e5 <> [] -> exists b, incoming g b /\ forall r, In r (g_roots g) -> ~ reaches g r b)) /\
    (e6 = [InvalidSetup] /\ f_acyclic f = true /\ cyclic g \/ e6 = [] /\ (f_acyclic f = true -> ~ cyclic g)).
Proof.
  destruct g as [roots edges]. intros [RS ES] Hn. cbn [g_roots g_edges] in *. unfold steps_needed in Hn. cbn [g_roots g_edges] in Hn.
  unfold g_validate. cbn [g_roots g_edges].
  destruct (t_reached edges ES roots n) as (re & Hre & Rre); [lia|].
  destruct (t_no_cycles Ko KL KB edges ES n) as (lc & Hlc & Clc); [lia|].
  unfold validate_rooted. rewrite Hre, Hlc.
  assert (Hone : length (root_nodes Ko edges) = 1 <-> exactly_one (source (Graph roots edges))).
  { rewrite (exactly_one_len _ (root_nodes_nodup edges)). apply exactly_one_ext. intros a. apply (root_nodes_in edges roots). }
  assert (Hroots : length roots = 1 <-> exactly_one (fun r => In r roots)).
  { apply exactly_one_len. apply (sorted_nodup lt LT). exact RS. }
  assert (FC : forall {A} (c : N) (l : list A), Forall (fun e => e = c) (map (fun _ => c) l)).
  { intros A c l. apply Forall_forall. intros e He. apply in_map_const in He. tauto. }
  exists (if f_single f then (if negb (Nat.eqb (length (root_nodes Ko edges)) 1) then [InvalidCount] else []) else []),
    (if f_rooted f then (if f_single f then (if negb (Nat.eqb (length roots) 1) then [InvalidCount] else []) else []) else []),
    (if f_rooted f then map (fun _ => InvalidObject) (filter (contains Ko (downstream_nodes Ko edges)) roots) else []),
    (if f_rooted f then map (fun _ => MissingObject) (filter (fun x => negb (contains Ko roots x)) (root_nodes Ko edges)) else []),
    (if f_rooted f then map (fun _ => InvalidSetup) (filter (fun x => negb (contains Ko re x)) (downstream_nodes Ko edges)) else []),
    (if f_acyclic f then lc else []).
  split; [destruct (f_rooted f), (f_acyclic f); reflexivity|].
  split.
  { destruct (f_single f); [|right; split; auto; discriminate].
    destruct (Nat.eqb_spec (length (root_nodes Ko edges)) 1) as [e|e]; cbn [negb].
    - right. split; auto. intros _. apply Hone; auto.
    - left. split; auto. split; auto. rewrite <- Hone; auto. }
  split.
  { destruct (f_rooted f); [|right; split; auto; discriminate].
    destruct (f_single f); [|right; split; auto; discriminate].
    destruct (Nat.eqb_spec (length roots) 1) as [e|e]; cbn [negb].
    - right. split; auto. intros _ _. apply Hroots; auto.
    - left. split; auto. split; auto. split; auto. rewrite <- Hroots; auto. }
  split.
  { destruct (f_rooted f); [|split; [constructor|]; split; [split; auto; discriminate|discriminate]].
    split; [apply FC|]. split; [rewrite map_nil, filter_nil; split|].
    - intros H _ r Hr. rewrite <- (downstream_nodes_in edges roots). apply (contains_false Ko KL). auto.
    - intros H r Hr. apply (contains_false Ko KL). rewrite (downstream_nodes_in edges roots). auto.
    - intros _ H. apply map_filter_ex in H. destruct H as (r & H1 & H2). exists r. split; auto.
      apply (downstream_nodes_in edges roots), (contains_iff Ko KL); auto. }
  split.
  { destruct (f_rooted f); [|split; [constructor|]; split; [split; auto; discriminate|discriminate]].
    split; [apply FC|]. split; [rewrite map_nil, filter_nil; split|].
    - intros H _ a Ha. apply (root_nodes_in edges roots) in Ha. specialize (H a Ha). rewrite negb_false_iff in H.
      apply (contains_iff Ko KL); auto.
    - intros H a Ha. apply (root_nodes_in edges roots) in Ha. rewrite negb_false_iff. apply (contains_iff Ko KL); auto.
    - intros _ H. apply map_filter_ex in H. destruct H as (a & H1 & H2). exists a. split; [apply (root_nodes_in edges roots); auto|].
      apply (contains_false Ko KL). apply negb_true_iff; auto. }
  split.
  { destruct (f_rooted f); [|split; [constructor|]; split; [split; auto; discriminate|discriminate]].
    split; [apply FC|]. split; [rewrite map_nil, filter_nil; split|].
    - intros H _ b Hb. apply (downstream_nodes_in edges roots) in Hb. specialize (H b Hb). rewrite negb_false_iff in H.
      apply Rre. apply (contains_iff Ko KL); auto.
    - intros H b Hb. apply (downstream_nodes_in edges roots) in Hb. rewrite negb_false_iff. apply (contains_iff Ko KL), Rre; auto.
    - intros _ H. apply map_filter_ex in H. destruct H as (b & H1 & H2). exists b. split; [apply (downstream_nodes_in edges roots); auto|].
      apply negb_true_iff, (contains_false Ko KL) in H2. intros r Hr Rb. apply H2, Rre. exists r; auto. }
  destruct (f_acyclic f); [|right; split; auto; discriminate].
  destruct Clc as [[-> H]|[-> H]]; [right|left]; auto.
Qed.

Lemma t_validate n f g : is_graph Ko g -> steps_needed g <= n ->
  exists log, g_validate Ko n f g = Some log /\
    (log = [] <-> (f_acyclic f = true -> ~ cyclic g) /\ (f_rooted f = true -> well_rooted g) /\
       (f_single f = true -> exactly_one (source g)) /\
       (f_rooted f = true -> f_single f = true -> exactly_one (fun r => In r (g_roots g)))).
Proof.
  intros HG Hn. destruct (t_log n f g HG Hn) as (e1 & e2 & e3 & e4 & e5 & e6 & Ev & H1 & H2 & (_ & H3 & _) & (_ & H4 & _) & (_ & H5 & _) & H6).
  eexists. split; [exact Ev|]. split.
  - intros H. apply app_eq_nil in H. destruct H as [-> H]. apply app_eq_nil in H. destruct H as [-> H].
    apply app_eq_nil in H. destruct H as [-> H]. apply app_eq_nil in H. destruct H as [-> H].
    apply app_eq_nil in H. destruct H as [-> ->].
    destruct H1 as [[? _]|[_ H1]]; [discriminate|]. destruct H2 as [[? _]|[_ H2]]; [discriminate|].
    destruct H6 as [[? _]|[_ H6]]; [discriminate|].
    split; auto. split; [|split; auto]. intros F.
    pose proof (proj1 H3 eq_refl F) as R1. pose proof (proj1 H4 eq_refl F) as R2. pose proof (proj1 H5 eq_refl F) as R3.
    split; auto. split; auto. intros b [[c Hc]|Hb]; auto.
    destruct (in_dec_k Ko KL b (downstream_nodes Ko (g_edges g))) as [Hd|Hd].
    + apply R3. destruct g. apply (downstream_nodes_in g_edges g_roots). exact Hd.
    + exists b. split; [|left; auto]. apply R2. split; [exists c; auto|]. intros Hi. apply Hd.
      destruct g. apply (downstream_nodes_in g_edges g_roots). exact Hi.
  - intros (C1 & C2 & C3 & C4).
    destruct H1 as [(? & F & N)|[-> _]]; [destruct (N (C3 F))|].
    destruct H2 as [(? & F & F2 & N)|[-> _]]; [destruct (N (C4 F F2))|].
    destruct H6 as [(? & F & N)|[-> _]]; [destruct (C1 F N)|].
    rewrite (proj2 H3), (proj2 H4), (proj2 H5); auto.
    + intros F b Hb. apply (C2 F). right; auto.
    + intros F. apply (C2 F).
    + intros F. apply (C2 F).
Qed.

Lemma t_acyclic n rooted single g : is_graph Ko g -> steps_needed g <= n ->
  exists log e, g_validate Ko n (GFlags false rooted single) g = Some log /\
    g_validate Ko n (GFlags true rooted single) g = Some (log ++ e) /\
    (e = [] /\ ~ cyclic g \/ e = [InvalidSetup] /\ cyclic g).
Proof.
  destruct g as [roots edges]. intros [RS ES] Hn. cbn [g_roots g_edges] in *. unfold steps_needed in Hn. cbn [g_roots g_edges] in Hn.
  unfold g_validate. cbn [g_roots g_edges f_rooted f_acyclic f_single].
  destruct (t_reached edges ES roots n) as (re & Hre & Rre); [lia|].
  destruct (t_no_cycles Ko KL KB edges ES n) as (lc & Hlc & Clc); [lia|].
  unfold validate_rooted. rewrite Hre, Hlc.
  exists ((if single then if negb (Nat.eqb (length (root_nodes Ko edges)) 1) then [InvalidCount] else [] else []) ++
    (if rooted then if single then if negb (Nat.eqb (length roots) 1) then [InvalidCount] else [] else [] else []) ++
    (if rooted then map (fun _ => InvalidObject) (filter (contains Ko (downstream_nodes Ko edges)) roots) else []) ++
    (if rooted then map (fun _ => MissingObject) (filter (fun x => negb (contains Ko roots x)) (root_nodes Ko edges)) else []) ++
    (if rooted then map (fun _ => InvalidSetup) (filter (fun x => negb (contains Ko re x)) (downstream_nodes Ko edges)) else [])), lc.
  split; [destruct rooted; rewrite ?app_nil_r; reflexivity|].
  split; [destruct rooted; rewrite <- !app_assoc; reflexivity|].
  destruct Clc as [[-> H]|[-> H]]; auto.
Qed.

(** Which error is reported for what. *)
Lemma in_forall_eq {A} (a b : A) l : Forall (fun e => e = b) l -> (In a l <-> a = b /\ l <> []).
Proof.
  intros F. rewrite Forall_forall in F. split.
  - intros H. split; auto. intros ->; auto.
  - intros [-> H]. destruct l as [|c l]; [tauto|]. left. apply F. left; auto.
Qed.

Lemma t_rooted_ids n single acyclic g : is_graph Ko g -> steps_needed g <= n ->
  exists log, g_validate Ko n (GFlags acyclic true single) g = Some log /\
    (In InvalidObject log <-> exists r, In r (g_roots g) /\ incoming g r) /\
    (In MissingObject log <-> exists a, source g a /\ ~ In a (g_roots g)) /\
    (In InvalidCount log <-> single = true /\ (~ exactly_one (source g) \/ ~ exactly_one (fun r => In r (g_roots g)))) /\
    (In InvalidSetup log <-> (exists b, incoming g b /\ forall r, In r (g_roots g) -> ~ reaches g r b) \/ acyclic = true /\ cyclic g).
Proof.
  intros HG Hn. destruct (t_log n (GFlags acyclic true single) g HG Hn) as (e1 & e2 & e3 & e4 & e5 & e6 & Ev & H1 & H2 & (F3 & H3 & N3) & (F4 & H4 & N4) & (F5 & H5 & N5) & H6).
  cbn [f_rooted f_acyclic f_single] in *. specialize (N3 eq_refl). specialize (N4 eq_refl). specialize (N5 eq_refl).
  eexists. split; [exact Ev|].
  assert (X1 : forall c, In c e1 <-> c = InvalidCount /\ single = true /\ ~ exactly_one (source g)).
  { intros c. destruct H1 as [(-> & A & B)|[-> A]]; cbn; (split; [intros H; try destruct H as [H|H]; try destruct H; auto|intros (C1 & C2 & C3); subst; auto]). }
  assert (X2 : forall c, In c e2 <-> c = InvalidCount /\ single = true /\ ~ exactly_one (fun r => In r (g_roots g))).
  { intros c. destruct H2 as [(-> & A & B & C)|[-> A]]; cbn; (split; [intros H; try destruct H as [H|H]; try destruct H; auto|intros (C1 & C2 & C3); subst; auto]). }
  assert (X6 : forall c, In c e6 <-> c = InvalidSetup /\ acyclic = true /\ cyclic g).
  { intros c. destruct H6 as [(-> & A & B)|[-> A]]; cbn; (split; [intros H; try destruct H as [H|H]; try destruct H; auto|intros (C1 & C2 & C3); subst; auto; try solve [destruct (A C2 C3)]]). exact (A eq_refl C3). }
  assert (X3 : forall c, In c e3 <-> c = InvalidObject /\ exists r, In r (g_roots g) /\ incoming g r).
  { intros c. rewrite (in_forall_eq c InvalidObject _ F3). split; intros [-> H]; split; auto.
    intros H0. destruct H as (r & A & B). exact (proj1 H3 H0 eq_refl r A B). }
  assert (X4 : forall c, In c e4 <-> c = MissingObject /\ exists a, source g a /\ ~ In a (g_roots g)).
  { intros c. rewrite (in_forall_eq c MissingObject _ F4). split; intros [-> H]; split; auto.
    intros H0. destruct H as (r & A & B). exact (B (proj1 H4 H0 eq_refl r A)). }
  assert (X5 : forall c, In c e5 <-> c = InvalidSetup /\ exists b, incoming g b /\ forall r, In r (g_roots g) -> ~ reaches g r b).
  { intros c. rewrite (in_forall_eq c InvalidSetup _ F5). split; intros [-> H]; split; auto.
    intros H0. destruct H as (b & A & B). destruct (proj1 H5 H0 eq_refl b A) as (r & R1 & R2). exact (B r R1 R2). }
  assert (L : forall c, In c (e1 ++ e2 ++ e3 ++ e4 ++ e5 ++ e6) <-> In c e1 \/ In c e2 \/ In c e3 \/ In c e4 \/ In c e5 \/ In c e6)
    by (intros c; rewrite !in_app_iff; reflexivity).
  clear H1 H2 H3 H4 H5 H6 N3 N4 N5 F3 F4 F5 Ev.
  split; [|split; [|split]]; rewrite L, X1, X2, X3, X4, X5, X6; clear; split;
    first [ intros [[D H]|[[D H]|[[D H]|[[D H]|[[D H]|[D H]]]]]]; solve [discriminate D | tauto]
          | intros H; tauto ].
Qed.
End G.
