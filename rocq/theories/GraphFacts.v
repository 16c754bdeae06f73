(** * GraphFacts: the searches of DirectedGraph. Proofs. *)
From Coq Require Import Sorting.Sorted Relation_Operators Operators_Properties.
From Verif Require Import Base Types Keys KeySpec StdSet StdSetFacts Graph Validator GraphSpec.
Local Open Scope nat_scope.

Section G.
Context {K : Type} (Ko : keyops K) (KL : key_laws Ko) (KB : key_bounds Ko).
Notation lt := (k_lt Ko).
Notation LT := (proj1 KL).

Lemma contains_iff s x : contains Ko s x = true <-> In x s.
Proof. apply mem_iff, LT. Qed.
Lemma contains_false s x : contains Ko s x = false <-> ~ In x s.
Proof. apply mem_false, LT. Qed.
Lemma in_dec_k (x : K) s : In x s \/ ~ In x s.
Proof. destruct (contains Ko s x) eqn:E; [left; apply contains_iff|right; apply contains_false]; auto. Qed.

Section Edges.
Context (edges : list (K * K)) (ES : is_set (pair_lt lt) edges).
Notation E := (fun a b => In (a, b) edges).
Notation g := (Graph [] edges).

Lemma downstream_iff x c : In c (downstream Ko edges x) <-> E x c.
Proof.
  unfold downstream.
  destruct (range_lower_upper _ (pair_lt_order _ LT) (x, k_inf Ko) (x, k_sup Ko) edges ES) as [_ ->].
  { unfold pair_lt; cbn. rewrite (lt_irr _ LT). cbn. apply KB. }
  rewrite in_map_iff. split.
  - intros ([a b] & Hb & Hf). cbn in Hb. subst b. apply filter_In in Hf. destruct Hf as [Hi Hf].
    apply andb_true_iff in Hf. destruct Hf as [H1 H2]. rewrite !negb_true_iff in *. unfold pair_lt in *. cbn in *.
    apply orb_false_iff in H1, H2. destruct H1 as [H1 _], H2 as [H2 _].
    rewrite <- (lt_neither _ LT _ _ H1 H2). exact Hi.
  - intros Hi. exists (x, c). split; auto. apply filter_In. split; auto.
    unfold pair_lt; cbn. rewrite (lt_irr _ LT). cbn.
    rewrite (proj1 (KB c)), (proj2 (KB c)). reflexivity.
Qed.

(** ** Depth first search *)
Lemma scan_spec on chk cs st : 
  (fst (scan_children Ko on chk cs st) = true -> exists c, In c cs /\ In c chk /\ In c on) /\
  (fst (scan_children Ko on chk cs st) = false ->
     (forall c, In c cs -> In c chk -> ~ In c on) /\
     snd (scan_children Ko on chk cs st) = rev (filter (fun c => negb (contains Ko chk c)) cs) ++ st).
Proof.
  revert st; induction cs as [|c cs IH]; intros st; cbn.
  - split; [discriminate|]. split; auto.
  - destruct (contains Ko chk c) eqn:Ec; cbn [negb].
    + destruct (contains Ko on c) eqn:Eo; cbn.
      * split; [|discriminate]. intros _. exists c. split; auto. rewrite <- !contains_iff. auto.
      * destruct (IH st) as [I1 I2]. split.
        -- intros H. destruct (I1 H) as (d & ? & ? & ?). exists d; auto.
        -- intros H. destruct (I2 H) as [I3 I4]. split; auto.
           intros d [<-|Hd]; auto. intros _. apply contains_false; auto.
    + destruct (IH (c :: st)) as [I1 I2]. split.
      * intros H. destruct (I1 H) as (d & ? & ? & ?). exists d; auto.
      * intros H. destruct (I2 H) as [I3 I4]. split.
        -- intros d [<-|Hd]; auto. intros Hc. apply contains_false in Ec. tauto.
        -- rewrite I4. cbn. rewrite <- app_assoc. reflexivity.
Qed.

Definition down_acc := Acc (fun c x => E x c).
Definition inv (gs : list (K * bool)) (on chk : list K) : Prop :=
  (forall x, In x on <-> In (x, true) gs) /\
  (forall x, In x on -> In x chk /\ ~ E x x) /\
  (forall x, In x chk -> ~ In x on -> down_acc x /\ forall c, E x c -> In c chk /\ ~ In c on) /\
  (forall s1 x s2, gs = s1 ++ (x, true) :: s2 ->
     ~ In x (map fst s1) /\ (forall y, In y (map fst s1) -> path g x y) /\
     (forall c, E x c -> In c chk \/ In c (map fst s1))).

Lemma inv_nil_on on chk : inv [] on chk -> on = [].
Proof. intros (I1 & _). destruct on as [|a on]; auto. destruct (proj1 (I1 a)); left; auto. Qed.

(** Top of the stack already checked: it is popped, nothing is pushed. *)
Lemma inv_pop x b gs on chk : inv ((x, b) :: gs) on chk -> In x chk ->
  (forall c, E x c -> In c chk -> ~ In c (set_erase lt x on)) ->
  inv gs (set_erase lt x on) chk /\ (forall c, E x c -> In c chk).
Proof.
  intros (I1 & I2 & I3 & I4) Hc Hno.
  assert (Hplain : b = false -> ~ In (x, true) gs).
  { intros -> Ho. apply in_split in Ho. destruct Ho as (s1 & s2 & ->).
    destruct (I4 ((x, false) :: s1) x s2 eq_refl) as (H & _). destruct H. left; auto. }
  assert (Htop : b = true -> ~ In (x, true) gs).
  { intros -> Ho. apply in_split in Ho. destruct Ho as (s1 & s2 & ->).
    destruct (I4 ((x, true) :: s1) x s2 eq_refl) as (H & _). destruct H. left; auto. }
  assert (Hch : forall c, E x c -> In c chk).
  { intros c Hxc. destruct b.
    - destruct (I4 [] x gs eq_refl) as (_ & _ & H). destruct (H c Hxc) as [|[]]; auto.
    - destruct (in_dec_k x on) as [Ho|Ho].
      + apply I1 in Ho. destruct Ho as [Ho|Ho]; [inversion Ho|]. destruct (Hplain eq_refl Ho).
      + apply (proj2 (I3 x Hc Ho) c Hxc). }
  split; [|exact Hch].
  assert (Hdone : down_acc x).
  { destruct (in_dec_k x on) as [Ho|Ho]; [|apply I3; auto].
    constructor. intros c Hxc. 
    destruct (in_dec_k c on) as [Hco|Hco]; [|apply I3; auto].
    destruct (in_dec_k c [x]) as [[Hx|[]]|Hx].
    - subst c. destruct (proj2 (I2 x Ho) Hxc).
    - destruct (Hno c Hxc (Hch c Hxc)). apply (erase_in _ LT). split; auto. intros ->. apply Hx. left; auto. }
  split; [|split; [|split]].
  - intros y. rewrite (erase_in _ LT), I1. cbn. split.
    + intros [[H|H] N]; auto. inversion H; subst. tauto.
    + intros H. split; auto. intros ->. destruct b; [apply Htop|apply Hplain]; auto.
  - intros y Hy. apply (erase_in _ LT) in Hy. apply I2, Hy.
  - intros y Hy Hn. destruct (in_dec_k y [x]) as [[Hx|[]]|Hx].
    + subst y. split; auto.
    + assert (Hyo : ~ In y on).
      { intros Ho. apply Hn. apply (erase_in _ LT). split; auto. intros ->. apply Hx; left; auto. }
      destruct (I3 y Hy Hyo) as [A B]. split; auto. intros c Hyc. destruct (B c Hyc). split; auto.
      rewrite (erase_in _ LT). tauto.
  - intros s1 y s2 ->. destruct (I4 ((x, b) :: s1) y s2 eq_refl) as (A & B & C). cbn in A, B, C.
    split; [tauto|]. split; [auto|]. intros c Hyc. destruct (C c Hyc) as [|[H|H]]; auto. subst; auto.
Qed.

Lemma app_cons_split {A} (l1 l2 s1 s2 : list A) (x : A) : l1 ++ l2 = s1 ++ x :: s2 ->
  (exists m, l1 = s1 ++ x :: m /\ s2 = m ++ l2) \/ (exists m, s1 = l1 ++ m /\ l2 = m ++ x :: s2).
Proof.
  revert s1; induction l1 as [|a l1 IH]; intros s1 H; cbn in *.
  - right. exists s1. auto.
  - destruct s1 as [|b s1]; cbn in H; inversion H; subst.
    + left. exists l1. auto.
    + destruct (IH s1 H2) as [(m & -> & ->)|(m & -> & ->)]; [left|right]; exists m; auto.
Qed.

(** Top of the stack not checked: it is marked and its unchecked children are pushed. *)
Lemma inv_visit x b gs on chk new : inv ((x, b) :: gs) on chk -> ~ In x chk ->
  (forall c, E x c -> In c (set_insert lt x chk) -> ~ In c (set_insert lt x on)) ->
  (forall c, In c new <-> E x c /\ ~ In c (set_insert lt x chk)) ->
  inv (map (fun c => (c, false)) new ++ (x, true) :: gs) (set_insert lt x on) (set_insert lt x chk).
Proof.
  intros (I1 & I2 & I3 & I4) Hc Hno Hnew.
  assert (Hself : ~ E x x).
  { intros H. apply (Hno x H); apply (insert_in _ LT); auto. }
  assert (Mf : map fst (map (fun c : K => (c, false)) new) = new) by (rewrite map_map; apply map_id).
  assert (Hb : b = false).
  { destruct b; auto. destruct (Hc). apply I2, I1. left; auto. }
  subst b.
  split; [|split; [|split]].
  - intros y. rewrite (insert_in _ LT), I1, in_app_iff. cbn. split.
    + intros [->|[H|H]]; auto. inversion H.
    + intros [H|[H|H]]; auto.
      * apply in_map_iff in H. destruct H as (c & H & _). inversion H.
      * inversion H; subst; auto.
  - intros y Hy. apply (insert_in _ LT) in Hy. destruct Hy as [->|Hy].
    + split; auto. apply (insert_in _ LT); auto.
    + split; [apply (insert_in _ LT); right|]; apply I2; auto.
  - intros y Hy Hn. rewrite (insert_in _ LT) in Hn. apply (insert_in _ LT) in Hy. destruct Hy as [->|Hy]; [tauto|].
    destruct (I3 y Hy) as [A B]; [tauto|]. split; auto. intros c Hyc. destruct (B c Hyc) as [B1 B2].
    rewrite !(insert_in _ LT). split; auto. intros [->|]; auto.
  - intros s1 y s2 H. apply app_cons_split in H. destruct H as [(m & H & _)|(m & -> & H)].
    { exfalso. assert (In (y, true) (map (fun c : K => (c, false)) new)) by (rewrite H; apply in_or_app; right; left; auto).
      apply in_map_iff in H0. destruct H0 as (c & H0 & _). inversion H0. }
    destruct m as [|[z bz] m]; cbn in H; inversion H; subst.
    + rewrite app_nil_r, Mf. split; [|split].
      * intros Hi. apply Hnew in Hi. apply (proj2 Hi). apply (insert_in _ LT); auto.
      * intros c Hi. apply Hnew in Hi. apply t_step. apply Hi.
      * intros c Hxc. destruct (in_dec_k c (set_insert lt y chk)); auto. right. apply Hnew; auto.
    + (* an older node on the stack *)
      destruct (I4 ((z, false) :: m) y s2 eq_refl) as (A & B & C). cbn in A, B, C.
      assert (Hyo : In y on) by (apply I1; right; apply in_or_app; right; left; auto).
      assert (Hyc : In y chk) by (apply I2; auto).
      rewrite map_app, Mf. cbn. split; [|split].
      * rewrite in_app_iff. intros [Hi|[Hi|Hi]]; [|apply A; auto|apply A; auto].
        apply Hnew in Hi. apply (proj2 Hi). apply (insert_in _ LT); auto.
      * intros c. rewrite in_app_iff. intros [Hi|[Hi|Hi]]; [|apply B; auto|apply B; auto].
        apply Hnew in Hi. eapply t_trans; [apply B; left; reflexivity|]. apply t_step, Hi.
      * intros c Hc'. rewrite (insert_in _ LT), in_app_iff. destruct (C c Hc') as [|[|]]; cbn; auto.
Qed.

(** A reported child closes a cycle. *)
Lemma visit_cycle x b gs on chk c : inv ((x, b) :: gs) on chk -> 
  E x c -> In c (set_insert lt x on) -> cyclic g.
Proof.
  intros (I1 & I2 & I3 & I4) Hxc Ho. apply (insert_in _ LT) in Ho. exists c.
  destruct Ho as [->|Ho]; [apply t_step; auto|].
  apply I1 in Ho. destruct Ho as [Ho|Ho]; [inversion Ho; subst; apply t_step; auto|].
  apply in_split in Ho. destruct Ho as (s1 & s2 & ->).
  destruct (I4 ((x, b) :: s1) c s2 eq_refl) as (_ & B & _).
  eapply t_trans; [apply B; left; reflexivity|]. apply t_step; auto.
Qed.

(** ** Termination measure *)
Definition deg (x : K) : nat := length (downstream Ko edges x).
Fixpoint weight (U chk : list K) : nat :=
  match U with [] => 0 | x :: r => (if contains Ko chk x then 0 else S (deg x)) + weight r chk end.
Lemma weight_mono U chk x : weight U (set_insert lt x chk) <= weight U chk.
Proof.
  induction U as [|y U IH]; cbn [weight]; auto.
  destruct (contains Ko chk y) eqn:E1.
  - assert (H : contains Ko (set_insert lt x chk) y = true).
    { apply contains_iff, (insert_in _ LT). right. apply contains_iff; auto. }
    rewrite H. lia.
  - destruct (contains Ko (set_insert lt x chk) y); lia.
Qed.
Lemma weight_visit U chk x : In x U -> ~ In x chk -> weight U (set_insert lt x chk) + S (deg x) <= weight U chk.
Proof.
  induction U as [|y U IH]; intros Hi Hn; [destruct Hi|]. cbn [weight].
  destruct Hi as [->|Hi].
  - apply contains_false in Hn. rewrite Hn.
    assert (H : contains Ko (set_insert lt x chk) x = true) by (apply contains_iff, (insert_in _ LT); auto).
    rewrite H. pose proof (weight_mono U chk x). lia.
  - pose proof (IH Hi Hn). pose proof (weight_mono [y] chk x). cbn [weight] in H0. lia.
Qed.

Lemma filter_len {A} (f : A -> bool) l : length (filter f l) <= length l.
Proof. induction l; cbn; auto. destruct (f a); cbn; lia. Qed.

Lemma dfs_correct (U : list K) (HU : forall x c, E x c -> In c U) : forall n gs on chk, inv gs on chk ->
  (forall y, In y (map fst gs) -> In y U) -> weight U chk + length gs <= n ->
  exists cyc on' chk', dfs Ko n edges (map fst gs) on chk = Some (cyc, on', chk') /\
    (cyc = true -> cyclic g) /\
    (cyc = false -> inv [] on' chk' /\ incl chk chk' /\ incl (map fst gs) chk').
Proof.
  induction n as [|n IH]; intros gs on chk HI HS HM; destruct gs as [|[x b] gs].
  - exists false, on, chk. cbn. split; auto. split; [discriminate|]. intros _. split; auto. split; [apply incl_refl|]. intros y [].
  - cbn [length] in HM. lia.
  - exists false, on, chk. cbn. split; auto. split; [discriminate|]. intros _. split; auto. split; [apply incl_refl|]. intros y [].
  - cbn [map fst dfs]. destruct (contains Ko chk x) eqn:Ex; cbn [negb].
    + assert (Hx : In x chk) by (apply contains_iff; auto).
      destruct (scan_children Ko (set_erase lt x on) chk (downstream Ko edges x) (map fst gs)) as [cyc st] eqn:Es.
      pose proof (scan_spec (set_erase lt x on) chk (downstream Ko edges x) (map fst gs)) as [S1 S2]. rewrite Es in S1, S2. cbn in S1, S2.
      destruct cyc.
      * exists true, (set_erase lt x on), chk. split; auto. split; [|discriminate]. intros _.
        destruct (S1 eq_refl) as (c & H1 & H2 & H3). apply downstream_iff in H1. apply (erase_in _ LT) in H3.
        eapply visit_cycle; eauto. apply (insert_in _ LT). right. apply H3.
      * destruct (S2 eq_refl) as [S3 S4].
        assert (Hno : forall c, E x c -> In c chk -> ~ In c (set_erase lt x on)).
        { intros c Hc. apply S3. apply downstream_iff; auto. }
        destruct (inv_pop _ _ _ _ _ HI Hx Hno) as [HI' Hch].
        assert (Hst : st = map fst gs).
        { rewrite S4. rewrite (filter_none); [reflexivity|]. apply Forall_forall. intros c Hc.
          apply downstream_iff in Hc. rewrite negb_false_iff. apply contains_iff; auto. }
        rewrite Hst.
        destruct (IH gs (set_erase lt x on) chk HI') as (cyc & on' & chk' & E1 & C1 & C2).
        { intros y Hy. apply HS. right; auto. }
        { cbn [length] in HM. lia. }
        exists cyc, on', chk'. split; auto. split; auto. intros Hf. destruct (C2 Hf) as (A & B & C). split; auto. split; auto.
        intros y [<-|Hy]; auto.
    + assert (Hx : ~ In x chk) by (apply contains_false; auto).
      destruct (scan_children Ko (set_insert lt x on) (set_insert lt x chk) (downstream Ko edges x) (x :: map fst gs)) as [cyc st] eqn:Es.
      pose proof (scan_spec (set_insert lt x on) (set_insert lt x chk) (downstream Ko edges x) (x :: map fst gs)) as [S1 S2]. rewrite Es in S1, S2. cbn in S1, S2.
      destruct cyc.
      * exists true, (set_insert lt x on), (set_insert lt x chk). split; auto. split; [|discriminate]. intros _.
        destruct (S1 eq_refl) as (c & H1 & H2 & H3). apply downstream_iff in H1.
        eapply visit_cycle; eauto.
      * destruct (S2 eq_refl) as [S3 S4]. clear S1 S2.
        set (new := rev (filter (fun c => negb (contains Ko (set_insert lt x chk) c)) (downstream Ko edges x))) in *.
        assert (Hnew : forall c, In c new <-> E x c /\ ~ In c (set_insert lt x chk)).
        { intros c. unfold new. rewrite <- in_rev, filter_In, downstream_iff, negb_true_iff, contains_false. tauto. }
        assert (Hno : forall c, E x c -> In c (set_insert lt x chk) -> ~ In c (set_insert lt x on)).
        { intros c Hc. apply S3. apply downstream_iff; auto. }
        pose proof (inv_visit _ _ _ _ _ new HI Hx Hno Hnew) as HI'.
        set (gs' := map (fun c : K => (c, false)) new ++ (x, true) :: gs) in *.
        assert (Hst : st = map fst gs').
        { rewrite S4. unfold gs'. rewrite map_app, map_map, map_id. reflexivity. }
        rewrite Hst.
        assert (Hlen : length gs' <= S (length gs) + deg x).
        { unfold gs'. rewrite app_length, map_length. unfold new. rewrite rev_length.
          pose proof (filter_len (fun c => negb (contains Ko (set_insert lt x chk) c)) (downstream Ko edges x)).
          unfold deg. cbn. lia. }
        assert (HxU : In x U) by (apply HS; left; auto).
        pose proof (weight_visit U chk x HxU Hx) as HW.
        destruct (IH gs' (set_insert lt x on) (set_insert lt x chk) HI') as (cyc & on' & chk' & E1 & C1 & C2).
        { intros y Hy. unfold gs' in Hy. rewrite map_app, map_map, map_id, in_app_iff in Hy. destruct Hy as [Hy|Hy].
          - apply Hnew in Hy. eapply HU. apply Hy.
          - apply HS. exact Hy. }
        { cbn [length] in HM. lia. }
        exists cyc, on', chk'. split; auto. split; auto. intros Hf. destruct (C2 Hf) as (A & B & C). split; auto. split.
        { intros y Hy. apply B, (insert_in _ LT). auto. }
        { intros y Hy. apply C. unfold gs'. rewrite map_app, map_map, map_id. apply in_or_app. right. exact Hy. }
Qed.

Lemma inv_start x on chk : inv [] on chk -> inv [(x, false)] on chk.
Proof.
  intros HI. pose proof (inv_nil_on _ _ HI) as ->. destruct HI as (I1 & I2 & I3 & I4).
  split; [|split; [|split]]; auto.
  - intros y. cbn. split; [tauto|]. intros [H|[]]; inversion H.
  - intros s1 y s2 H. destruct s1 as [|? [|? ?]]; inversion H.
Qed.

Lemma acc_no_cycle x : down_acc x -> ~ path g x x.
Proof.
  intros H. induction H as [x H IH]. intros P. apply clos_trans_t1n in P.
  inversion P as [y H1|y z H1 H2]; subst.
  - apply (IH x H1). apply t_step; auto.
  - apply (IH y H1). apply clos_t1n_trans in H2. eapply t_trans; [exact H2|]. apply t_step; auto.
Qed.

Definition universe : list K := map fst edges ++ map snd edges.
Definition bound : nat := weight universe [] + 1.

Lemma weight_le U : forall chk, weight U chk <= weight U [].
Proof.
  induction U as [|y U IH]; intros chk; cbn [weight]; auto. specialize (IH chk).
  replace (contains Ko [] y) with false by (symmetry; apply contains_false; tauto).
  destruct (contains Ko chk y); lia.
Qed.

Lemma no_cycles_loop_correct n : bound <= n -> forall todo on chk, incl todo edges -> inv [] on chk ->
  exists log, no_cycles_loop Ko n edges todo on chk = Some log /\
    ((log = [InvalidSetup] /\ cyclic g) \/
     (log = [] /\ exists chk', inv [] [] chk' /\ incl chk chk' /\ forall p, In p todo -> In (fst p) chk')).
Proof.
  intros Hn. induction todo as [|p todo IH]; intros on chk Hin HI; cbn.
  - exists []. split; auto. right. split; auto. pose proof (inv_nil_on _ _ HI); subst. exists chk. split; auto. split; [apply incl_refl|]. intros p [].
  - assert (Hin' : incl todo edges) by (intros q Hq; apply Hin; right; auto).
    destruct (contains Ko chk (fst p)) eqn:Ec.
    + destruct (IH on chk Hin' HI) as (log & E1 & [C|(C & chk' & A & B & D)]).
      * exists log. auto.
      * exists log. split; auto. right. split; auto. exists chk'. split; auto. split; auto.
        intros q [<-|Hq]; auto. apply B, contains_iff; auto.
    + destruct (dfs_correct universe) with (n := n) (gs := [(fst p, false)]) (on := on) (chk := chk)
        as (cyc & on' & chk' & E1 & C1 & C2).
      { intros x c Hxc. apply in_or_app. right. apply in_map_iff. exists (x, c). auto. }
      { apply inv_start; auto. }
      { intros y [<-|[]]. apply in_or_app. left. apply in_map_iff. exists p. split; [reflexivity|]. apply Hin; left; auto. }
      { unfold bound in Hn. pose proof (weight_le universe chk). cbn [length]. lia. }
      cbn [map fst] in E1. rewrite E1. destruct cyc.
      * exists [InvalidSetup]. split; auto.
      * destruct (C2 eq_refl) as (A & B & D).
        destruct (IH on' chk' Hin' A) as (log & E2 & [C|(C & chk2 & A2 & B2 & D2)]).
        -- exists log. auto.
        -- exists log. split; auto. right. split; auto. exists chk2. split; auto. split.
           ++ intros y Hy; auto.
           ++ intros q [<-|Hq]; auto. apply B2, D. left; auto.
Qed.

Lemma t_no_cycles n : bound <= n ->
  exists log, validate_no_cycles Ko n edges = Some log /\
    (log = [] /\ ~ cyclic g \/ log = [InvalidSetup] /\ cyclic g).
Proof.
  intros Hn. unfold validate_no_cycles.
  destruct (no_cycles_loop_correct n Hn edges [] []) as (log & E1 & [C|(C & chk & A & B & D)]); auto.
  - apply incl_refl.
  - split; [|split; [|split]]; try (cbn; tauto). intros s1 x s2 H. destruct s1; discriminate.
  - exists log. split; auto.
  - exists log. split; auto. left. split; auto. intros [x Hx].
    destruct A as (_ & _ & I3 & _).
    assert (Hx1 : exists c, E x c).
    { apply clos_trans_t1n in Hx. inversion Hx; subst; eauto. }
    destruct Hx1 as [c Hc]. destruct (I3 x) as [HA _]; [apply (D (x, c) Hc)|tauto|].
    exact (acc_no_cycle x HA Hx).
Qed.
End Edges.
End G.
