(** * ThreadMapFacts: proofs about thread_safe_map. *)
From Coq Require Import Lia Sorting.Sorted.
From Verif Require Import Base KeySpec StdSet StdSetFacts ThreadMap ThreadMapSpec.
Local Open Scope nat_scope.

Section Facts.
Context {K V : Type} (lt : K -> K -> bool) (LT : strict_total_order lt) (dflt : V).

Notation keys_sorted l := (StronglySorted (fun a b => lt a b = true) (map fst l)).

Lemma equiv_refl k : equiv lt k k = true.
Proof. apply (equiv_iff lt LT). reflexivity. Qed.
Lemma equiv_ne k k' : k <> k' -> equiv lt k k' = false.
Proof. intros H. destruct (equiv lt k k') eqn:E; auto. apply (equiv_iff lt LT) in E. contradiction. Qed.

Lemma find_some k (l : list (K * V)) n : mp_find lt k l = Some n -> n = k /\ exists v, mp_deref lt k l = Some v.
Proof.
  induction l as [|(k', v') r IH]; cbn; [discriminate|].
  destruct (equiv lt k k') eqn:E; [|exact IH]. intros H. injection H as <-.
  apply (equiv_iff lt LT) in E. subst. eauto.
Qed.
Lemma find_none k (l : list (K * V)) : mp_find lt k l = None -> mp_deref lt k l = None.
Proof. induction l as [|(k', v') r IH]; cbn; auto. destruct (equiv lt k k'); [discriminate|exact IH]. Qed.

Lemma deref_none k (l : list (K * V)) : (forall x, In x (map fst l) -> x <> k) -> mp_deref lt k l = None.
Proof.
  induction l as [|(k', v') r IH]; cbn; auto. intros H. rewrite equiv_ne; [|intro E; subst; apply (H k'); auto].
  apply IH. intros x Hx. apply H. auto.
Qed.

Lemma insert_keys k v (l : list (K * V)) x : In x (map fst (fst (mp_insert lt k v l))) -> x = k \/ In x (map fst l).
Proof.
  induction l as [|(k', v') r IH]; cbn; [intuition|].
  destruct (lt k k'); [cbn; intuition|]. destruct (lt k' k); [|cbn; intuition].
  destruct (mp_insert lt k v r) as (r', b). cbn in *. intuition.
Qed.

Lemma insert_spec k v (l : list (K * V)) d b : keys_sorted l -> mp_insert lt k v l = (d, b) ->
  keys_sorted d /\
  if b then mp_deref lt k l = None /\ mp_deref lt k d = Some v /\ (forall x, x <> k -> mp_deref lt x d = mp_deref lt x l)
  else d = l /\ exists w, mp_deref lt k l = Some w.
Proof.
  revert d b. induction l as [|(k', v') r IH]; intros d b S E; cbn in E.
  - injection E as <- <-. split; [repeat constructor|]. cbn. rewrite equiv_refl. split; [auto|]. split; [auto|].
    intros x Hx. rewrite equiv_ne; auto.
  - inversion S as [|? ? S1 S2]; subst. destruct (lt k k') eqn:L.
    + injection E as <- <-. split.
      { cbn. constructor; [exact S|]. constructor; [exact L|]. rewrite Forall_forall in S2 |- *. intros y Hy.
        eapply (lt_tr lt LT); eauto. }
      split.
      { apply deref_none. intros x Hx E. subst x. destruct Hx as [Hx|Hx].
        - cbn in Hx. subst k'. rewrite (lt_irr lt LT) in L. discriminate.
        - rewrite Forall_forall in S2. specialize (S2 _ Hx).
          rewrite (lt_asym lt LT _ _ L) in S2. discriminate. }
      split; [cbn; rewrite equiv_refl; auto|]. intros x Hx. cbn. rewrite (equiv_ne x k Hx). auto.
    + destruct (lt k' k) eqn:L'.
      * destruct (mp_insert lt k v r) as (r', b') eqn:E'. injection E as <- <-.
        destruct (IH r' b' S1 eq_refl) as (A & B).
        assert (NE : k <> k') by (intro; subst; rewrite (lt_irr lt LT) in L'; discriminate).
        split.
        { cbn. constructor; [exact A|]. rewrite Forall_forall in S2 |- *. intros y Hy.
          pose proof (insert_keys k v r y) as P. rewrite E' in P. cbn in P. destruct (P Hy) as [->|]; auto. }
        destruct b'.
        { destruct B as (B1 & B2 & B3). cbn. rewrite (equiv_ne k k' NE). split; [auto|]. split; [auto|].
          intros x Hx. destruct (equiv lt x k'); auto. }
        { destruct B as (-> & B). split; auto. cbn. rewrite (equiv_ne k k' NE). auto. }
      * injection E as <- <-. split; [exact S|]. split; [auto|]. cbn. 
        unfold equiv. rewrite L, L'. cbn. eauto.
Qed.

Lemma sorted_filter (f : K * V -> bool) l : keys_sorted l -> keys_sorted (filter f l).
Proof.
  induction l as [|p r IH]; cbn; auto. intros S. inversion S as [|? ? S1 S2]; subst.
  destruct (f p); auto. cbn. constructor; [auto|]. rewrite Forall_forall in S2 |- *. intros y Hy. apply S2.
  apply in_map_iff in Hy. destruct Hy as (q & <- & Hq). apply filter_In in Hq. apply in_map. tauto.
Qed.

Lemma erase_other k (l : list (K * V)) x : x <> k ->
  mp_deref lt x (filter (fun p => negb (equiv lt k (fst p))) l) = mp_deref lt x l.
Proof.
  intros Hx. induction l as [|(k', v') r IH]; cbn; auto. destruct (equiv lt k k') eqn:E; cbn.
  - apply (equiv_iff lt LT) in E. subst k'. rewrite (equiv_ne x k Hx). auto.
  - destruct (equiv lt x k'); auto.
Qed.
Lemma erase_gone k (l : list (K * V)) : mp_deref lt k (filter (fun p => negb (equiv lt k (fst p))) l) = None.
Proof.
  apply deref_none. intros x Hx ->. apply in_map_iff in Hx. destruct Hx as (p & E & Hp). apply filter_In in Hp.
  destruct Hp as (_ & Hp). subst k. rewrite equiv_refl in Hp. discriminate.
Qed.
Lemma count_none k (l : list (K * V)) : Forall (fun y => lt k y = true) (map fst l) ->
  filter (fun p => equiv lt k (fst p)) l = [].
Proof.
  induction l as [|p r IH]; cbn; auto. intros H. inversion H; subst. unfold equiv at 1. rewrite H2. cbn. auto.
Qed.
Lemma erase_count k (l : list (K * V)) : keys_sorted l ->
  length (filter (fun p => equiv lt k (fst p)) l) = match mp_deref lt k l with Some _ => 1 | None => 0 end.
Proof.
  induction l as [|(k', v') r IH]; cbn; auto. intros S. inversion S as [|? ? S1 S2]; subst.
  destruct (equiv lt k k') eqn:E; [|auto]. apply (equiv_iff lt LT) in E. subst k'. cbn. 
  rewrite (count_none k r S2). reflexivity.
Qed.

(** ** Sequences *)
Lemma seq_app (m : K -> option V) l (c : nat * mop K V * mres V) m1 m2 : run_seq dflt m l m1 -> does dflt m1 (snd (fst c)) (snd c) m2 ->
  run_seq dflt m (l ++ [c]) m2.
Proof.
  intros H. revert m2. induction H as [m m' E|m a b i o r l D R IH]; intros m2 D2; cbn.
  - destruct c as ((i, o), r). cbn in *. apply Run_cons with m2; [|constructor; auto].
    inversion D2; subst.
    + eapply D_hit; eauto; [rewrite <- E; auto|]. intros x. rewrite H0, E. auto.
    + eapply D_miss; eauto; [rewrite <- E; auto|]. intros x. rewrite H0, E. auto.
    + eapply D_new; eauto; [rewrite <- E; auto|]. intros x Hx. rewrite H1, E; auto.
    + eapply D_taken; eauto; [rewrite <- E; eauto|]. intros x. rewrite H0, E. auto.
    + eapply D_erased; eauto; [rewrite <- E; eauto|]. intros x Hx. rewrite H1, E; auto.
    + eapply D_absent; eauto; [rewrite <- E; auto|]. intros x. rewrite H0, E. auto.
    + eapply D_threw; eauto. intros x. rewrite H, E. auto.
  - eapply Run_cons; eauto.
Qed.

Lemma nodup_snoc {A} (x : A) l : NoDup l -> ~ In x l -> NoDup (l ++ [x]).
Proof.
  induction l as [|y r IH]; cbn; intros H N; [constructor; [auto|constructor]|]. inversion H; subst. constructor.
  - rewrite in_app_iff. cbn. intuition.
  - apply IH; intuition.
Qed.
Lemma before_app {A} (x y : A) l r : comes_before x y l -> comes_before x y (l ++ r).
Proof. intros (a & b & c & ->). exists a, b, (c ++ r). rewrite <- !app_assoc. cbn. rewrite <- app_assoc. auto. Qed.
Lemma before_last {A} (x y : A) l : In x l -> comes_before x y (l ++ [y]).
Proof. intros H. apply in_split in H. destruct H as (a & b & ->). exists a, b, []. rewrite <- app_assoc. auto. Qed.
Lemma before_app_inv {A} (x y z : A) l : comes_before x y (l ++ [z]) -> comes_before x y l \/ (y = z /\ In x l).
Proof.
  intros (a & b & c & E). destruct c as [|w c] using rev_ind.
  - right. replace (a ++ x :: b ++ [y]) with ((a ++ x :: b) ++ [y]) in E by (rewrite <- app_assoc; auto).
    apply app_inj_tail in E. destruct E as (-> & ->). split; auto. apply in_or_app. cbn. auto.
  - left. replace (a ++ x :: b ++ y :: c ++ [w]) with ((a ++ x :: b ++ y :: c) ++ [w]) in E
      by (rewrite <- app_assoc; cbn; rewrite <- app_assoc; auto).
    apply app_inj_tail in E. destruct E as (-> & ->). exists a, b, c. auto.
Qed.

(** ** The invariant *)
Notation sys := (msys K V).

(** The call a thread is in, and whether it already has taken effect. *)
Definition cur (p : pcs K V) : option (nat * mop K V) :=
  match p with
  | PIdle => None
  | PCalled i o | PLocked i o | PAccess i o | PHave i o _ | PLeft i o _ => Some (i, o)
  | PFound i k _ | PCopy i k _ => Some (i, MFind k)
  end.
Definition outcome (p : pcs K V) : option (mres V) :=
  match p with PHave _ _ r | PLeft _ _ r => Some r | _ => None end.
Definition inside (p : pcs K V) : bool :=
  match p with PLocked _ _ | PAccess _ _ | PFound _ _ _ | PCopy _ _ _ | PHave _ _ _ => true | _ => false end.
Definition node (p : pcs K V) : option (K * option K) :=
  match p with PFound _ k n => Some (k, n) | PCopy _ k n => Some (k, Some n) | _ => None end.

Record inv (s : sys) (L : list (nat * mop K V * mres V)) : Prop := {
  i_sorted : keys_sorted (m_data s);
  i_seq : run_seq dflt (fun _ => None) L (fun k => mp_deref lt k (m_data s));
  i_owner : forall t, inside (m_pc s t) = true <-> m_owner s = Some t;
  i_node : forall t k n, node (m_pc s t) = Some (k, n) -> n = mp_find lt k (m_data s);
  i_ub : m_ub s = false;
  i_new : forall t i o, In (ECall t i o) (m_hist s) -> i < m_next s;
  i_L : forall i o r, In (i, o, r) L -> exists t, In (ECall t i o) (m_hist s);
  i_nodup : NoDup (map call_no L);
  i_cur : forall t i o, cur (m_pc s t) = Some (i, o) -> In (ECall t i o) (m_hist s);
  i_uniq : forall t u i o p, In (ECall t i o) (m_hist s) -> In (ECall u i p) (m_hist s) -> t = u /\ o = p;
  i_pend : forall t i o, cur (m_pc s t) = Some (i, o) -> outcome (m_pc s t) = None -> ~ In i (map call_no L);
  i_have : forall t i o r, cur (m_pc s t) = Some (i, o) -> outcome (m_pc s t) = Some r -> In (i, o, r) L;
  i_ret : forall t i o r, In (ERet t i o r) (m_hist s) -> In (i, o, r) L;
  i_order : forall i j, returned_before (m_hist s) i j -> In j (map call_no L) -> comes_before i j (map call_no L)
}.

Lemma at_eq {A} (f : nat -> A) t a : at_ f t a t = a.
Proof. unfold at_. rewrite Nat.eqb_refl. auto. Qed.
Lemma at_ne {A} (f : nat -> A) t u a : u <> t -> at_ f t a u = f u.
Proof. unfold at_. intros H. apply Nat.eqb_neq in H. rewrite H. auto. Qed.

Lemma inv_start progs : inv (mstart progs) [].
Proof.
  constructor; cbn; try (intros; discriminate); try tauto; try (intros; contradiction).
  - constructor.
  - constructor. auto.
  - intros t. split; discriminate.
  - constructor.
Qed.

(** A step of [t] that neither emits an event nor linearizes. *)
Lemma inv_quiet s L t p d ow :
  inv s L -> d = m_data s ->
  cur p = cur (m_pc s t) -> outcome p = outcome (m_pc s t) ->
  (forall k n, node p = Some (k, n) -> n = mp_find lt k d) ->
  (forall u, inside (at_ (m_pc s) t p u) = true <-> ow = Some u) ->
  inv (MSys d ow (m_prog s) (at_ (m_pc s) t p) (m_next s) (m_hist s) (m_ub s)) L.
Proof.
  intros [] -> C O N W.
  constructor; cbn; auto.
  - intros u k n. destruct (Nat.eq_dec u t) as [->|Hu]; [rewrite at_eq|rewrite at_ne by auto]; eauto.
  - intros u i o. destruct (Nat.eq_dec u t) as [->|Hu]; [rewrite at_eq|rewrite at_ne by auto]; eauto.
    rewrite C. eauto.
  - intros u i o. destruct (Nat.eq_dec u t) as [->|Hu]; [rewrite at_eq|rewrite at_ne by auto]; eauto.
    rewrite C, O. eauto.
  - intros u i o r. destruct (Nat.eq_dec u t) as [->|Hu]; [rewrite at_eq|rewrite at_ne by auto]; eauto.
    rewrite C, O. eauto.
Qed.

(** A step of [t] at which its call takes effect. *)
Lemma inv_effect s L t p d i o r ow :
  inv s L -> keys_sorted d ->
  does dflt (fun k => mp_deref lt k (m_data s)) o r (fun k => mp_deref lt k d) ->
  cur (m_pc s t) = Some (i, o) -> outcome (m_pc s t) = None ->
  cur p = Some (i, o) -> outcome p = Some r -> node p = None ->
  (d = m_data s \/ inside (m_pc s t) = true) ->
  (forall u, inside (at_ (m_pc s) t p u) = true <-> ow = Some u) ->
  inv (MSys d ow (m_prog s) (at_ (m_pc s) t p) (m_next s) (m_hist s) (m_ub s)) (L ++ [(i, o, r)]).
Proof.
  intros [] SD D C O C' O' N DD W.
  assert (NI : ~ In i (map call_no L)) by eauto.
  constructor; cbn; auto.
  - eapply seq_app; eauto.
  - intros u k n. destruct (Nat.eq_dec u t) as [->|Hu]; [rewrite at_eq, N; discriminate|rewrite at_ne by auto].
    intros Hn. destruct DD as [->|In_]; [eauto|].
    exfalso. assert (inside (m_pc s u) = true) by (destruct (m_pc s u); cbn in Hn |- *; auto; discriminate).
    apply i_owner0 in H. apply i_owner0 in In_. congruence.
  - intros j q x H. apply in_app_or in H. destruct H as [H|[H|[]]]; [eauto|]. injection H as <- <- <-. eauto.
  - rewrite map_app. cbn. apply nodup_snoc; auto.
  - intros u j q. destruct (Nat.eq_dec u t) as [->|Hu]; [rewrite at_eq|rewrite at_ne by auto]; eauto.
    rewrite C'. intros H. injection H as <- <-. eauto.
  - intros u j q. destruct (Nat.eq_dec u t) as [->|Hu]; [rewrite at_eq, O'; discriminate|rewrite at_ne by auto].
    intros H1 H2. rewrite map_app, in_app_iff. intros [H|[H|[]]]; [eapply i_pend0; eauto|].
    cbn in H. subst j. apply i_cur0 in H1. apply i_cur0 in C. destruct (i_uniq0 _ _ _ _ _ H1 C). contradiction.
  - intros u j q x. destruct (Nat.eq_dec u t) as [->|Hu]; [rewrite at_eq|rewrite at_ne by auto]; rewrite in_app_iff.
    + rewrite C', O'. intros H1 H2. injection H1 as <- <-. injection H2 as <-. cbn. auto.
    + intros H1 H2. left. eauto.
  - intros u j q x H. apply in_or_app. left. eauto.
  - intros a b R. rewrite map_app, in_app_iff. cbn. intros [H|[H|[]]].
    + apply before_app. eauto.
    + subst b. apply before_last. destruct R as (t1 & t2 & q & x & y & (l1 & l2 & l3 & E)).
      assert (In (ERet t1 a q x) (m_hist s)) by (rewrite E; apply in_or_app; cbn; auto).
      apply i_ret0 in H. apply (in_map call_no) in H. exact H.
Qed.

Lemma inside_same s L t p : inv s L -> inside p = inside (m_pc s t) ->
  forall u, inside (at_ (m_pc s) t p u) = true <-> m_owner s = Some u.
Proof.
  intros I E u. destruct (Nat.eq_dec u t) as [->|Hu]; [rewrite at_eq, E|rewrite at_ne by auto]; apply (i_owner _ _ I).
Qed.

Lemma step_inv s L t fail s' : inv s L -> mstep lt dflt s t fail = Some s' -> exists L', inv s' L'.
Proof.
  intros I E. unfold mstep in E. destruct (m_pc s t) as [|i o|i o|i o|i k n|i k n|i o r|i o r] eqn:P.
  - (* PIdle *)
    destruct (m_prog s t) as [|o p] eqn:PR; [discriminate|]. injection E as <-. exists L. destruct I.
    assert (FR : forall u q, ~ In (ECall u (m_next s) q) (m_hist s)).
    { intros u q H. apply i_new0 in H. lia. }
    constructor; cbn; auto.
    + intros u. destruct (Nat.eq_dec u t) as [->|Hu]; [rewrite at_eq|rewrite at_ne by auto; auto].
      rewrite <- i_owner0, P. cbn. reflexivity.
    + intros u k n. destruct (Nat.eq_dec u t) as [->|Hu]; [rewrite at_eq; discriminate|rewrite at_ne by auto; eauto].
    + intros u j q H. apply in_app_or in H. destruct H as [H|[H|[]]]; [apply i_new0 in H; lia|injection H; lia].
    + intros j q x H. destruct (i_L0 _ _ _ H) as (u & Hu). exists u. apply in_or_app. auto.
    + intros u j q. rewrite in_app_iff. destruct (Nat.eq_dec u t) as [->|Hu]; [rewrite at_eq|rewrite at_ne by auto; eauto].
      cbn. intros H. injection H as <- <-. auto.
    + intros u v j q x H1 H2. apply in_app_or in H1, H2.
      destruct H1 as [H1|[H1|[]]], H2 as [H2|[H2|[]]]; eauto.
      * injection H2 as <- <- <-. exfalso. eapply FR; eauto.
      * injection H1 as <- <- <-. exfalso. eapply FR; eauto.
      * injection H1 as <- <- <-. injection H2 as <- <-. auto.
    + intros u j q. destruct (Nat.eq_dec u t) as [->|Hu]; [rewrite at_eq|rewrite at_ne by auto; eauto].
      cbn. intros H _ X. injection H as <- <-. apply in_map_iff in X. destruct X as (((a, b), c) & X1 & X2). cbn in X1. subst a.
      destruct (i_L0 _ _ _ X2) as (u & Hu). eapply FR; eauto.
    + intros u j q x. destruct (Nat.eq_dec u t) as [->|Hu]; [rewrite at_eq; discriminate|rewrite at_ne by auto; eauto].
    + intros u j q x H. apply in_app_or in H. destruct H as [H|[H|[]]]; [eauto|discriminate].
    + intros a b (t1 & t2 & q & x & y & B) Hb. apply before_app_inv in B. destruct B as [B|(B & _)].
      * apply i_order0; auto. exists t1, t2, q, x, y. auto.
      * exfalso. injection B as -> -> ->. apply in_map_iff in Hb. destruct Hb as (((a', b), c) & X1 & X2). cbn in X1. subst a'.
        destruct (i_L0 _ _ _ X2) as (u & Hu). eapply FR; eauto.
  - (* PCalled *)
    destruct fail.
    + injection E as <-. exists (L ++ [(i, o, RThrow)]). unfold goto.
      apply inv_effect; auto; try (rewrite P; auto); try (apply (i_sorted _ _ I)).
      * apply D_threw. auto.
      * apply (inside_same _ L); auto. rewrite P. auto.
    + destruct (m_owner s) as [w|] eqn:OW; [discriminate|]. injection E as <-. exists L. unfold goto, set_owner. cbn.
      apply inv_quiet; auto; try (rewrite P; auto); try discriminate.
      intros u. destruct (Nat.eq_dec u t) as [->|Hu]; [rewrite at_eq; cbn; intuition|rewrite at_ne by auto].
      rewrite (i_owner _ _ I u), OW. split; intros H; [discriminate|congruence].
  - (* PLocked *)
    injection E as <-. exists L. apply inv_quiet; auto; try (rewrite P; auto); try discriminate.
    apply (inside_same _ L); auto. rewrite P. auto.
  - (* PAccess *)
    destruct o as [k|k v|k]; cbn in E.
    + injection E as <-. exists L. apply inv_quiet; auto; try (rewrite P; auto).
      * cbn. intros k' n H. injection H as <- <-. auto.
      * apply (inside_same _ L); auto. rewrite P. auto.
    + destruct fail.
      * injection E as <-. exists (L ++ [(i, MInsert k v, RThrow)]).
        apply inv_effect; auto; try (rewrite P; auto); try (apply (i_sorted _ _ I)).
        -- apply D_threw. auto.
        -- apply (inside_same _ L); auto. rewrite P. auto.
      * destruct (mp_insert lt k v (m_data s)) as (d, b) eqn:M. injection E as <-.
        destruct (insert_spec k v _ _ _ (i_sorted _ _ I) M) as (SD & SP).
        exists (L ++ [(i, MInsert k v, RInsert b)]). unfold goto, set_data. cbn.
        apply inv_effect; auto; try (rewrite P; auto).
        -- destruct b.
           ++ destruct SP as (A & B & C). apply D_new; auto.
           ++ destruct SP as (-> & w & A). apply D_taken with w; auto.
        -- apply (inside_same _ L); auto. rewrite P. auto.
    + injection E as <-. exists (L ++ [(i, MErase k, RErase (length (filter (fun p => equiv lt k (fst p)) (m_data s))))]).
      unfold goto, set_data. cbn. apply inv_effect; auto; try (rewrite P; auto).
      * apply sorted_filter. apply (i_sorted _ _ I).
      * rewrite (erase_count k _ (i_sorted _ _ I)). destruct (mp_deref lt k (m_data s)) as [w|] eqn:D.
        -- apply D_erased with w; auto; [apply erase_gone|]. intros x Hx. apply erase_other. auto.
        -- apply D_absent; auto. intros x.
           assert (Z : filter (fun p => negb (equiv lt k (fst p))) (m_data s) = m_data s).
           { apply filter_all. pose proof (erase_count k _ (i_sorted _ _ I)) as Q. rewrite D in Q.
             apply length_zero_iff_nil in Q. apply Forall_forall. intros p Hp.
             destruct (equiv lt k (fst p)) eqn:Ek; auto.
             assert (X : In p (filter (fun p => equiv lt k (fst p)) (m_data s))) by (apply filter_In; auto).
             rewrite Q in X. contradiction. }
           rewrite Z. auto.
      * apply (inside_same _ L); auto. rewrite P. auto.
  - (* PFound *)
    assert (NN := i_node _ _ I t k n). rewrite P in NN. cbn in NN. specialize (NN eq_refl).
    destruct n as [n|]; injection E as <-.
    + exists L. apply inv_quiet; auto; try (rewrite P; auto).
      * cbn. intros k' n' H. injection H as <- <-. auto.
      * apply (inside_same _ L); auto. rewrite P. auto.
    + exists (L ++ [(i, MFind k, RFind dflt false)]).
      apply inv_effect; auto; try (rewrite P; auto); try (apply (i_sorted _ _ I)).
      * apply D_miss; auto. apply find_none. auto.
      * apply (inside_same _ L); auto. rewrite P. auto.
  - (* PCopy *)
    assert (NN := i_node _ _ I t k (Some n)). rewrite P in NN. cbn in NN. specialize (NN eq_refl).
    destruct (find_some _ _ _ (eq_sym NN)) as (-> & v & D). rewrite D in E. destruct fail; injection E as <-.
    + exists (L ++ [(i, MFind k, RThrow)]).
      apply inv_effect; auto; try (rewrite P; auto); try (apply (i_sorted _ _ I)).
      * apply D_threw. auto.
      * apply (inside_same _ L); auto. rewrite P. auto.
    + exists (L ++ [(i, MFind k, RFind v true)]).
      apply inv_effect; auto; try (rewrite P; auto); try (apply (i_sorted _ _ I)).
      * apply D_hit; auto.
      * apply (inside_same _ L); auto. rewrite P. auto.
  - (* PHave *)
    assert (OW : m_owner s = Some t) by (apply (i_owner _ _ I); rewrite P; auto).
    rewrite OW, Nat.eqb_refl in E. injection E as <-. exists L. unfold goto, set_owner. cbn.
    apply inv_quiet; auto; try (rewrite P; auto); try discriminate.
    intros u. destruct (Nat.eq_dec u t) as [->|Hu]; [rewrite at_eq; cbn; intuition discriminate|rewrite at_ne by auto].
    rewrite (i_owner _ _ I u), OW. split; intros H; [congruence|discriminate].
  - (* PLeft *)
    injection E as <-. exists L. destruct I. constructor; cbn; auto.
    + intros u. destruct (Nat.eq_dec u t) as [->|Hu]; [rewrite at_eq|rewrite at_ne by auto; auto].
      rewrite <- i_owner0, P. cbn. reflexivity.
    + intros u k n. destruct (Nat.eq_dec u t) as [->|Hu]; [rewrite at_eq; discriminate|rewrite at_ne by auto; eauto].
    + intros u j q H. apply in_app_or in H. destruct H as [H|[H|[]]]; [eauto|discriminate].
    + intros j q x H. destruct (i_L0 _ _ _ H) as (u & Hu). exists u. apply in_or_app. auto.
    + intros u j q. rewrite in_app_iff. destruct (Nat.eq_dec u t) as [->|Hu]; [rewrite at_eq; discriminate|rewrite at_ne by auto; eauto].
    + intros u v j q x H1 H2. apply in_app_or in H1, H2.
      destruct H1 as [H1|[H1|[]]], H2 as [H2|[H2|[]]]; try discriminate; eauto.
    + intros u j q. destruct (Nat.eq_dec u t) as [->|Hu]; [rewrite at_eq; discriminate|rewrite at_ne by auto; eauto].
    + intros u j q x. destruct (Nat.eq_dec u t) as [->|Hu]; [rewrite at_eq; discriminate|rewrite at_ne by auto; eauto].
    + intros u j q x H. apply in_app_or in H. destruct H as [H|[H|[]]]; [eauto|]. injection H as <- <- <- <-.
      apply (i_have0 t); rewrite P; auto.
    + intros a b (t1 & t2 & q & x & y & B) Hb. apply before_app_inv in B. destruct B as [B|(B & _)]; [|discriminate].
      apply i_order0; auto. exists t1, t2, q, x, y. auto.
Qed.

Lemma run_inv s L sch : inv s L -> exists L', inv (mrun lt dflt s sch) L'.
Proof.
  revert s L. induction sch as [|(t, f) r IH]; intros s L I; cbn; [eauto|].
  destruct (mstep lt dflt s t f) as [s'|] eqn:E; [|eauto]. destruct (step_inv _ _ _ _ _ I E) as (L' & I'). eauto.
Qed.

(** ** Results *)
Lemma t_linear progs sch : exists L m,
  explains L (m_hist (mrun lt dflt (mstart progs) sch)) /\ run_seq dflt (fun _ => None) L m /\
  (forall k, mp_deref lt k (m_data (mrun lt dflt (mstart progs) sch)) = m k).
Proof.
  destruct (run_inv _ _ sch (inv_start progs)) as (L & I). set (s := mrun lt dflt (mstart progs) sch) in *.
  exists L, (fun k => mp_deref lt k (m_data s)). destruct I. split; [|split]; auto.
  repeat split; auto.
Qed.

Lemma t_safe progs sch : 
  let s := mrun lt dflt (mstart progs) sch in m_ub s = false /\ ~ data_race s.
Proof.
  intro s. destruct (run_inv _ _ sch (inv_start progs)) as (L & I). fold s in I. split; [apply (i_ub _ _ I)|].
  intros (t & u & w & N & A & B).
  assert (T : forall p : pcs K V, touching p <> None -> inside p = true) by (intros []; cbn; congruence).
  assert (m_owner s = Some t) by (apply (i_owner _ _ I); apply T; congruence).
  assert (m_owner s = Some u) by (apply (i_owner _ _ I); apply T; congruence). congruence.
Qed.

(** Some thread can always move. *)
Lemma t_progress progs sch :
  let s := mrun lt dflt (mstart progs) sch in
  (exists t, m_pc s t <> PIdle \/ m_prog s t <> []) -> exists t s', mstep lt dflt s t false = Some s'.
Proof.
  intros s (t & H). destruct (run_inv _ _ sch (inv_start progs)) as (L & I). fold s in I.
  assert (X : forall u, inside (m_pc s u) = true -> exists s', mstep lt dflt s u false = Some s').
  { intros u Hu. unfold mstep. destruct (m_pc s u) as [|i o|i o|i o|i k n|i k n|i o r|i o r]; try discriminate; eauto.
    - destruct n; eauto.
    - destruct (mp_deref lt n (m_data s)); eauto.
    - destruct (m_owner s) as [w|]; eauto. destruct (Nat.eqb w u); eauto. }
  destruct (m_owner s) as [u|] eqn:OW.
  - exists u. apply X. apply (i_owner _ _ I). auto.
  - exists t. unfold mstep. destruct (m_pc s t) as [|i o|i o|i o|i k n|i k n|i o r|i o r] eqn:P; eauto.
    + destruct (m_prog s t); [intuition|eauto].
    + rewrite OW. eauto.
    + destruct n; eauto.
    + destruct (mp_deref lt n (m_data s)); eauto.
    + rewrite OW. eauto.
Qed.

(** ** Each thread sees its own program *)
Definition view (t : nat) (s : sys) (prog : list (mop K V)) : Prop :=
  prog = calls (of_thread t (m_hist s)) ++ m_prog s t /\
  exists l, of_thread t (m_hist s) = l ++ match cur (m_pc s t) with None => [] | Some (i, o) => [ECall t i o] end /\
            forall x, alternates x -> alternates (l ++ x).

Lemma of_thread_snoc t (h : list (event K V)) e :
  of_thread t (h ++ [e]) = of_thread t h ++ if Nat.eqb (ev_thread e) t then [e] else [].
Proof. unfold of_thread. rewrite filter_app. cbn. destruct (Nat.eqb (ev_thread e) t); auto. Qed.
Lemma calls_app (a b : list (event K V)) : calls (a ++ b) = calls a ++ calls b.
Proof. apply flat_map_app. Qed.

(** A step changes thread [t] and, of the histories, only that of [t]. *)
Lemma step_other s t f s' u : mstep lt dflt s t f = Some s' -> u <> t ->
  m_pc s' u = m_pc s u /\ m_prog s' u = m_prog s u /\ of_thread u (m_hist s') = of_thread u (m_hist s).
Proof.
  intros E N. assert (M : Nat.eqb t u = false) by (apply Nat.eqb_neq; auto).
  unfold mstep, access in E.
  destruct (m_pc s t) as [|i o|i o|i o|i k n|i k n|i o r|i o r];
    repeat match type of E with
    | context [match ?x with _ => _ end] => destruct x
    end; try discriminate; injection E as <-; cbn -[of_thread]; rewrite ?at_ne by auto; rewrite ?of_thread_snoc; cbn -[of_thread]; rewrite ?M, ?app_nil_r; auto.
Qed.

Lemma step_view s t f s' : mstep lt dflt s t f = Some s' ->
  forall u p, view u s p -> view u s' p.
Proof.
  intros E u p (A & l & B & C). unfold view. destruct (Nat.eq_dec u t) as [->|N].
  2:{ destruct (step_other _ _ _ _ _ E N) as (-> & -> & ->). eauto. }
  unfold mstep, access in E.
  destruct (m_pc s t) as [|i o|i o|i o|i k n|i k n|i o r|i o r] eqn:P;
    repeat match type of E with
    | context [match m_prog s t with _ => _ end] => destruct (m_prog s t) as [|o q] eqn:PR
    | context [match ?x with _ => _ end] => destruct x
    end; try discriminate; injection E as <-; cbn -[of_thread]; rewrite ?at_eq; cbn -[of_thread] in *;
    try (split; [exact A|]; exists l; split; [exact B|exact C]).
  - rewrite of_thread_snoc. cbn -[of_thread]. rewrite Nat.eqb_refl. rewrite calls_app. cbn -[of_thread]. rewrite <- app_assoc. cbn -[of_thread].
    split; [exact A|]. exists l. rewrite B, app_nil_r. auto.
  - rewrite of_thread_snoc. cbn -[of_thread]. rewrite Nat.eqb_refl. rewrite calls_app. cbn -[of_thread]. rewrite app_nil_r.
    split; [exact A|]. exists (l ++ [ECall t i o; ERet t i o r]). rewrite B, app_nil_r, <- app_assoc. split; [auto|].
    intros x X. rewrite <- app_assoc. apply C. cbn. constructor. auto.
Qed.

Lemma run_view s sch u p : view u s p -> view u (mrun lt dflt s sch) p.
Proof.
  revert s. induction sch as [|(t, f) r IH]; intros s H; cbn; auto.
  destruct (mstep lt dflt s t f) as [s'|] eqn:E; auto. apply IH. eapply step_view; eauto.
Qed.

Lemma t_view progs sch t : let s := mrun lt dflt (mstart progs) sch in
  progs t = calls (of_thread t (m_hist s)) ++ m_prog s t /\ alternates (of_thread t (m_hist s)) /\
  (m_pc s t = PIdle -> forall i o, In (ECall t i o) (m_hist s) -> exists r, In (ERet t i o r) (m_hist s)).
Proof.
  intro s. assert (W : view t s (progs t)).
  { apply run_view. split; [reflexivity|]. exists []. auto. }
  destruct W as (A & l & B & C). split; [exact A|]. split.
  - rewrite B. apply C. destruct (cur (m_pc s t)) as [(i, o)|]; constructor.
  - intros P i o H. rewrite P in B. cbn in B. rewrite app_nil_r in B.
    assert (H' : In (ECall t i o) (of_thread t (m_hist s))) by (apply filter_In; cbn; rewrite Nat.eqb_refl; auto).
    assert (G : exists r, In (ERet t i o r) (of_thread t (m_hist s))).
    { specialize (C [ECall t i o] (Alt_pending _ _ _)). rewrite B in *. clear - C H'.
      remember (l ++ [ECall t i o]) as z eqn:Z. revert l Z H'.
      induction C as [|t' i' o'|t' i' o' r' z C IH]; intros l Z H'.
      - destruct l; discriminate.
      - destruct l as [|a l]; [contradiction|]. destruct l; discriminate.
      - destruct l as [|a l]; [contradiction|]. destruct l as [|b l]; [discriminate|]. cbn in Z. injection Z as <- <- Z2.
        destruct H' as [H'|[H'|H']].
        + injection H' as <- <- <-. eexists. cbn. right. left. reflexivity.
        + discriminate.
        + destruct (IH l Z2 H') as (r & Hr). exists r. cbn. auto. }
    destruct G as (r & G). exists r. apply filter_In in G. tauto.
Qed.

(** ** Call numbers are unique *)
Lemma step_ids s t f s' : mstep lt dflt s t f = Some s' ->
  NoDup (call_ids (m_hist s)) /\ (forall i, In i (call_ids (m_hist s)) -> i < m_next s) ->
  NoDup (call_ids (m_hist s')) /\ (forall i, In i (call_ids (m_hist s')) -> i < m_next s').
Proof.
  intros E (A & B). unfold mstep, access in E.
  destruct (m_pc s t) as [|i o|i o|i o|i k n|i k n|i o r|i o r] eqn:P;
    repeat match type of E with
    | context [match ?x with _ => _ end] => destruct x
    end; try discriminate; injection E as <-; cbn; auto.
  - unfold call_ids. rewrite flat_map_app. cbn. split.
    + apply nodup_snoc; auto. intros H. apply B in H. lia.
    + intros i H. apply in_app_or in H. destruct H as [H|[H|[]]]; [apply B in H; lia|lia].
  - unfold call_ids. rewrite flat_map_app. cbn. rewrite app_nil_r. auto.
Qed.
Lemma t_ids progs sch : NoDup (call_ids (m_hist (mrun lt dflt (mstart progs) sch))).
Proof.
  enough (H : forall s, NoDup (call_ids (m_hist s)) /\ (forall i, In i (call_ids (m_hist s)) -> i < m_next s) ->
    NoDup (call_ids (m_hist (mrun lt dflt s sch)))).
  { apply H. cbn. split; [constructor|intros ? []]. }
  induction sch as [|(t, f) r IH]; intros s H; cbn; [tauto|].
  destruct (mstep lt dflt s t f) as [s'|] eqn:E; auto. apply IH. eapply step_ids; eauto.
Qed.

(** ** Exceptions come only from failures *)
Definition calm (s : sys) : Prop :=
  (forall t, outcome (m_pc s t) <> Some RThrow) /\ (forall t i o, ~ In (ERet t i o RThrow) (m_hist s)).
Lemma step_calm s t s' : mstep lt dflt s t false = Some s' -> calm s -> calm s'.
Proof.
  intros E (A & B). unfold mstep, access in E.
  destruct (m_pc s t) as [|i o|i o|i o|i k n|i k n|i o r|i o r] eqn:P;
    repeat match type of E with
    | context [match ?x with _ => _ end] => destruct x
    end; try discriminate; injection E as <-; cbn;
    (split; cbn; [intros u; destruct (Nat.eq_dec u t) as [->|Hu]; [rewrite at_eq; cbn; try discriminate|rewrite at_ne by auto; auto]|
      try exact B]);
    try (specialize (A t); rewrite P in A; exact A).
  - intros u j q H. apply in_app_or in H. destruct H as [H|[H|[]]]; [eapply B; eauto|discriminate].
  - intros u j q H. apply in_app_or in H. destruct H as [H|[H|[]]]; [eapply B; eauto|]. injection H as <- <- <- ->.
    apply (A t). rewrite P. auto.
Qed.
Lemma t_calm progs sch : Forall (fun x => snd x = false) sch ->
  forall t i o, ~ In (ERet t i o RThrow) (m_hist (mrun lt dflt (mstart progs) sch)).
Proof.
  intros F. enough (H : forall s, calm s -> calm (mrun lt dflt s sch)).
  { apply H. split; [discriminate|intros ? ? ? []]. }
  induction F as [|(t, f) r Hf F IH]; intros s H; cbn; auto. cbn in Hf. subst f.
  destruct (mstep lt dflt s t false) as [s'|] eqn:E; auto. apply IH. eapply step_calm; eauto.
Qed.

(** ** Every call ends *)
Definition rank (p : pcs K V) : nat :=
  match p with
  | PIdle => 0 | PCalled _ _ => 7 | PLocked _ _ => 6 | PAccess _ _ => 5 | PFound _ _ _ => 4
  | PCopy _ _ _ => 3 | PHave _ _ _ => 2 | PLeft _ _ _ => 1
  end.
Definition left (s : sys) (t : nat) : nat := 8 * length (m_prog s t) + rank (m_pc s t).
Lemma step_left s t f s' : mstep lt dflt s t f = Some s' -> left s' t < left s t.
Proof.
  intros E. unfold left. unfold mstep, access in E.
  destruct (m_pc s t) as [|i o|i o|i o|i k n|i k n|i o r|i o r] eqn:P;
    repeat match type of E with
    | context [match m_prog s t with _ => _ end] => destruct (m_prog s t) as [|o q] eqn:PR
    | context [match ?x with _ => _ end] => destruct x
    end; try discriminate; injection E as <-; cbn; rewrite ?at_eq; cbn; rewrite ?PR; cbn; lia.
Qed.

(** All threads that still can move are in [ts]. *)
Lemma left_zero s t : left s t = 0 <-> m_pc s t = PIdle /\ m_prog s t = [].
Proof.
  unfold left. destruct (m_pc s t); destruct (m_prog s t); cbn; split; try lia; try (intros (? & ?); discriminate); auto.
Qed.
Definition total (s : sys) (ts : list nat) : nat := list_sum (map (left s) ts).
Lemma step_total s t f s' ts : mstep lt dflt s t f = Some s' -> NoDup ts -> In t ts -> total s' ts < total s ts.
Proof.
  intros E. unfold total. induction ts as [|u r IH]; intros N H; [contradiction|]. inversion N; subst.
  unfold list_sum in *. cbn [map fold_right].
  assert (OTH : forall v, v <> t -> left s' v = left s v).
  { intros v Hv. unfold left. destruct (step_other _ _ _ _ _ E Hv) as (-> & -> & _). auto. }
  destruct H as [->|H].
  - pose proof (step_left _ _ _ _ E). assert (X : map (left s') r = map (left s) r).
    { apply map_ext_in. intros v Hv. apply OTH. intros ->. contradiction. }
    rewrite X. lia.
  - rewrite (OTH u); [|intros ->; contradiction]. specialize (IH H3 H). lia.
Qed.

Lemma moves_bound ts : NoDup ts -> forall sch s, (forall t, ~ In t ts -> left s t = 0) -> moves dflt lt s sch <= total s ts.
Proof.
  intros N. induction sch as [|(t, f) r IH]; intros s Z; cbn; [lia|].
  destruct (mstep lt dflt s t f) as [s'|] eqn:E; [|auto].
  assert (H : In t ts).
  { destruct (in_dec Nat.eq_dec t ts); auto. exfalso. pose proof (step_left _ _ _ _ E). rewrite (Z t n) in H. lia. }
  pose proof (step_total _ _ _ _ _ E N H). enough (moves dflt lt s' r <= total s' ts) by lia. apply IH. intros u Hu.
  unfold left. destruct (step_other _ _ _ _ u E) as (-> & -> & _); [intros ->; contradiction|]. apply Z. auto.
Qed.
Lemma start_total progs ts : total (mstart progs) ts = 8 * list_sum (map (fun t => length (progs t)) ts).
Proof. unfold total. induction ts as [|t r IH]; [reflexivity|]. cbn [map list_sum fold_right]. unfold list_sum in IH |- *. cbn [fold_right].
  rewrite IH. unfold left. cbn [m_prog m_pc mstart rank]. lia. Qed.
End Facts.
