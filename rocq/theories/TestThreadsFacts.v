(** * The system test of thread_safe_map. Proofs. *)
From Coq Require Import Lia.
From Verif Require Import Base KeySpec StdSet StdSetFacts ThreadMap ThreadMapSpec ThreadMapFacts ThreadOwn TestThreads.
Local Open Scope N_scope.

Lemma uint_order : strict_total_order N.ltb.
Proof.
  split; [apply N.ltb_irrefl|]. split.
  - intros a b c. rewrite !N.ltb_lt. apply N.lt_trans.
  - intros a b. rewrite !N.ltb_lt. lia.
Qed.
Lemma key_index r i : i < 2^16 -> test_key r i mod 2^16 = i.
Proof.
  intros H. unfold test_key. rewrite <- N.land_ones, N.land_lor_distr_l, !N.land_ones, N.shiftl_mul_pow2, N.mod_mul by discriminate.
  rewrite N.mod_small by exact H. apply N.lor_0_l.
Qed.
Section Test.
Context {V : Type} (text : N -> V) (dflt : V).
Notation mp := (N -> option V).
Definition calm_l (l : list (nat * mop N V * mres V)) : Prop := forall i o, ~ In (i, o, RThrow) l.
Definition ops (l : list (nat * mop N V * mres V)) : list (mop N V) := map (fun c => snd (fst c)) l.
Definition good (m : mp) : Prop := forall k, m k = None \/ m k = Some (text k).

Lemma split_ops (l : list (nat * mop N V * mres V)) rest a b : ops l ++ rest = a ++ b ->
  (exists l1 l2, l = l1 ++ l2 /\ ops l1 = a /\ ops l2 ++ rest = b) \/ (exists r, ops l ++ r = a).
Proof.
  revert a. induction l as [|c l IH]; intros a E.
  - destruct a as [|x a]; [left; exists [], []; auto|right; exists (x :: a); reflexivity].
  - destruct a as [|x a]; [left; exists [], (c :: l); auto|]. cbn [ops map app] in E. injection E as <- E.
    destruct (IH a E) as [(l1 & l2 & -> & <- & E2)|(r & E2)].
    + left. exists (c :: l1), l2. auto.
    + right. exists r. cbn [ops map app]. f_equal. exact E2.
Qed.
Lemma run_inserts (l : list (nat * mop N V * mres V)) : forall ks (m m' : mp) rest, calm_l l -> good m -> run_seq dflt m l m' ->
  ops l ++ rest = map (fun k => MInsert k (text k)) ks ->
  good m' /\ (forall k, m k <> None -> m' k <> None) /\ (rest = [] -> forall k, In k ks -> m' k <> None).
Proof.
  induction l as [|((i, o), r) l IH]; intros ks m m' rest C G R E; inversion R as [? ? X|? m1 ? ? ? ? ? D R1]; subst.
  - split; [intros k; rewrite X; apply G|]. split; [intros k Hk; rewrite X; exact Hk|].
    cbn [ops map app] in E. intros ->. destruct ks; [intros ? []|discriminate].
  - destruct ks as [|k0 ks]; [discriminate|]. cbn [ops map app fst snd] in E. injection E as -> E.
    assert (S : good m1 /\ (forall k, m k <> None -> m1 k <> None) /\ m1 k0 <> None).
    { inversion D; subst.
      - split; [|split].
        + intros k. destruct (N.eq_dec k k0) as [->|N0]; [right; assumption|]. match goal with H : forall x, x <> k0 -> _ |- _ => rewrite (H k N0) end. apply G.
        + intros k Hk. destruct (N.eq_dec k k0) as [->|N0]; [congruence|]. match goal with H : forall x, x <> k0 -> _ |- _ => rewrite (H k N0) end. exact Hk.
        + congruence.
      - match goal with H : forall x, m1 x = m x |- _ => rename H into Hx end.
        split; [intros k; rewrite Hx; apply G|]. split; [intros k Hk; rewrite Hx; exact Hk|]. rewrite Hx. congruence.
      - exfalso. eapply C. left. reflexivity. }
    destruct S as (S1 & S2 & S3).
    destruct (IH ks m1 m' rest (fun j q Hq => C j q (or_intror Hq)) S1 R1 E) as (T1 & T2 & T3).
    split; [exact T1|]. split; [auto|]. intros Hr k [<-|Hk]; [auto|exact (T3 Hr k Hk)].
Qed.
Lemma run_finds (l : list (nat * mop N V * mres V)) : forall ks (m m' : mp) rest, calm_l l -> good m -> (forall k, In k ks -> m k <> None) -> run_seq dflt m l m' ->
  ops l ++ rest = map (fun k => MFind k) ks -> (forall k, m' k = m k) /\ forall i k r, In (i, MFind k, r) l -> r = RFind (text k) true.
Proof.
  induction l as [|((i, o), r) l IH]; intros ks m m' rest C G H R E; inversion R as [? ? X|? m1 ? ? ? ? ? D R1]; subst.
  - split; [exact X|intros ? ? ? []].
  - destruct ks as [|k0 ks]; [discriminate|]. cbn [ops map app fst snd] in E. injection E as -> E.
    assert (S : (forall k, m1 k = m k) /\ r = RFind (text k0) true).
    { inversion D; subst.
      - split; [assumption|]. destruct (G k0); congruence.
      - exfalso. apply (H k0); [left; reflexivity|assumption].
      - exfalso. eapply C. left. reflexivity. }
    destruct S as (S1 & ->).
    destruct (IH ks m1 m' rest) as (T1 & T2); [intros j q Hq; exact (C j q (or_intror Hq))|intros k; rewrite S1; apply G|intros k Hk; rewrite S1; apply H; right; exact Hk|exact R1|exact E|].
    split; [intros k; rewrite T1; apply S1|]. intros j k x [Y|Y]; [injection Y as _ <- <-; reflexivity|exact (T2 j k x Y)].
Qed.
Lemma run_erases (l : list (nat * mop N V * mres V)) : forall ks (m m' : mp) rest, calm_l l -> run_seq dflt m l m' ->
  ops l ++ rest = map (fun k => MErase k) ks ->
  (forall k, m k = None -> m' k = None) /\ (rest = [] -> forall k, In k ks -> m' k = None) /\ (forall i k r, ~ In (i, MFind k, r) l).
Proof.
  induction l as [|((i, o), r) l IH]; intros ks m m' rest C R E; inversion R as [? ? X|? m1 ? ? ? ? ? D R1]; subst.
  - split; [intros k; rewrite X; auto|]. cbn [ops map app] in E. split; [intros ->; destruct ks; [intros ? []|discriminate]|intros ? ? ? []].
  - destruct ks as [|k0 ks]; [discriminate|]. cbn [ops map app fst snd] in E. injection E as -> E.
    assert (S : (forall k, m k = None -> m1 k = None) /\ m1 k0 = None).
    { inversion D; subst.
      - split; [|assumption]. intros k Hk. destruct (N.eq_dec k k0) as [->|N0]; [assumption|]. match goal with H : forall x, x <> k0 -> _ |- _ => rewrite (H k N0) end. exact Hk.
      - match goal with H : forall x, m1 x = m x |- _ => rename H into Hx end.
        split; [intros k Hk; rewrite Hx; exact Hk|]. rewrite Hx. assumption.
      - exfalso. eapply C. left. reflexivity. }
    destruct S as (S1 & S2).
    destruct (IH ks m1 m' rest (fun j q Hq => C j q (or_intror Hq)) R1 E) as (T1 & T2 & T3).
    split; [auto|]. split; [intros Hr k [<-|Hk]; [auto|exact (T2 Hr k Hk)]|].
    intros j k x [Y|Y]; [discriminate|exact (T3 j k x Y)].
Qed.
Lemma run_test index rands looks (l : list (nat * mop N V * mres V)) m rest : calm_l l -> rands <> [] ->
  run_seq dflt (fun _ => None) l m -> ops l ++ rest = test_program text index rands looks ->
  (forall i k r, In (i, MFind k, r) l -> r = RFind (text k) true) /\
  (rest = [] -> forall k, In k (map (fun r => test_key r index) rands) -> m k = None).
Proof.
  intros C N0 R E. unfold test_program in E. set (ks := map (fun r => test_key r index) rands) in *. cbv zeta in E.
  assert (G0 : good (fun _ => None)) by (intros k; left; reflexivity).
  assert (Cs : forall l1 l2, l = l1 ++ l2 -> calm_l l1 /\ calm_l l2).
  { intros l1 l2 ->. split; intros j q Hq; apply (C j q); apply in_or_app; auto. }
  assert (NI : forall (l1 : list (nat * mop N V * mres V)) r ks', ops l1 ++ r = map (fun k => MInsert k (text k)) ks' -> forall i k x, ~ In (i, MFind k, x) l1).
  { intros l1 r ks' E1 i k x Hx. assert (In (MFind k) (map (fun k => MInsert k (text k)) ks')).
    { rewrite <- E1. apply in_or_app. left. apply in_map_iff. exists (i, MFind k, x). auto. }
    apply in_map_iff in H. destruct H as (y & Y & _). discriminate. }
  destruct (split_ops l rest _ _ E) as [(l1 & l2 & -> & E1 & E2)|(r & E1)].
  2:{ split; [intros i k x Hx; destruct (NI _ _ _ E1 i k x Hx)|]. intros -> k Hk. exfalso.
      rewrite app_nil_r in E. rewrite E in E1. rewrite <- app_assoc in E1. apply (f_equal (@length _)) in E1. rewrite !app_length, !map_length in E1.
      unfold ks in E1. rewrite map_length in E1. destruct rands; [congruence|]. cbn in E1. lia. }
  destruct (Cs l1 l2 eq_refl) as (C1 & C2).
  destruct (run_prefix dflt _ _ _ _ R) as (m1 & R1 & R2).
  destruct (run_inserts l1 ks _ m1 [] C1 G0 R1) as (G1 & _ & P1); [rewrite app_nil_r; exact E1|].
  specialize (P1 eq_refl).
  assert (E2' : ops l2 ++ rest = map (fun k => MFind k) (map (fun r => nth (N.to_nat (r mod len ks)) ks 0) looks) ++ map (fun k => MErase k) ks).
  { rewrite map_map. exact E2. }
  assert (HL : forall k, In k (map (fun r => nth (N.to_nat (r mod len ks)) ks 0) looks) -> m1 k <> None).
  { intros k Hk. apply P1. apply in_map_iff in Hk. destruct Hk as (r & <- & _). apply nth_In.
    assert (len ks <> 0) by (unfold ks, len; destruct rands; [congruence|discriminate]).
    pose proof (N.mod_lt r (len ks) H). unfold len in *. lia. }
  assert (NF : forall i k x, In (i, MFind k, x) (l1 ++ l2) -> In (i, MFind k, x) l2).
  { intros i k x Hx. apply in_app_or in Hx. destruct Hx as [Hx|Hx]; [|exact Hx].
    destruct (NI l1 [] ks) with (i := i) (k := k) (x := x); [rewrite app_nil_r; exact E1|exact Hx]. }
  destruct (split_ops l2 rest _ _ E2') as [(l3 & l4 & -> & E3 & E4)|(r & E3)].
  - assert (calm_l l3 /\ calm_l l4) as (C3 & C4) by (split; intros j q Hq; apply (C2 j q); apply in_or_app; auto).
    destruct (run_prefix dflt _ _ _ _ R2) as (m3 & R3 & R4).
    destruct (run_finds l3 _ m1 m3 [] C3 G1 HL R3) as (M3 & F3); [rewrite app_nil_r; exact E3|].
    destruct (run_erases l4 ks m3 m rest C4 R4 E4) as (_ & P4 & F4).
    split; [|exact P4]. intros i k x Hx. apply NF in Hx. apply in_app_or in Hx. destruct Hx as [Hx|Hx]; [exact (F3 i k x Hx)|destruct (F4 i k x Hx)].
  - destruct (run_finds l2 _ m1 m r C2 G1 HL R2 E3) as (M3 & F3).
    split; [intros i k x Hx; exact (F3 i k x (NF i k x Hx))|]. intros -> k Hk. exfalso. rewrite app_nil_r in E2'. rewrite E2' in E3.
    rewrite <- app_assoc in E3. apply (f_equal (@length _)) in E3. rewrite !app_length, !map_length in E3.
    unfold ks in E3. rewrite map_length in E3. destruct rands; [congruence|]. cbn in E3. lia.
Qed.
Lemma prog_keys index rands looks o : rands <> [] -> In o (test_program text index rands looks) -> In (op_key o) (map (fun r => test_key r index) rands).
Proof.
  intros N0 H. unfold test_program in H. set (ks := map (fun r => test_key r index) rands) in *. cbv zeta in H.
  rewrite !in_app_iff, !in_map_iff in H. destruct H as [(k & <- & Hk)|[(r & <- & _)|(k & <- & Hk)]]; [exact Hk| |exact Hk].
  cbn [op_key]. apply nth_In.
  assert (X : len ks <> 0) by (unfold ks, len; destruct rands; [congruence|discriminate]).
  pose proof (N.mod_lt r (len ks) X). unfold len in *. lia.
Qed.

Lemma run_untouched (m : mp) l m' k : run_seq dflt m l m' -> (forall i o r, In (i, o, r) l -> op_key o <> k) -> m' k = m k.
Proof.
  induction 1 as [m m' X|m m1 m2 i o r l D R IH]; intros H; [apply X|].
  rewrite IH by (intros j q y Hq; apply (H j q y); right; exact Hq).
  specialize (H i o r (or_introl eq_refl)). inversion D; subst; cbn [op_key] in H; auto.
Qed.

Lemma t_thread_test draws sch : N.of_nat (length draws) <= 2^16 -> Forall (fun d => fst d <> []) draws -> Forall (fun x => snd x = false) sch ->
  let s := mrun N.ltb dflt (mstart (test_threads text draws)) sch in
  (forall t i k r, In (ERet t i (MFind k) r) (m_hist s) -> r = RFind (text k) true) /\
  ((forall t, m_pc s t = PIdle /\ m_prog s t = []) -> m_data s = []).
Proof.
  intros HN HD HS s. set (progs := test_threads text draws) in *.
  assert (Priv : forall t u, u <> t -> forall o p, In o (progs t) -> In p (progs u) -> op_key o <> op_key p).
  { intros t u Ne o p Ho Hp E. unfold progs, test_threads in Ho, Hp.
    destruct (nth_error draws t) as [[r1 l1]|] eqn:E1; [|destruct Ho]. destruct (nth_error draws u) as [[r2 l2]|] eqn:E2; [|destruct Hp].
    rewrite Forall_forall in HD. pose proof (HD _ (nth_error_In _ _ E1)) as D1. pose proof (HD _ (nth_error_In _ _ E2)) as D2.
    apply prog_keys in Ho; [|exact D1]. apply prog_keys in Hp; [|exact D2]. rewrite <- E in Hp.
    apply in_map_iff in Ho. apply in_map_iff in Hp. destruct Ho as (a & A & _). destruct Hp as (b & B & _).
    assert (T1 : (t < length draws)%nat) by (apply nth_error_Some; congruence). assert (T2 : (u < length draws)%nat) by (apply nth_error_Some; congruence).
    apply Ne. apply Nat2N.inj. rewrite <- (key_index a (N.of_nat t)) by lia. rewrite <- (key_index b (N.of_nat u)) by lia. congruence. }
  assert (Each : forall t, exists m, run_seq dflt (fun _ => None) (answers t (m_hist s)) m /\
     (m_pc s t = PIdle -> forall o, In o (progs t) -> mp_deref N.ltb (op_key o) (m_data s) = m (op_key o)) /\
     exists rest, progs t = ops (answers t (m_hist s)) ++ rest /\ (m_pc s t = PIdle -> rest = m_prog s t)).
  { intros t. destruct (t_own N.ltb uint_order dflt progs t sch (Priv t)) as (m & R & D).
    destruct (answers_of_program N.ltb dflt progs t sch) as (rest & A & B). exists m. eauto. }
  assert (Cl : forall t, calm_l (answers t (m_hist s))).
  { intros t i o Hi. unfold answers in Hi. apply in_flat_map in Hi. destruct Hi as (e & He & Hi). destruct e as [|t0 j q x]; [destruct Hi|].
    destruct Hi as [Hi|[]]. injection Hi as -> -> ->. unfold of_thread in He. apply filter_In in He. exact (t_calm N.ltb dflt progs sch HS _ _ _ (proj1 He)). }
  assert (One : forall t, (forall i k r, In (i, MFind k, r) (answers t (m_hist s)) -> r = RFind (text k) true) /\
    (m_pc s t = PIdle -> m_prog s t = [] -> forall o, In o (progs t) -> mp_deref N.ltb (op_key o) (m_data s) = None)).
  { intros t. destruct (Each t) as (m & R & D & rest & A & B). unfold progs, test_threads in *.
    destruct (nth_error draws t) as [[r1 l1]|] eqn:E1.
    - rewrite Forall_forall in HD. pose proof (HD _ (nth_error_In _ _ E1)) as D1. cbn [fst] in D1.
      destruct (run_test (N.of_nat t) r1 l1 _ m rest (Cl t) D1 R (eq_sym A)) as (X & Y). split; [exact X|].
      intros P Q o Ho. rewrite (D P o Ho). apply Y; [rewrite (B P); exact Q|]. apply (prog_keys _ _ l1); assumption.
    - split; [|intros _ _ o []]. intros i k x Hx. destruct (answers t (m_hist s)); [destruct Hx|discriminate]. }
  split.
  - intros t i k r Hr. apply (proj1 (One t) i k r). unfold answers. apply in_flat_map. exists (ERet t i (MFind k) r). split; [|left; reflexivity].
    unfold of_thread. apply filter_In. split; [exact Hr|]. apply Nat.eqb_refl.
  - intros Hend. destruct (t_linear N.ltb uint_order dflt progs sch) as (L & m & (_ & _ & Hc & _) & R & D).
    destruct (m_data s) as [|[k v] d] eqn:Ed; [reflexivity|]. exfalso.
    assert (X : mp_deref N.ltb k (m_data s) = Some v).
    { rewrite Ed. cbn. rewrite (equiv_refl N.ltb uint_order). reflexivity. }
    assert (Y : forall t o, In o (progs t) -> op_key o <> k).
    { intros t o Ho E. destruct (Hend t) as (P & Q). pose proof (proj2 (One t) P Q o Ho) as Z. rewrite E in Z. congruence. }
    fold s in D. rewrite D in X. rewrite (run_untouched _ _ _ k R) in X; [discriminate|].
    intros i o r Hi E. destruct (Hc i o r Hi) as (t & Ht). destruct (t_view N.ltb dflt progs sch t) as (A & _ & _).
    apply (Y t o); [|exact E]. rewrite A. apply in_or_app. left. unfold calls. apply in_flat_map. exists (ECall t i o).
    split; [|left; reflexivity]. unfold of_thread. apply filter_In. split; [exact Ht|]. apply Nat.eqb_refl.
Qed.
End Test.
