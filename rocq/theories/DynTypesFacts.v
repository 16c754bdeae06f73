(** * The dynamic type table. Proofs. *)
From Verif Require Import Base Bytes BytesFacts Values Types EntityWriter EntityReader Sections ValueEq DynTypes.
Open Scope N_scope.

(** Ids determine the types. *)
Definition dt_of (n : N) : option dtype := find (fun t => dt_id t =? n) all_dtypes.
Definition ct_of (n : N) : option ctype := find (fun t => ct_id t =? n) all_ctypes.
Lemma dt_of_id t : dt_of (dt_id t) = Some t.
Proof. destruct t as [|[]|[]|[]|[] []|[] []|[] []|[] []|[]| | | | |]; reflexivity. Qed.
Lemma ct_of_id t : ct_of (ct_id t) = Some t.
Proof. destruct t; reflexivity. Qed.
Lemma ids_inj k k' : class_ids k = class_ids k' -> k = k'.
Proof.
  destruct k as [t c], k' as [t' c']. unfold class_ids. cbn [fst snd]. intros H. injection H as H1 H2.
  apply (f_equal dt_of) in H1. apply (f_equal ct_of) in H2. rewrite !dt_of_id in H1. rewrite !ct_of_id in H2. congruence.
Qed.
Lemma all_dtypes_all t : In t all_dtypes.
Proof. pose proof (dt_of_id t) as H. unfold dt_of in H. apply find_some in H. tauto. Qed.
Lemma all_ctypes_all t : In t all_ctypes.
Proof. destruct t; cbn; tauto. Qed.
Lemma all_classes_all k : In k all_classes.
Proof. destruct k as [t c]. apply in_flat_map. exists t. split; [apply all_dtypes_all|]. apply in_map_iff. exists c. split; auto. apply all_ctypes_all. Qed.

(** An empty slot is within reach of every slot. *)
Fixpoint reach (n : nat) (tab : slots) (i : N) : bool :=
  match slot tab i with
  | None => false
  | Some None => true
  | Some (Some _) => match n with O => false | S n' => reach n' tab (next_slot i) end
  end.
Lemma reach_all : forallb (fun i => reach table_size class_table (N.of_nat i)) (seq 0 table_size) = true.
Proof. vm_compute. reflexivity. Qed.
Lemma reach_slot i : i < N.of_nat table_size -> reach table_size class_table i = true.
Proof.
  intros H. pose proof reach_all as R. rewrite forallb_forall in R. specialize (R (N.to_nat i)). rewrite N2Nat.id in R. apply R, in_seq. lia.
Qed.
Lemma probe_total n tab : forall i dt ct, reach n tab i = true -> exists r, forall m, (n <= m)%nat -> probe m tab i dt ct = Some r.
Proof.
  induction n as [|n IH]; intros i dt ct H.
  - cbn [reach] in H. destruct (slot tab i) as [[k|]|] eqn:E; try discriminate. exists None. intros [|m] _; cbn [probe]; rewrite E; auto.
  - cbn [reach] in H. destruct (slot tab i) as [[k|]|] eqn:E; try discriminate.
    + destruct ((dt_id (fst k) =? dt) && (ct_id (snd k) =? ct)) eqn:Ek.
      * exists (Some k). intros [|m] _; cbn [probe]; rewrite E, Ek; auto.
      * destruct (IH _ dt ct H) as (r & Hr). exists r. intros [|m] Hm; [lia|]. cbn [probe]. rewrite E, Ek. apply Hr. lia.
    + exists None. intros [|m] _; cbn [probe]; rewrite E; auto.
Qed.
Lemma probe_sound n tab : forall i dt ct k, probe n tab i dt ct = Some (Some k) -> class_ids k = (dt, ct).
Proof.
  assert (S : forall k dt ct, (dt_id (fst k) =? dt) && (ct_id (snd k) =? ct) = true -> class_ids k = (dt, ct)).
  { intros k dt ct H. apply andb_true_iff in H. destruct H as [H1 H2]. apply N.eqb_eq in H1, H2. unfold class_ids. congruence. }
  induction n as [|n IH]; intros i dt ct k; cbn [probe]; destruct (slot tab i) as [[k'|]|]; try discriminate;
    destruct ((dt_id (fst k') =? dt) && (ct_id (snd k') =? ct)) eqn:Ek; try discriminate; intros H.
  - injection H as <-. auto.
  - injection H as <-. auto.
  - eauto.
Qed.
Lemma found_all : forallb (fun k => match find_type_class table_size (dt_id (fst k)) (ct_id (snd k)) with Some (Some _) => true | _ => false end) all_classes = true.
Proof. vm_compute. reflexivity. Qed.
Lemma hash_bound dt ct : dyn_hash dt ct < N.of_nat table_size.
Proof. apply N.mod_lt. discriminate. Qed.

(** The lookup. *)
Lemma t_find_class n dt ct : (table_size <= n)%nat ->
  exists r, find_type_class n dt ct = Some r /\ forall k, r = Some k <-> class_ids k = (dt, ct).
Proof.
  intros Hn. destruct (probe_total table_size class_table (dyn_hash dt ct) dt ct (reach_slot _ (hash_bound dt ct))) as (r & Hr).
  exists r. unfold find_type_class. rewrite (Hr n Hn). split; auto. intros k. split.
  - intros ->. apply (probe_sound _ _ _ _ _ _ (Hr n Hn)).
  - intros Hk. assert (Q := found_all). rewrite forallb_forall in Q. specialize (Q k (all_classes_all k)).
    unfold class_ids in Hk. injection Hk as <- <-. unfold find_type_class in Q. rewrite (Hr _ (le_n _)) in Q.
    destruct r as [k'|]; [|discriminate]. pose proof (probe_sound _ _ _ _ _ _ (Hr _ (le_n _))) as Q2. f_equal. apply ids_inj. exact Q2.
Qed.
Lemma find_class_iff dt ct k : find_class dt ct = Some k <-> class_ids k = (dt, ct).
Proof. unfold find_class. destruct (t_find_class table_size dt ct (le_n _)) as (r & E & H). rewrite E. apply H. Qed.
Lemma find_class_none dt ct : find_class dt ct = None <-> forall k, class_ids k <> (dt, ct).
Proof.
  split.
  - intros H k Hk. apply find_class_iff in Hk. congruence.
  - intros H. destruct (find_class dt ct) as [k|] eqn:E; auto. apply find_class_iff in E. destruct (H k E).
Qed.
Lemma find_class_id k : find_class (dt_id (fst k)) (ct_id (snd k)) = Some k.
Proof. apply find_class_iff. reflexivity. Qed.
Lemma class_is_iff k o : class_is k o = true <-> k = o_class o.
Proof.
  unfold class_is. destruct k as [t c], (o_class o) as [t' c']; cbn [fst snd].
  destruct (dtype_dec t t'), (ctype_dec c c'); cbn; split; congruence.
Qed.
Lemma as_class_own {A} o (f : cval -> res A) : as_class (o_class o) o f = f (o_val o).
Proof. unfold as_class. rewrite (proj2 (class_is_iff _ _) eq_refl). reflexivity. Qed.
Lemma probe_in tab : forall n i dt ct k, probe n tab i dt ct = Some (Some k) -> In (Some k) tab.
Proof.
  induction n as [|n IH]; intros i dt ct k; cbn [probe]; destruct (slot tab i) as [[k'|]|] eqn:S; try discriminate;
    destruct ((dt_id (fst k') =? dt) && (ct_id (snd k') =? ct)); try discriminate; intros H;
    try (injection H as <-; exact (nth_error_In _ _ S)).
  exact (IH _ _ _ _ H).
Qed.
Lemma class_in_table k : In (Some k) class_table.
Proof.
  pose proof (find_class_id k) as E. unfold find_class in E. set (r := find_type_class table_size (dt_id (fst k)) (ct_id (snd k))) in E.
  assert (Q : r = Some (Some k)) by (destruct r; [f_equal; exact E|discriminate]). exact (probe_in class_table _ _ _ _ _ Q).
Qed.
Fixpoint nodupb (l : list (N * N)) : bool :=
  match l with
  | [] => true
  | x :: r => negb (existsb (fun y => (fst x =? fst y) && (snd x =? snd y)) r) && nodupb r
  end.
Lemma nodupb_ok l : nodupb l = true -> NoDup l.
Proof.
  induction l as [|x r IH]; cbn [nodupb]; intros H; constructor; apply andb_true_iff in H; destruct H as [H1 H2]; auto.
  intros Hin. apply negb_true_iff in H1. assert (X : existsb (fun y => (fst x =? fst y) && (snd x =? snd y)) r = true).
  { apply existsb_exists. exists x. rewrite !N.eqb_refl. auto. }
  congruence.
Qed.
Lemma classes_nodup : NoDup all_classes.
Proof.
  apply (NoDup_map_inv class_ids). apply nodupb_ok. vm_compute. reflexivity.
Qed.
