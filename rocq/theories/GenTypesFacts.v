(** * GenTypesFacts: lemmas on the generator's numbers and table (no theorems of their own). *)
From Verif Require Import Base Bytes GenTypes GenTypesSpec.
Local Open Scope nat_scope.

(** ** The numbers *)
Section Numbers.
Context {A : Type}.
Implicit Types (types : list (list A)) (a : A).

Lemma number_variants_in : forall (l : list A) b v d a, In (d, a) (number_variants b v l) <->
  exists j, nth_error l j = Some a /\ d = (16 * (b + 1) + (v + N.of_nat j + 1))%N.
Proof.
  induction l as [|x l IH]; intros b v d a; cbn [number_variants].
  - split; [intros []|]. intros (j & H & _). destruct j; discriminate H.
  - cbn [In]. rewrite IH. split.
    + intros [H|(j & H1 & H2)].
      * inversion H; subst. exists O. split; [reflexivity|]. rewrite N.shiftl_mul_pow2. change (2 ^ 4)%N with 16%N. lia.
      * exists (S j). split; [exact H1|]. lia.
    + intros ([|j] & H1 & H2).
      * left. inversion H1; subst. f_equal. rewrite N.shiftl_mul_pow2. change (2 ^ 4)%N with 16%N. lia.
      * right. exists j. split; [exact H1|]. lia.
Qed.
Lemma number_types_in : forall types b d a, In (d, a) (number_types b types) <->
  exists i j vs, nth_error types i = Some vs /\ nth_error vs j = Some a /\ d = (16 * (b + N.of_nat i + 1) + (N.of_nat j + 1))%N.
Proof.
  induction types as [|vs types IH]; intros b d a; cbn [number_types].
  - split; [intros []|]. intros (i & j & vs & H & _). destruct i; discriminate H.
  - rewrite in_app_iff, number_variants_in, IH. split.
    + intros [(j & H1 & H2)|(i & j & ws & H1 & H2 & H3)].
      * exists O, j, vs. split; [reflexivity|]. split; [exact H1|]. lia.
      * exists (S i), j, ws. split; [exact H1|]. split; [exact H2|]. lia.
    + intros ([|i] & j & ws & H1 & H2 & H3).
      * left. inversion H1; subst. exists j. split; [exact H2|]. lia.
      * right. exists i, j, ws. split; [exact H1|]. split; [exact H2|]. lia.
Qed.
Lemma enum_in types d a : In (d, a) (type_enum types) <-> numbered types d a.
Proof. unfold type_enum. rewrite number_types_in. reflexivity. Qed.

Lemma variants_len : forall (l : list A) b v, length (number_variants b v l) = length l.
Proof. induction l; intros; cbn [number_variants length]; [reflexivity|]. rewrite IHl. reflexivity. Qed.
Lemma types_len : forall types b, length (number_types b types) = variants types.
Proof. induction types; intros; cbn [number_types variants fold_right length]; [reflexivity|]. rewrite app_length, variants_len, IHtypes. reflexivity. Qed.

Lemma variants_nodup : forall (l : list A) b v, NoDup (map fst (number_variants b v l)).
Proof.
  induction l as [|x l IH]; intros b v; cbn [number_variants map fst]; constructor; [|apply IH].
  intros H. apply in_map_iff in H. destruct H as ((d & a) & E & H). cbn in E. apply number_variants_in in H.
  destruct H as (j & _ & H). rewrite N.shiftl_mul_pow2 in E. change (2 ^ 4)%N with 16%N in E. lia.
Qed.
Lemma app_nodup {X} (l r : list X) : NoDup l -> NoDup r -> (forall x, In x l -> ~ In x r) -> NoDup (l ++ r).
Proof.
  induction l as [|x l IH]; intros Hl Hr H; [exact Hr|]. inversion Hl; subst. cbn [app]. constructor.
  - rewrite in_app_iff. intros [X1|X1]; [tauto|]. exact (H x (or_introl eq_refl) X1).
  - apply IH; auto. intros y Hy. apply H. right. exact Hy.
Qed.
Lemma types_nodup : forall types b,
  (forall i j i' j' vs vs' a a', nth_error types i = Some vs -> nth_error vs j = Some a ->
    nth_error types i' = Some vs' -> nth_error vs' j' = Some a' ->
    (16 * (N.of_nat i + 1) + (N.of_nat j + 1) = 16 * (N.of_nat i' + 1) + (N.of_nat j' + 1))%N -> i = i' /\ j = j') ->
  NoDup (map fst (number_types b types)).
Proof.
  induction types as [|vs types IH]; intros b H; cbn [number_types]; [constructor|]. rewrite map_app. apply app_nodup.
  - apply variants_nodup.
  - apply IH. intros i j i' j' ws ws' a a' H1 H2 H3 H4 H5. destruct (H (S i) j (S i') j' ws ws' a a' H1 H2 H3 H4); [lia|]. split; lia.
  - intros d Hd Hd'. apply in_map_iff in Hd, Hd'. destruct Hd as ((d1 & a) & E & Hd), Hd' as ((d2 & a') & E' & Hd'). cbn in E, E'. subst d1 d2.
    apply number_variants_in in Hd. apply number_types_in in Hd'. destruct Hd as (j & H1 & H2), Hd' as (i & j' & ws & H3 & H4 & H5).
    destruct (H O j (S i) j' vs ws a a' eq_refl H1 H3 H4); [lia|]. lia.
Qed.
Lemma unique_nodup types : numbers_unique types -> NoDup (map fst (type_enum types)).
Proof. intros H. apply types_nodup. exact H. Qed.

Lemma unique_small types : (forall i vs, nth_error types i = Some vs -> i + 1 < length types -> length vs <= 16) -> numbers_unique types.
Proof.
  assert (P : forall i j i' j' vs vs' a a', (forall i vs, nth_error types i = Some vs -> i + 1 < length types -> length vs <= 16) ->
    nth_error types i = Some vs -> nth_error vs j = Some a -> nth_error types i' = Some vs' -> nth_error vs' j' = Some a' ->
    (16 * (N.of_nat i + 1) + (N.of_nat j + 1) = 16 * (N.of_nat i' + 1) + (N.of_nat j' + 1))%N -> ~ i < i').
  { intros i j i' j' vs vs' a a' H H1 H2 H3 H4 H5 L.
    assert (L1 : i' < length types) by (apply nth_error_Some; congruence).
    assert (L2 : j < length vs) by (apply nth_error_Some; congruence).
    pose proof (H i vs H1 ltac:(lia)). lia. }
  intros H i j i' j' vs vs' a a' H1 H2 H3 H4 H5.
  assert (i = i').
  { pose proof (P i j i' j' vs vs' a a' H H1 H2 H3 H4 H5). pose proof (P i' j' i j vs' vs a' a H H3 H4 H1 H2 (eq_sym H5)). lia. }
  subst i'. split; [reflexivity|]. lia.
Qed.
Lemma unique_only types i vs ws : numbers_unique types -> nth_error types i = Some vs -> nth_error types (S i) = Some ws -> ws <> [] ->
  length vs <= 16.
Proof.
  intros H H1 H2 H3. destruct (Nat.le_gt_cases (length vs) 16) as [L|L]; [exact L|]. exfalso.
  destruct (nth_error vs 16) as [a|] eqn:Ea; [|apply nth_error_None in Ea; lia]. destruct ws as [|w ws]; [congruence|].
  destruct (H i 16 (S i) 0 vs (w :: ws) a w H1 Ea H2 eq_refl); lia.
Qed.
Lemma extends_at types later : extends types later -> forall i vs, nth_error types i = Some vs ->
  exists more, nth_error later i = Some (vs ++ more).
Proof.
  induction 1 as [more|ws more types later H IH]; intros i vs Hi; [destruct i; discriminate Hi|].
  destruct i as [|i]; [inversion Hi; subst; exists more; reflexivity|]. apply IH. exact Hi.
Qed.
Lemma nth_app {X} (l r : list X) j (a : X) : nth_error l j = Some a -> nth_error (l ++ r) j = Some a.
Proof. intros H. rewrite nth_error_app1; [exact H|]. apply nth_error_Some. congruence. Qed.
Lemma extends_numbered types later d a : extends types later -> numbered types d a -> numbered later d a.
Proof.
  intros H (i & j & vs & H1 & H2 & H3). destruct (extends_at types later H i vs H1) as (more & Hm).
  exists i, j, (vs ++ more). split; [exact Hm|]. split; [apply nth_app; exact H2|exact H3].
Qed.
End Numbers.

(** ** The table *)
Section Table.
Context {A C : Type} (size : nat) (m1 m2 : N).
Notation entry := (entry A C).
Notation gtable := (gtable A C).
Implicit Types (tab : gtable) (x : entry).
Local Notation at_ h k := ((h + k) mod size).

(** Slots with natural numbers. *)
Lemma step_at h k : 0 < size -> h < size -> step_slot size (N.of_nat (at_ h k)) = N.of_nat (at_ h (S k)).
Proof.
  intros Hs Hh. unfold step_slot. pose proof (Nat.mod_upper_bound (h + k) size ltac:(lia)) as B.
  replace (h + S k) with (h + k + 1) by lia. rewrite <- (Nat.add_mod_idemp_l (h + k) 1 size) by lia.
  set (p := (h + k) mod size) in *. destruct (N.leb_spec (N.of_nat size) (N.of_nat p + 1)%N) as [L|L].
  - replace (p + 1) with size by lia. rewrite Nat.mod_same by lia. reflexivity.
  - rewrite Nat.mod_small by lia. lia.
Qed.
Lemma at_0 h : h < size -> at_ h 0 = h.
Proof. intros H. rewrite Nat.add_0_r. apply Nat.mod_small. exact H. Qed.
Lemma slot_at tab p : gslot tab (N.of_nat p) = nth_error tab p.
Proof. unfold gslot. rewrite Nat2N.id. reflexivity. Qed.
Lemma at_reach h i : h < size -> i < size -> exists k, k < size /\ at_ h k = i.
Proof.
  intros Hh Hi. destruct (Nat.le_gt_cases h i) as [L|L].
  - exists (i - h). split; [lia|]. replace (h + (i - h)) with i by lia. apply Nat.mod_small. exact Hi.
  - exists (i + size - h). split; [lia|]. replace (h + (i + size - h)) with (i + 1 * size) by lia. rewrite Nat.mod_add by lia. apply Nat.mod_small. exact Hi.
Qed.

Definition filled tab p : Prop := exists x, nth_error tab p = Some (Some x).
Fixpoint count tab : nat := match tab with [] => 0 | Some _ :: r => S (count r) | None :: r => count r end.
Lemma count_le tab : count tab <= length tab.
Proof. induction tab as [|[x|] tab IH]; cbn [count length]; lia. Qed.
Lemma count_empty tab : count tab < length tab -> exists i, i < length tab /\ nth_error tab i = Some None.
Proof.
  induction tab as [|[x|] tab IH]; cbn [count length]; intros H; [lia| |].
  - destruct (IH ltac:(lia)) as (i & Hi & E). exists (S i). split; [lia|exact E].
  - exists 0. split; [lia|reflexivity].
Qed.
Lemma count_full tab : count tab = length tab -> forall p, p < length tab -> filled tab p.
Proof.
  induction tab as [|[x|] tab IH]; cbn [count length]; intros H p Hp; [lia| |].
  - destruct p as [|p]; [exists x; reflexivity|]. destruct (IH ltac:(lia) p ltac:(lia)) as (y & E). exists y. exact E.
  - pose proof (count_le tab). lia.
Qed.
Lemma gset_len x : forall tab i, length (gset i x tab) = length tab.
Proof. induction tab as [|y tab IH]; intros i; destruct i; cbn [gset length]; auto. Qed.
Lemma gset_same x : forall tab i, i < length tab -> nth_error (gset i x tab) i = Some (Some x).
Proof. induction tab as [|y tab IH]; intros i; cbn [length]; [lia|]. destruct i; cbn [gset nth_error]; intros H; [reflexivity|]. apply IH. lia. Qed.
Lemma gset_other x : forall tab i p, p <> i -> nth_error (gset i x tab) p = nth_error tab p.
Proof. induction tab as [|y tab IH]; intros i p H; destruct i, p; cbn [gset nth_error]; try reflexivity; try congruence. apply IH. congruence. Qed.
Lemma gset_count x : forall tab i, nth_error tab i = Some None -> count (gset i x tab) = S (count tab).
Proof.
  induction tab as [|y tab IH]; intros i H; [destruct i; discriminate H|]. destruct i; cbn [gset nth_error] in *.
  - inversion H; subst. reflexivity.
  - destruct y; cbn [count]; rewrite (IH i H); reflexivity.
Qed.
Lemma count_repeat n : count (repeat None n) = 0.
Proof. induction n; cbn [repeat count]; auto. Qed.

(** insert_into_table takes the first empty slot from the hash on. *)
Lemma ginsert_spec tab h x : length tab = size -> h < size -> forall d k n, d <= n ->
  (forall j, k <= j < k + d -> filled tab (at_ h j)) -> nth_error tab (at_ h (k + d)) = Some None ->
  ginsert_at size n (N.of_nat (at_ h k)) x tab = Some (gset (at_ h (k + d)) x tab).
Proof.
  intros HL Hh. induction d as [|d IH]; intros k n Hn Hf He.
  - rewrite Nat.add_0_r in He |- *. destruct n; cbn [ginsert_at]; rewrite slot_at, He, Nat2N.id; reflexivity.
  - destruct n as [|n]; [lia|]. cbn [ginsert_at]. destruct (Hf k ltac:(lia)) as (y & Ey). rewrite slot_at, Ey, step_at by lia.
    replace (k + S d) with (S k + d) in * by lia. apply IH; [lia| |exact He]. intros j Hj. apply Hf. lia.
Qed.
Lemma first_empty tab h : length tab = size -> h < size -> count tab < size ->
  exists k, k < size /\ nth_error tab (at_ h k) = Some None /\ forall j, j < k -> filled tab (at_ h j).
Proof.
  intros HL Hh Hc. destruct (count_empty tab ltac:(lia)) as (i & Hi & Ei). destruct (at_reach h i Hh ltac:(lia)) as (k0 & Hk0 & Ek0).
  assert (Q : nth_error tab (at_ h k0) = Some None) by (rewrite Ek0; exact Ei). clear i Hi Ei Ek0. revert k0 Hk0 Q.
  induction k0 as [k0 IH] using (well_founded_induction lt_wf). intros Hk Q.
  destruct (Exists_dec (fun j => nth_error tab (at_ h j) = Some None) (seq 0 k0)) as [X|X].
  - intros j. destruct (nth_error tab (at_ h j)) as [[?|]|]; [right; discriminate|left; reflexivity|right; discriminate].
  - apply Exists_exists in X. destruct X as (j & Hj & Ej). apply in_seq in Hj. apply (IH j); [lia|lia|exact Ej].
  - exists k0. split; [exact Hk|]. split; [exact Q|]. intros j Hj.
    pose proof (Nat.mod_upper_bound (h + j) size ltac:(lia)) as B. destruct (nth_error tab (at_ h j)) as [[y|]|] eqn:E.
    + exists y. exact E.
    + exfalso. apply X, Exists_exists. exists j. split; [apply in_seq; lia|exact E].
    + apply nth_error_None in E. lia.
Qed.

Definition hash_of x : nat := N.to_nat (py_hash size m1 m2 (en_dt x) (en_ct x)).
Lemma hash_lt x : 0 < size -> hash_of x < size.
Proof. intros H. unfold hash_of, py_hash. pose proof (N.mod_upper_bound (en_dt x * m1 + en_ct x * m2) (N.of_nat size) ltac:(lia)). lia. Qed.

(** The table holds the entries [L], each at or behind its hash with no empty slot between. *)
Definition holds tab (L : list entry) : Prop :=
  length tab = size /\ count tab = length L /\
  (forall x, In x L -> exists k, k < size /\ nth_error tab (at_ (hash_of x) k) = Some (Some x) /\ forall j, j < k -> filled tab (at_ (hash_of x) j)) /\
  (forall p x, nth_error tab p = Some (Some x) -> In x L).
Lemma holds_empty : holds (repeat None size) [].
Proof.
  split; [apply repeat_length|]. split; [apply count_repeat|]. split; [intros x []|]. intros p x H.
  apply nth_error_In, repeat_spec in H. discriminate H.
Qed.
Lemma holds_insert tab L x n : holds tab L -> length L < size -> size <= n ->
  exists tab', ginsert_at size n (py_hash size m1 m2 (en_dt x) (en_ct x)) x tab = Some tab' /\ holds tab' (L ++ [x]).
Proof.
  intros (H1 & H2 & H3 & H4) Hl Hn. pose proof (hash_lt x ltac:(lia)) as Hh.
  destruct (first_empty tab (hash_of x) H1 Hh ltac:(lia)) as (k & Hk & Ek & Fk).
  pose proof (ginsert_spec tab (hash_of x) x H1 Hh k 0 n ltac:(lia) (fun j Hj => Fk j (proj2 Hj)) Ek) as E.
  rewrite at_0 in E by exact Hh. unfold hash_of at 1 in E. rewrite N2Nat.id in E. cbn [Nat.add] in E. eexists. split; [exact E|].
  set (q := at_ (hash_of x) k) in *. assert (Hq : q < length tab) by (rewrite H1; apply Nat.mod_upper_bound; lia).
  assert (M : forall p, filled tab p -> filled (gset q x tab) p).
  { intros p (y & Ey). destruct (Nat.eq_dec p q) as [->|Np]; [congruence|]. exists y. rewrite gset_other by exact Np. exact Ey. }
  split; [rewrite gset_len; exact H1|]. split; [rewrite gset_count, app_length, H2 by exact Ek; cbn [length]; lia|]. split.
  - intros y Hy. apply in_app_or in Hy. destruct Hy as [Hy|[<-|[]]].
    + destruct (H3 y Hy) as (k' & Hk' & Ek' & Fk'). exists k'. split; [exact Hk'|]. split; [|intros j Hj; apply M, Fk', Hj].
      rewrite gset_other; [exact Ek'|]. intros X. rewrite X in Ek'. congruence.
    + exists k. split; [exact Hk|]. split; [apply gset_same; exact Hq|]. intros j Hj. apply M, Fk, Hj.
  - intros p y Ey. apply in_or_app. destruct (Nat.eq_dec p q) as [->|Np].
    + rewrite gset_same in Ey by exact Hq. inversion Ey; subst. right. left. reflexivity.
    + rewrite gset_other in Ey by exact Np. left. exact (H4 p y Ey).
Qed.
Lemma holds_fill n : size <= n -> forall l tab L, holds tab L -> length L + length l <= size ->
  exists tab', gfill size m1 m2 n l tab = Some tab' /\ holds tab' (L ++ l).
Proof.
  intros Hn. induction l as [|x l IH]; intros tab L H Hl; cbn [length] in Hl.
  - exists tab. rewrite app_nil_r. split; [reflexivity|exact H].
  - destruct (holds_insert tab L x n H ltac:(lia) Hn) as (t & E & Ht). cbn [gfill]. rewrite E.
    destruct (IH t (L ++ [x]) Ht) as (t' & E' & Ht'); [rewrite app_length; cbn [length]; lia|]. exists t'. rewrite <- app_assoc in Ht'. split; assumption.
Qed.
(** A full table: the generator never ends. *)
Lemma insert_full tab h x : length tab = size -> h < size -> (forall p, p < size -> filled tab p) -> forall n k,
  ginsert_at size n (N.of_nat (at_ h k)) x tab = None.
Proof.
  intros HL Hh Hf. induction n as [|n IH]; intros k; cbn [ginsert_at]; destruct (Hf (at_ h k)) as (y & Ey);
    try (apply Nat.mod_upper_bound; lia); rewrite slot_at, Ey; [reflexivity|]. rewrite step_at by lia. apply IH.
Qed.
Lemma fill_too_many : 0 < size -> forall (l : list entry) n, size < length l -> gfill size m1 m2 n l (repeat None size) = None.
Proof.
  intros Hs.
  assert (P : forall n (l : list entry) tab L, holds tab L -> length L <= size -> size < length L + length l -> gfill size m1 m2 n l tab = None).
  { intros n. induction l as [|x l IH]; intros tab L H HL Hl; cbn [length] in Hl; [lia|]. cbn [gfill].
    destruct (Nat.eq_dec (length L) size) as [E|E].
    - destruct H as (H1 & H2 & _). pose proof (hash_lt x Hs) as Hh.
      pose proof (insert_full tab (hash_of x) x H1 Hh ltac:(intros p Hp; apply count_full; lia) n 0) as X.
      rewrite at_0 in X by exact Hh. unfold hash_of in X. rewrite N2Nat.id in X. rewrite X. reflexivity.
    - destruct (ginsert_at _ n _ x tab) as [t|] eqn:Ei; [|reflexivity].
      destruct (holds_insert tab L x (n + size) H ltac:(lia) ltac:(lia)) as (t' & E' & Ht').
      assert (t = t').
      { clear - Ei E'. revert Ei E'. generalize (py_hash size m1 m2 (en_dt x) (en_ct x)). induction n as [|n IHn]; intros i.
        - cbn [ginsert_at]. destruct (gslot tab i) as [[?|]|] eqn:Eg; try discriminate. intros X Y. destruct (0 + size); cbn [ginsert_at] in Y; rewrite Eg in Y; congruence.
        - cbn [ginsert_at Nat.add]. destruct (gslot tab i) as [[?|]|]; try discriminate; [apply IHn|congruence]. }
      subst t'. apply (IH t (L ++ [x]) Ht'); rewrite app_length; cbn [length]; lia. }
  intros l n Hl. apply (P n l _ [] holds_empty); cbn [length]; lia.
Qed.

(** _findTypeClass. *)
Definition has_ids (dt ct : N) x : bool := (en_dt x =? dt)%N && (en_ct x =? ct)%N.
Lemma has_ids_iff dt ct x : has_ids dt ct x = true <-> en_dt x = dt /\ en_ct x = ct.
Proof. unfold has_ids. rewrite andb_true_iff, !N.eqb_eq. reflexivity. Qed.
Lemma gprobe_spec tab h dt ct r : length tab = size -> h < size -> forall d k n, d <= n ->
  (forall j, k <= j < k + d -> exists x, nth_error tab (at_ h j) = Some (Some x) /\ has_ids dt ct x = false) ->
  nth_error tab (at_ h (k + d)) = Some r -> (forall x, r = Some x -> has_ids dt ct x = true) ->
  gprobe size n tab (N.of_nat (at_ h k)) dt ct = Some r.
Proof.
  intros HL Hh. induction d as [|d IH]; intros k n Hn Hf He Hr.
  - rewrite Nat.add_0_r in He. destruct n; cbn [gprobe]; rewrite slot_at, He; destruct r as [x|]; try reflexivity;
      pose proof (Hr x eq_refl) as R; unfold has_ids in R; rewrite R; reflexivity.
  - destruct n as [|n]; [lia|]. cbn [gprobe]. destruct (Hf k ltac:(lia)) as (y & Ey & Ny). rewrite slot_at, Ey. unfold has_ids in Ny. rewrite Ny, step_at by lia.
    replace (k + S d) with (S k + d) in * by lia. apply IH; [lia| |exact He|exact Hr]. intros j Hj. apply Hf. lia.
Qed.
(** The first slot at which the loop stops. *)
Lemma first_stop tab h dt ct k0 : length tab = size -> h < size -> k0 < size ->
  (nth_error tab (at_ h k0) = Some None \/ exists x, nth_error tab (at_ h k0) = Some (Some x) /\ has_ids dt ct x = true) ->
  exists k r, k <= k0 /\ nth_error tab (at_ h k) = Some r /\ (forall x, r = Some x -> has_ids dt ct x = true) /\
    forall j, j < k -> exists x, nth_error tab (at_ h j) = Some (Some x) /\ has_ids dt ct x = false.
Proof.
  intros HL Hh. induction k0 as [k0 IH] using (well_founded_induction lt_wf). intros Hk Q.
  destruct (Exists_dec (fun j => nth_error tab (at_ h j) = Some None \/ exists x, nth_error tab (at_ h j) = Some (Some x) /\ has_ids dt ct x = true) (seq 0 k0)) as [X|X].
  - intros j. destruct (nth_error tab (at_ h j)) as [[x|]|].
    + destruct (has_ids dt ct x) eqn:E; [left; right; exists x; auto|right; intros [Y|(y & Y & Z)]; congruence].
    + left. left. reflexivity.
    + right. intros [Y|(y & Y & _)]; discriminate Y.
  - apply Exists_exists in X. destruct X as (j & Hj & Ej). apply in_seq in Hj. destruct (IH j ltac:(lia) ltac:(lia) Ej) as (k & r & K1 & K2). exists k, r. split; [lia|exact K2].
  - assert (F : forall j, j < k0 -> exists x, nth_error tab (at_ h j) = Some (Some x) /\ has_ids dt ct x = false).
    { intros j Hj. pose proof (Nat.mod_upper_bound (h + j) size ltac:(lia)) as B.
      assert (N1 : ~ (nth_error tab (at_ h j) = Some None \/ exists x, nth_error tab (at_ h j) = Some (Some x) /\ has_ids dt ct x = true))
        by (intros Y; apply X, Exists_exists; exists j; split; [apply in_seq; lia|exact Y]).
      destruct (nth_error tab (at_ h j)) as [[y|]|] eqn:E.
      - exists y. split; [reflexivity|]. destruct (has_ids dt ct y) eqn:Ey; [|reflexivity]. exfalso. apply N1. right. exists y. auto.
      - exfalso. apply N1. left. reflexivity.
      - apply nth_error_None in E. lia. }
    destruct Q as [Q|(x & Q & Qx)].
    + exists k0, None. split; [lia|]. split; [exact Q|]. split; [discriminate|exact F].
    + exists k0, (Some x). split; [lia|]. split; [exact Q|]. split; [|exact F]. intros y Y. inversion Y; subst. exact Qx.
Qed.
Lemma cpp_lt dt ct : 0 < size -> (cpp_hash size m1 m2 dt ct < N.of_nat size)%N.
Proof. intros H. unfold cpp_hash. apply N.mod_upper_bound. lia. Qed.
Lemma hashes_same dt ct : (dt * m1 + ct * m2 < 2^64)%N -> cpp_hash size m1 m2 dt ct = py_hash size m1 m2 dt ct.
Proof.
  intros H. unfold cpp_hash, py_hash. change two64 with (2^64)%N. set (M := (2^64)%N) in *. clearbody M.
  rewrite (N.mod_small (dt * m1) M), (N.mod_small (ct * m2) M) by lia. rewrite (N.mod_small _ M) by lia. reflexivity.
Qed.
Lemma find_spec tab L n dt ct : holds tab L -> length L < size -> size <= n ->
  (forall x, In x L -> (en_dt x * m1 + en_ct x * m2 < 2^64)%N) ->
  (forall x y, In x L -> In y L -> en_dt x = en_dt y -> en_ct x = en_ct y -> x = y) ->
  exists r, gen_find size m1 m2 n tab dt ct = Some r /\ forall x, r = Some x <-> In x L /\ en_dt x = dt /\ en_ct x = ct.
Proof.
  intros (H1 & H2 & H3 & H4) Hl Hn Hw Hu. pose proof (cpp_lt dt ct ltac:(lia)) as Hh.
  set (h := N.to_nat (cpp_hash size m1 m2 dt ct)). assert (Hh' : h < size) by (unfold h; lia).
  destruct (first_empty tab h H1 Hh' ltac:(lia)) as (k0 & Hk0 & Ek0 & _).
  destruct (first_stop tab h dt ct k0 H1 Hh' Hk0 (or_introl Ek0)) as (k & r & Hk & Ek & Rk & Fk). exists r. split.
  - unfold gen_find. rewrite <- (N2Nat.id (cpp_hash size m1 m2 dt ct)). fold h. rewrite <- (at_0 h Hh') at 1.
    apply (gprobe_spec tab h dt ct r H1 Hh' k 0 n); [lia| |exact Ek|exact Rk]. intros j Hj. apply Fk. lia.
  - intros x. split.
    + intros ->. split; [exact (H4 _ _ Ek)|]. apply has_ids_iff. apply Rk. reflexivity.
    + intros (Hx & Ed & Ec). destruct (H3 x Hx) as (k' & Hk' & Ek' & Fk').
      assert (Eh : hash_of x = h) by (unfold hash_of, h; rewrite Ed, Ec, hashes_same; [reflexivity|]; rewrite <- Ed, <- Ec; apply Hw, Hx).
      rewrite Eh in Ek', Fk'. assert (Ix : has_ids dt ct x = true) by (apply has_ids_iff; auto).
      destruct (Nat.lt_total k' k) as [L1|[L1|L1]].
      * destruct (Fk k' L1) as (y & Ey & Ny). rewrite Ek' in Ey. inversion Ey; subst. congruence.
      * subst k'. rewrite Ek in Ek'. inversion Ek'. reflexivity.
      * destruct (Fk' k L1) as (y & Ey). rewrite Ek in Ey. inversion Ey; subst r. f_equal.
        pose proof (Rk y eq_refl) as Iy. apply has_ids_iff in Iy. apply Hu; [exact (H4 _ _ Ek)|exact Hx| |]; destruct Iy; congruence.
Qed.
(** A full table: the lookup of ids that no type has never ends. *)
Lemma find_full tab L dt ct : holds tab L -> length L = size -> 0 < size -> (forall x, In x L -> ~ (en_dt x = dt /\ en_ct x = ct)) ->
  forall n, gen_find size m1 m2 n tab dt ct = None.
Proof.
  intros (H1 & H2 & H3 & H4) Hl Hs Hx n. pose proof (cpp_lt dt ct Hs) as Hh. unfold gen_find.
  set (h := N.to_nat (cpp_hash size m1 m2 dt ct)). assert (Hh' : h < size) by (unfold h; lia).
  rewrite <- (N2Nat.id (cpp_hash size m1 m2 dt ct)). fold h. rewrite <- (at_0 h Hh').
  assert (P : forall n k, gprobe size n tab (N.of_nat (at_ h k)) dt ct = None); [|apply P].
  induction n0 as [|m IH]; intros k; cbn [gprobe]; rewrite slot_at;
    (destruct (count_full tab ltac:(lia) (at_ h k)) as (y & Ey); [rewrite H1; apply Nat.mod_upper_bound; lia|]); rewrite Ey;
    (destruct ((en_dt y =? dt) && (en_ct y =? ct))%N eqn:E; [apply has_ids_iff in E; destruct (Hx y (H4 _ _ Ey) E)|]); [reflexivity|].
  rewrite step_at by lia. apply IH.
Qed.

(** The entries of the generator. *)
Lemma entries_in types (conts : list (N * C)) x : In x (entries types conts) <->
  numbered types (en_dt x) (en_variant x) /\ In (en_ct x, en_container x) conts.
Proof.
  unfold entries. rewrite in_flat_map. split.
  - intros ((d & a) & H1 & H2). apply in_map_iff in H2. destruct H2 as ((c & k) & <- & H2). cbn. rewrite <- enum_in. auto.
  - intros (H1 & H2). apply enum_in in H1. exists (en_dt x, en_variant x). split; [exact H1|]. apply in_map_iff. exists (en_ct x, en_container x). split; [destruct x; reflexivity|exact H2].
Qed.
Lemma entries_len (types : list (list A)) (conts : list (N * C)) : length (entries types conts) = combinations types conts.
Proof.
  unfold entries, combinations, type_enum. rewrite <- (types_len types 0). generalize (number_types 0 types). intros l.
  induction l as [|d l IH]; cbn [flat_map length]; [reflexivity|]. rewrite app_length, map_length, IH. lia.
Qed.
Lemma pair_unique {X} (l : list (N * X)) d (a b : X) : NoDup (map fst l) -> In (d, a) l -> In (d, b) l -> a = b.
Proof.
  induction l as [|[e c] l IH]; cbn [map fst In]; [intros _ []|]. intros Hn [H|H] [H'|H']; inversion Hn; subst.
  - congruence.
  - inversion H; subst. exfalso. apply H2. apply in_map_iff. exists (d, b). auto.
  - inversion H'; subst. exfalso. apply H2. apply in_map_iff. exists (d, a). auto.
  - apply IH; assumption.
Qed.
Lemma entries_unique types (conts : list (N * C)) : numbers_unique types -> NoDup (map fst conts) ->
  forall x y, In x (entries types conts) -> In y (entries types conts) -> en_dt x = en_dt y -> en_ct x = en_ct y -> x = y.
Proof.
  intros Hu Hc x y Hx Hy Ed Ec. apply entries_in in Hx, Hy. destruct Hx as (X1 & X2), Hy as (Y1 & Y2). apply enum_in in X1, Y1.
  rewrite <- Ed in Y1. rewrite <- Ec in Y2. destruct x as [d c a k], y as [d' c' a' k']; cbn in *. subst d' c'.
  f_equal; [exact (pair_unique _ _ _ _ (unique_nodup types Hu) X1 Y1)|exact (pair_unique _ _ _ _ Hc X2 Y2)].
Qed.

Lemma t_lookup (types : list (list A)) (conts : list (N * C)) n : numbers_unique types -> NoDup (map fst conts) -> combinations types conts < size -> size <= n ->
  (forall d a c, numbered types d a -> In c (map fst conts) -> (d * m1 + c * m2 < 2^64)%N) ->
  exists tab, gen_table size m1 m2 n types conts = Some tab /\ forall dt ct, exists r, gen_find size m1 m2 n tab dt ct = Some r /\
    forall x, r = Some x <-> en_dt x = dt /\ en_ct x = ct /\ numbered types dt (en_variant x) /\ In (ct, en_container x) conts.
Proof.
  intros Hu Hc Hs Hn Hw. rewrite <- entries_len in Hs.
  destruct (holds_fill n Hn (entries types conts) (repeat None size) [] holds_empty) as (tab & E & Ht); [cbn [length]; lia|].
  exists tab. split; [exact E|]. intros dt ct. cbn [app] in Ht.
  destruct (find_spec tab _ n dt ct Ht Hs Hn) as (r & Er & Hr).
  - intros x Hx. apply entries_in in Hx. destruct Hx as (H1 & H2). apply (Hw _ _ _ H1). apply in_map_iff. exists (en_ct x, en_container x). auto.
  - apply entries_unique; assumption.
  - exists r. split; [exact Er|]. intros x. rewrite Hr, entries_in. split.
    + intros ((X1 & X2) & <- & <-). auto.
    + intros (<- & <- & X1 & X2). auto.
Qed.
Lemma t_full (types : list (list A)) (conts : list (N * C)) n dt ct : combinations types conts = size -> 0 < size -> size <= n ->
  (forall a k, ~ (numbered types dt a /\ In (ct, k) conts)) ->
  exists tab, gen_table size m1 m2 n types conts = Some tab /\ forall n', gen_find size m1 m2 n' tab dt ct = None.
Proof.
  intros Hs H0 Hn Hx. rewrite <- entries_len in Hs.
  destruct (holds_fill n Hn (entries types conts) (repeat None size) [] holds_empty) as (tab & E & Ht); [cbn [length]; lia|].
  exists tab. split; [exact E|]. apply (find_full tab (entries types conts)); [exact Ht|exact Hs|exact H0|].
  intros x H (<- & <-). apply entries_in in H. exact (Hx _ _ H).
Qed.
Lemma t_too_many (types : list (list A)) (conts : list (N * C)) : size < combinations types conts -> 0 < size -> forall n, gen_table size m1 m2 n types conts = None.
Proof. intros Hs H0 n. rewrite <- entries_len in Hs. apply fill_too_many; assumption. Qed.
End Table.
