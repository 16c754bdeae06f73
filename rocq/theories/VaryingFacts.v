(** * Varying. Proofs. *)
From Verif Require Import Base Bytes BytesFacts Values Types EntityWriter EntityReader Sections ValueEq ValueEqSpec ValueEqFacts DynTypes DynTypesFacts Varying VaryingSpec.
Open Scope N_scope.

Definition rep1 (s : hstate) (E : env) (i : N) : Prop :=
  match hs_vars s i, E i with
  | None, None => True
  | Some v, Some (Empty dt ct) => v = HVary dt ct None
  | Some v, Some (Holds k c) => exists a, v = HVary (dt_id (fst k)) (ct_id (snd k)) (Some a) /\ hs_heap s a = Some (Obj k c)
  | _, _ => False
  end.
Definition owned (s : hstate) (a : addr) : Prop := exists i v, hs_vars s i = Some v /\ h_data v = Some a.
Definition noleak (s : hstate) : Prop := forall a, hs_heap s a <> None -> owned s a.
Record rep (s : hstate) (E : env) : Prop := Rep {
  rp_vars : forall i, rep1 s E i;
  rp_own : forall i j v w a, hs_vars s i = Some v -> hs_vars s j = Some w -> h_data v = Some a -> h_data w = Some a -> i = j;
  rp_next : forall a, hs_heap s a <> None -> a < hs_next s;
  rp_typed : forall i k c, E i = Some (Holds k c) -> typed k c }.

Lemma rep_ext s E E' : (forall i, E' i = E i) -> rep s E -> rep s E'.
Proof.
  intros H [A B C D]. constructor; auto.
  - intros i. unfold rep1 in *. rewrite H. apply A.
  - intros i k c. rewrite H. apply D.
Qed.
Lemma rep_some s E i x : rep s E -> E i = Some x -> exists v, hs_vars s i = Some v.
Proof. intros R H. pose proof (rp_vars _ _ R i) as Q. unfold rep1 in Q. rewrite H in Q. destruct (hs_vars s i); [eauto|contradiction]. Qed.
Lemma rep_holds s E i k c : rep s E -> E i = Some (Holds k c) ->
  exists a, hs_vars s i = Some (HVary (dt_id (fst k)) (ct_id (snd k)) (Some a)) /\ hs_heap s a = Some (Obj k c).
Proof. intros R H. pose proof (rp_vars _ _ R i) as Q. unfold rep1 in Q. rewrite H in Q. destruct (hs_vars s i); [|contradiction]. destruct Q as (a & -> & Q). eauto. Qed.
Lemma rep_empty s E i dt ct : rep s E -> E i = Some (Empty dt ct) -> hs_vars s i = Some (HVary dt ct None).
Proof. intros R H. pose proof (rp_vars _ _ R i) as Q. unfold rep1 in Q. rewrite H in Q. destruct (hs_vars s i); [|contradiction]. congruence. Qed.
Lemma rep_none s E i : rep s E -> E i = None -> hs_vars s i = None.
Proof. intros R H. pose proof (rp_vars _ _ R i) as Q. unfold rep1 in Q. rewrite H in Q. destruct (hs_vars s i); [contradiction|auto]. Qed.

(** A variable gets an Empty content while its old object, if any, is freed (or was not owned). *)
Lemma rep_set_empty s E i dt ct : rep s E -> rep (set_var i (Some (HVary dt ct None)) s) (bind_var i (Some (Empty dt ct)) E).
Proof.
  intros [A B C D]. constructor; cbn.
  - intros j. specialize (A j). unfold rep1, bind_var in *. cbn. destruct (j =? i); auto.
  - intros j j' v w a. destruct (N.eqb_spec j i), (N.eqb_spec j' i); try congruence; intros H1 H2 H3 H4; try (injection H1 as <-; discriminate);
      try (injection H2 as <-; discriminate). eauto.
  - auto.
  - intros j k c. unfold bind_var. destruct (j =? i); [discriminate|eauto].
Qed.
Lemma rep_set_none s E i : rep s E -> rep (set_var i None s) (bind_var i None E).
Proof.
  intros [A B C D]. constructor; cbn.
  - intros j. specialize (A j). unfold rep1, bind_var in *. cbn. destruct (j =? i); auto.
  - intros j j' v w a. destruct (N.eqb_spec j i), (N.eqb_spec j' i); try congruence; eauto.
  - auto.
  - intros j k c. unfold bind_var. destruct (j =? i); [discriminate|eauto].
Qed.
Lemma put_get a o H x : put a o H x = if x =? a then o else H x. Proof. reflexivity. Qed.

(** Changing the value in a cell. *)
Lemma rep_store s E i k c c' a : rep s E -> E i = Some (Holds k c) -> typed k c' ->
  hs_vars s i = Some (HVary (dt_id (fst k)) (ct_id (snd k)) (Some a)) ->
  rep (store (Some a) (Some (Obj k c')) s) (bind_var i (Some (Holds k c')) E) /\ (noleak s -> noleak (store (Some a) (Some (Obj k c')) s)).
Proof.
  intros R Hi T Hv. pose proof R as [A B C D]. destruct (rep_holds _ _ _ _ _ R Hi) as (a' & Hv' & Ha). assert (a' = a) by congruence. subst a'. split.
  - constructor; cbn.
    + intros j. unfold rep1, bind_var. cbn. destruct (N.eqb_spec j i) as [->|Hn].
      * rewrite Hv. exists a. split; auto. rewrite put_get, N.eqb_refl. auto.
      * specialize (A j). unfold rep1 in A. destruct (hs_vars s j) as [w|] eqn:Ew; auto. destruct (E j) as [[dt ct|k2 c2]|]; auto.
        destruct A as (b & -> & Hb). exists b. split; auto. rewrite put_get. destruct (N.eqb_spec b a) as [->|]; auto.
        destruct Hn. eapply B; [exact Ew|exact Hv|reflexivity|reflexivity].
    + auto.
    + intros b. rewrite put_get. destruct (N.eqb_spec b a) as [->|]; auto. intros _. apply C. congruence.
    + intros j k2 c2. unfold bind_var. destruct (j =? i); [|eauto]. intros X. injection X as <- <-. exact T.
  - intros L b. cbn. rewrite put_get. destruct (N.eqb_spec b a) as [->|].
    + intros _. exists i. eexists. split; [exact Hv|reflexivity].
    + intros Hb. apply L; auto.
Qed.

Definition emptied (x : content) : content := match x with Holds _ _ => Empty 0 0 | Empty _ _ => x end.
Lemma deinit_ok s E i x : rep s E -> E i = Some x ->
  exists s1, h_deinit i s = Done (true, s1) /\ rep s1 (bind_var i (Some (emptied x)) E) /\ (noleak s -> noleak s1) /\
    (forall j, j <> i -> hs_vars s1 j = hs_vars s j).
Proof.
  intros R Hi. pose proof R as [A B C D]. destruct x as [dt ct|k c].
  - exists s. unfold h_deinit, var. rewrite (rep_empty _ _ _ _ _ R Hi). cbn. split; auto. split; [|auto].
    eapply rep_ext; [|exact R]. intros j. unfold bind_var. destruct (N.eqb_spec j i); subst; auto.
  - destruct (rep_holds _ _ _ _ _ R Hi) as (a & Hv & Ha). unfold h_deinit, var. rewrite Hv. cbn [bind h_data load]. rewrite Ha. cbn [bind h_ty h_ct].
    unfold dyn_delete, dyn_with. rewrite find_class_id. rewrite (as_class_own (Obj k c)). cbn [bind negb].
    eexists. split; [reflexivity|]. split; [|split].
    + constructor; cbn.
      * intros j. unfold rep1, bind_var. cbn. destruct (N.eqb_spec j i) as [->|Hn]; [reflexivity|].
        specialize (A j). unfold rep1 in A. destruct (hs_vars s j) as [w|] eqn:Ew; auto. destruct (E j) as [[dt ct|k2 c2]|]; auto.
        destruct A as (b & -> & Hb). exists b. split; auto. rewrite put_get. destruct (N.eqb_spec b a) as [->|]; auto.
        destruct Hn. eapply B; [exact Ew|exact Hv|reflexivity|reflexivity].
      * intros j j' v w b. destruct (N.eqb_spec j i), (N.eqb_spec j' i); try congruence; intros H1 H2 H3 H4;
          try (injection H1 as <-; discriminate); try (injection H2 as <-; discriminate). eauto.
      * intros b. rewrite put_get. destruct (N.eqb_spec b a); [congruence|auto].
      * intros j k2 c2. unfold bind_var. destruct (j =? i); [discriminate|eauto].
    + intros L b. cbn. rewrite put_get. destruct (N.eqb_spec b a) as [->|Hn]; [congruence|]. intros Hb.
      destruct (L b Hb) as (j & w & Hw & Hd). exists j, w. cbn. destruct (N.eqb_spec j i) as [->|]; [|auto].
      rewrite Hv in Hw. injection Hw as <-. cbn in Hd. congruence.
    + intros j Hn. cbn. destruct (N.eqb_spec j i); [contradiction|reflexivity].
Qed.

Lemma class_ids_iff k dt ct : class_ids k = (dt, ct) <-> ids_are dt ct k.
Proof. unfold class_ids, ids_are. split; [intros H; injection H; auto|intros [<- <-]; auto]. Qed.
Lemma default_typed k : typed k (cval_default (fst k) (snd k)).
Proof.
  destruct k as [t c]. unfold typed. cbn [fst snd].
  assert (V : val_ok t (val_default (dshape t))).
  { unfold val_ok. destruct (dshape t); cbn [shape_ok val_default]; auto; try reflexivity. apply len_rep. }
  destruct c; cbn; repeat split; auto; try constructor.
Qed.

Definition init_content (dt ct : N) : content := match find_class dt ct with Some k => fresh_of k | None => Empty dt ct end.
Lemma set_type_ok s E i x dt ct : rep s E -> E i = Some x ->
  exists s1, h_set_type i dt ct s = Done (match find_class dt ct with Some _ => true | None => false end, s1) /\
    rep s1 (bind_var i (Some (init_content dt ct)) E) /\ (noleak s -> noleak s1) /\ (forall j, j <> i -> hs_vars s1 j = hs_vars s j).
Proof.
  intros R Hi. destruct (deinit_ok s E i x R Hi) as (s1 & E1 & R1 & L1 & V1). unfold h_set_type. rewrite E1. cbn [bind negb].
  assert (Hi1 : bind_var i (Some (emptied x)) E i = Some (emptied x)) by (unfold bind_var; rewrite N.eqb_refl; auto).
  assert (Hd : forall j v, hs_vars s1 i = Some v -> h_data v <> Some j).
  { intros j v Hv. destruct x as [d c|k c]; cbn [emptied] in *; rewrite (rep_empty _ _ _ _ _ R1 Hi1) in Hv; injection Hv as <-; discriminate. }
  unfold dyn_new, init_content. destruct (find_class dt ct) as [k|] eqn:F.
  - apply find_class_iff, class_ids_iff in F. destruct F as [<- <-]. set (a := hs_next s1).
    eexists. split; [reflexivity|]. pose proof R1 as [A B C D].
    assert (Fr : hs_heap s1 a = None). { destruct (hs_heap s1 a) eqn:X; auto. assert (a < hs_next s1) by (apply C; congruence). unfold a in *. lia. }
    split; [|split].
    + constructor; cbn.
      * intros j. unfold rep1, bind_var, fresh_of. cbn. destruct (N.eqb_spec j i) as [->|Hn].
        { exists a. split; auto. rewrite put_get, N.eqb_refl. reflexivity. }
        specialize (A j). unfold rep1, bind_var in A. destruct (N.eqb_spec j i); [contradiction|].
        destruct (hs_vars s1 j) as [w|] eqn:Ew; auto. destruct (E j) as [[dt ct|k2 c2]|]; auto.
        destruct A as (b & -> & Hb). exists b. split; auto. rewrite put_get. destruct (N.eqb_spec b a) as [->|]; auto. congruence.
      * intros j j' v w b. assert (Z : forall j v, hs_vars s1 j = Some v -> h_data v <> Some a).
        { intros y u Hu Hd'. specialize (A y). unfold rep1 in A. rewrite Hu in A. destruct (bind_var i (Some (emptied x)) E y) as [[dt ct|k2 c2]|]; try contradiction.
          - subst u. discriminate.
          - destruct A as (b' & -> & Hb). cbn in Hd'. congruence. }
        destruct (N.eqb_spec j i), (N.eqb_spec j' i); try congruence; intros H1 H2 H3 H4.
        -- injection H1 as <-. cbn in H3. injection H3 as <-. destruct (Z _ _ H2 H4).
        -- injection H2 as <-. cbn in H4. injection H4 as <-. destruct (Z _ _ H1 H3).
        -- eauto.
      * intros b. rewrite put_get. destruct (N.eqb_spec b a) as [->|]; [lia|]. intros Hb. specialize (C b Hb). unfold a in *. lia.
      * intros j k2 c2. unfold bind_var, fresh_of. destruct (N.eqb_spec j i) as [->|Hn].
        -- intros X. injection X as <- <-. apply default_typed.
        -- intros X. specialize (D j k2 c2). unfold bind_var in D. destruct (N.eqb_spec j i); [contradiction|auto].
    + intros L b. cbn. rewrite put_get. destruct (N.eqb_spec b a) as [->|Hn].
      * intros _. exists i. eexists. cbn. rewrite N.eqb_refl. split; reflexivity.
      * intros Hb. destruct (L1 L b Hb) as (j & w & Hw & Hdw). exists j, w. cbn. destruct (N.eqb_spec j i) as [->|]; [|auto].
        destruct (Hd _ _ Hw Hdw).
    + intros j Hn. cbn. destruct (N.eqb_spec j i); [contradiction|auto].
  - eexists. split; [reflexivity|]. split; [|split].
    + eapply rep_ext; [|apply rep_set_empty; exact R1]. intros j. unfold bind_var. destruct (j =? i); auto.
    + intros L b Hb. cbn in Hb. destruct (L1 L b Hb) as (j & w & Hw & Hdw). exists j, w. cbn. destruct (N.eqb_spec j i) as [->|]; [|auto].
      destruct (Hd _ _ Hw Hdw).
    + intros j Hn. cbn. destruct (N.eqb_spec j i); [contradiction|auto].
Qed.

Definition assigned (i j : N) (x y : content) : content :=
  match x, y with
  | Holds _ _, Holds _ _ => if i =? j then Empty 0 0 else y
  | Holds _ _, Empty _ _ => Empty 0 0
  | Empty _ _, Holds _ _ => y
  | Empty _ _, Empty _ _ => x
  end.
Lemma bind_same i x E : bind_var i x E i = x.
Proof. unfold bind_var. rewrite N.eqb_refl. auto. Qed.
Lemma bind_other i x E j : j <> i -> bind_var i x E j = E j.
Proof. unfold bind_var. intros. destruct (N.eqb_spec j i); [contradiction|auto]. Qed.
Lemma bind_bind i x y E j : bind_var i x (bind_var i y E) j = bind_var i x E j.
Proof. unfold bind_var. destruct (j =? i); auto. Qed.
Lemma bind_id i x E j : E i = x -> bind_var i x E j = E j.
Proof. unfold bind_var. destruct (N.eqb_spec j i); subst; auto. Qed.

Lemma copy_ok s E i j x y : rep s E -> E i = Some x -> E j = Some y ->
  exists s1, h_copy i j s = Done s1 /\ rep s1 (bind_var i (Some (assigned i j x y)) E) /\ (noleak s -> noleak s1).
Proof.
  intros R Hi Hj. destruct (deinit_ok s E i x R Hi) as (s1 & E1 & R1 & L1 & V1). unfold h_copy. rewrite E1. cbn [bind negb].
  set (E1' := bind_var i (Some (emptied x)) E) in *.
  assert (Hi1 : E1' i = Some (emptied x)) by apply bind_same.
  destruct (N.eqb_spec i j) as [<-|Hn].
  - assert (y = x) by congruence. subst y.
    assert (Q : exists dt ct, emptied x = Empty dt ct) by (destruct x; cbn; eauto). destruct Q as (dt & ct & Q). rewrite Q in *.
    unfold var. rewrite (rep_empty _ _ _ _ _ R1 Hi1). cbn [bind h_data]. exists s1. split; [reflexivity|]. split; [|exact L1].
    replace (assigned i i x x) with (emptied x); [exact R1|]. destruct x; cbn [assigned emptied]; rewrite ?N.eqb_refl; reflexivity.
  - assert (Hj1 : E1' j = Some y) by (unfold E1'; rewrite bind_other; auto). destruct y as [dt ct|k c].
    + unfold var. rewrite (rep_empty _ _ _ _ _ R1 Hj1). cbn [bind h_data]. exists s1. split; [reflexivity|]. split; [|exact L1].
      replace (assigned i j x (Empty dt ct)) with (emptied x); [exact R1|]. unfold assigned. destruct x; auto.
    + destruct (rep_holds _ _ _ _ _ R1 Hj1) as (a & Hv & Ha). unfold var at 1. rewrite Hv. cbn [bind h_data h_ty h_ct].
      destruct (set_type_ok s1 E1' i _ (dt_id (fst k)) (ct_id (snd k)) R1 Hi1) as (s2 & E2 & R2 & L2 & V2).
      rewrite E2. cbn [bind]. unfold init_content in R2. rewrite find_class_id in *. cbn [negb].
      set (E2' := bind_var i (Some (fresh_of k)) E1') in *.
      assert (Hi2 : E2' i = Some (fresh_of k)) by apply bind_same.
      assert (Hj2 : E2' j = Some (Holds k c)) by (unfold E2'; rewrite bind_other; auto).
      destruct (rep_holds _ _ _ _ _ R2 Hi2) as (b & Hw & Hb). destruct (rep_holds _ _ _ _ _ R2 Hj2) as (a2 & Hv2 & Ha2).
      unfold var. rewrite Hw, Hv2. cbn [bind h_data load h_ty h_ct]. rewrite Hb, Ha2. cbn [bind].
      unfold dyn_copy, dyn_with. rewrite find_class_id. rewrite (as_class_own (Obj k _)). rewrite (as_class_own (Obj k c)). cbn [bind negb o_val].
      destruct (rep_store s2 E2' i k _ c b R2 Hi2 (rp_typed _ _ R _ _ _ Hj) Hw) as [R3 L3].
      eexists. split; [reflexivity|]. split; [|auto].
      eapply rep_ext; [|exact R3]. intros q. unfold E2', E1'. rewrite !bind_bind. unfold assigned. destruct x as [|]; auto.
      destruct (N.eqb_spec i j); [contradiction|reflexivity].
Qed.

Lemma move_ok s E i j y : rep s E -> E j = Some y ->
  exists s1, h_move i j s = Done s1 /\ rep s1 (bind_var j (Some (Empty 0 0)) (bind_var i (Some y) E)) /\
    (noleak s -> (forall v, hs_vars s i = Some v -> h_data v = None) -> noleak s1).
Proof.
  intros R Hj. pose proof R as [A B C D]. destruct (rep_some _ _ _ _ R Hj) as (w & Hw). unfold h_move, var. rewrite Hw. cbn [bind].
  eexists. split; [reflexivity|]. split.
  - constructor; cbn.
    + intros q. unfold rep1, bind_var. cbn. destruct (N.eqb_spec q j) as [->|Hnj]; [reflexivity|].
      destruct (N.eqb_spec q i) as [->|Hni]; [|apply A]. specialize (A j). unfold rep1 in A. rewrite Hw, Hj in A. exact A.
    + intros p q v u a. destruct (N.eqb_spec p j), (N.eqb_spec q j); try congruence; intros H1 H2 H3 H4;
        try (injection H1 as <-; discriminate); try (injection H2 as <-; discriminate).
      destruct (N.eqb_spec p i), (N.eqb_spec q i); try congruence.
      * injection H1 as <-. subst p. destruct n0. symmetry. eapply (B j q); eauto.
      * injection H2 as <-. subst q. destruct n. symmetry. eapply (B j p); eauto.
      * eauto.
    + auto.
    + intros q k c. unfold bind_var. destruct (q =? j); [discriminate|]. destruct (q =? i); [|eauto]. intros X. injection X as ->. eauto.
  - intros L Z a Ha. cbn in Ha. destruct (L a Ha) as (q & v & Hv & Hd). destruct (N.eq_dec q j) as [->|Hnj].
    + exists i, w. cbn. assert (v = w) by congruence. subst v. destruct (N.eqb_spec i j) as [->|]; [|rewrite N.eqb_refl; auto].
      rewrite (Z w Hw) in Hd. discriminate.
    + exists q, v. cbn. destruct (N.eqb_spec q j); [contradiction|]. destruct (N.eqb_spec q i) as [->|]; [|auto].
      rewrite (Z v Hv) in Hd. discriminate.
Qed.

Lemma clear_is_default t v : clear_combined t v = cval_default t (cval_ctype v).
Proof. destruct v; reflexivity. Qed.

Definition no_move_assign (o : vop) : Prop := match o with VMoveAssign _ _ => False | _ => True end.
Lemma step_ok s E live o : rep s E -> (forall i, live i = match E i with Some _ => true | None => false end) -> v_legal live o ->
  exists x s' E', v_step o s = Done (x, s') /\ v_spec o E x E' /\ rep s' E' /\
    (forall i, v_lives live o i = match E' i with Some _ => true | None => false end) /\ (no_move_assign o -> noleak s -> noleak s').
Proof.
  intros R HL. pose proof R as [A B C D].
  assert (LV : forall i, live i = true -> exists x, E i = Some x). { intros i. rewrite HL. destruct (E i); [eauto|discriminate]. }
  assert (DD : forall i, live i = false -> E i = None). { intros i. rewrite HL. destruct (E i); [discriminate|auto]. }
  assert (NE : forall i x, E i = None -> bind_var i None (bind_var i x E) i = E i) by (intros; rewrite bind_same; auto).
  assert (LE : forall i x j, live i = true -> live j = match bind_var i (Some x) E j with Some _ => true | None => false end).
  { intros i x j H. unfold bind_var. destruct (N.eqb_spec j i); subst; auto. }
  assert (LN : forall i x j, (if j =? i then true else live j) = match bind_var i (Some x) E j with Some _ => true | None => false end).
  { intros i x j. unfold bind_var. destruct (N.eqb_spec j i); subst; auto. }
  destruct o; cbn [v_legal v_step v_spec v_lives no_move_assign]; intros Hl.
  - (* VDefault *) pose proof (rep_none _ _ _ R (DD _ Hl)) as Hv. rewrite Hv. eexists OUnit, _, _. split; [reflexivity|]. split; [auto|].
    split; [apply rep_set_empty; auto|]. split; [intros; apply LN|].
    intros _ L a Ha. cbn in Ha. destruct (L a Ha) as (j & v & H1 & H2). exists j, v. cbn. destruct (N.eqb_spec j i); [congruence|auto].
  - (* VCopyCtor *) destruct Hl as [Hl Hl2]. pose proof (rep_none _ _ _ R (DD _ Hl)) as Hv. rewrite Hv. destruct (LV _ Hl2) as (y & Hy).
    assert (Hn : j <> i) by (intros ->; rewrite (DD _ Hl) in Hy; discriminate).
    pose proof (rep_set_empty s E i 0 0 R) as R1.
    destruct (copy_ok _ _ i j (Empty 0 0) y R1) as (s2 & E2 & R2 & L2); [apply bind_same|rewrite bind_other; auto|].
    rewrite E2. cbn [bind]. eexists OUnit, s2, _. split; [reflexivity|]. split; [split; [auto|]; exists y; split; [auto|reflexivity]|].
    split; [|split; [intros; apply LN|]].
    + eapply rep_ext; [|exact R2]. intros q. rewrite bind_bind. unfold assigned. destruct y; auto.
    + intros _ L. apply L2. intros a Ha. cbn in Ha. destruct (L a Ha) as (q & v & H1 & H2). exists q, v. cbn. destruct (N.eqb_spec q i); [congruence|auto].
  - (* VMoveCtor *) destruct Hl as [Hl Hl2]. pose proof (rep_none _ _ _ R (DD _ Hl)) as Hv. rewrite Hv. destruct (LV _ Hl2) as (y & Hy).
    destruct (move_ok s E i j y R Hy) as (s1 & E1 & R1 & L1). rewrite E1. cbn [bind]. eexists OUnit, s1, _. split; [reflexivity|].
    split; [split; [auto|]; exists y; split; [auto|reflexivity]|]. split; [exact R1|]. split.
    + intros q. unfold bind_var. destruct (N.eqb_spec q j) as [->|]; [destruct (j =? i); auto|]. destruct (q =? i); auto.
    + intros _ L. apply L1; auto. intros v X. congruence.
  - (* VAssign *) destruct Hl as [Hl Hl2]. destruct (LV _ Hl) as (x & Hx), (LV _ Hl2) as (y & Hy).
    destruct (copy_ok s E i j x y R Hx Hy) as (s1 & E1 & R1 & L1). rewrite E1. cbn [bind]. eexists OUnit, s1, _. split; [reflexivity|].
    split; [split; [auto|]; exists x, y; split; [auto|]; split; [auto|reflexivity]|]. split; [exact R1|]. split; [intros; apply LE; auto|auto].
  - (* VMoveAssign *) destruct Hl as [Hl Hl2]. destruct (LV _ Hl) as (x & Hx), (LV _ Hl2) as (y & Hy).
    destruct (rep_some _ _ _ _ R Hx) as (v & Hv). unfold var. rewrite Hv. cbn [bind].
    destruct (move_ok s E i j y R Hy) as (s1 & E1 & R1 & L1). rewrite E1. cbn [bind]. eexists OUnit, s1, _. split; [reflexivity|].
    split; [split; [auto|]; exists y; split; [auto|reflexivity]|]. split; [exact R1|]. split; [|tauto].
    intros q. unfold bind_var. destruct (N.eqb_spec q j) as [->|]; [auto|]. destruct (N.eqb_spec q i) as [->|]; auto.
  - (* VDestroy *) destruct (LV _ Hl) as (x & Hx). destruct (deinit_ok s E i x R Hx) as (s1 & E1 & R1 & L1 & V1). rewrite E1. cbn [bind snd].
    eexists OUnit, _, _. split; [reflexivity|]. split; [auto|]. split; [|split].
    + eapply rep_ext; [|apply rep_set_none; exact R1]. intros q. rewrite bind_bind. auto.
    + intros q. unfold bind_var. destruct (q =? i); auto.
    + intros _ L a Ha. cbn in Ha. destruct (L1 L a Ha) as (q & v & H1 & H2). exists q, v. cbn. destruct (N.eqb_spec q i) as [->|]; [|auto].
      assert (Hi1 := bind_same i (Some (emptied x)) E). exfalso. destruct x as [d c|k c]; cbn [emptied] in *; rewrite (rep_empty _ _ _ _ _ R1 Hi1) in H1; injection H1 as <-; discriminate.
  - (* VInit *) destruct (LV _ Hl) as (x & Hx). destruct (set_type_ok s E i x dt ct R Hx) as (s1 & E1 & R1 & L1 & V1). rewrite E1. cbn [bind fst snd].
    eexists _, s1, _. split; [reflexivity|]. split; [|split; [exact R1|split; [intros; apply LE; auto|auto]]].
    unfold init_content. destruct (find_class dt ct) as [k|] eqn:F.
    + left. exists k. apply find_class_iff, class_ids_iff in F. auto.
    + right. split; [|auto]. intros k Hk. apply class_ids_iff, find_class_iff in Hk. congruence.
  - (* VInitT *) destruct (LV _ Hl) as (x & Hx). destruct (set_type_ok s E i x (dt_id (fst k)) (ct_id (snd k)) R Hx) as (s1 & E1 & R1 & L1 & V1). rewrite E1. cbn [bind fst snd].
    unfold init_content in R1. rewrite find_class_id in *. eexists _, s1, _. split; [reflexivity|]. split; [auto|]. split; [exact R1|].
    split; [intros; apply LE; auto|auto].
  - (* VSet *) destruct Hl as [Hl T]. destruct (LV _ Hl) as ([dt ct|k' c'] & Hx).
    + unfold h_data_ref, var. rewrite (rep_empty _ _ _ _ _ R Hx). cbn [bind h_data]. exists OThrow, s, E. split; auto. split; [|split; auto].
      right. split; [congruence|auto].
    + destruct (rep_holds _ _ _ _ _ R Hx) as (a & Hv & Ha). unfold h_data_ref, var. rewrite Hv. cbn [bind h_data].
      unfold h_is_a. cbn [h_ty h_ct]. destruct ((dt_id (fst k') =? dt_id (fst k)) && (ct_id (snd k') =? ct_id (snd k))) eqn:Ek.
      * assert (k' = k). { apply ids_inj. apply andb_true_iff in Ek. destruct Ek as [E1 E2]. apply N.eqb_eq in E1, E2. unfold class_ids. congruence. }
        subst k'. unfold assign_ref, deref. cbn [load]. rewrite Ha. cbn [bind]. rewrite (as_class_own (Obj k c')). cbn [bind].
        destruct (rep_store s E i k c' c a R Hx T Hv) as [R1 L1]. eexists OUnit, _, _. split; [reflexivity|].
        split; [left; split; [eauto|split; [auto|reflexivity]]|]. split; [exact R1|]. split; [intros; apply LE; auto|auto].
      * exists OThrow, s, E. split; auto. split; [|split; auto]. right. split; [|auto]. intros c0 X. rewrite Hx in X. injection X as -> ->.
        rewrite !N.eqb_refl in Ek. discriminate.
  - (* VGet *) destruct (LV _ Hl) as ([dt ct|k' c'] & Hx).
    + unfold h_data_ref, var. rewrite (rep_empty _ _ _ _ _ R Hx). cbn [bind h_data]. exists OThrow, s, E. split; auto. split; [|split; auto].
      split; auto. right. split; [congruence|auto].
    + destruct (rep_holds _ _ _ _ _ R Hx) as (a & Hv & Ha). unfold h_data_ref, var. rewrite Hv. cbn [bind h_data].
      unfold h_is_a. cbn [h_ty h_ct]. destruct ((dt_id (fst k') =? dt_id (fst k)) && (ct_id (snd k') =? ct_id (snd k))) eqn:Ek.
      * assert (k' = k). { apply ids_inj. apply andb_true_iff in Ek. destruct Ek as [E1 E2]. apply N.eqb_eq in E1, E2. unfold class_ids. congruence. }
        subst k'. unfold deref. cbn [load]. rewrite Ha. cbn [bind]. rewrite (as_class_own (Obj k c')). cbn [bind o_val].
        eexists _, s, E. split; [reflexivity|]. split; [split; [auto|left; eauto]|]. auto.
      * exists OThrow, s, E. split; auto. split; [|split; auto]. split; auto. right. split; [|auto]. intros c0 X. rewrite Hx in X. injection X as -> ->.
        rewrite !N.eqb_refl in Ek. discriminate.
  - (* VClear *) destruct (LV _ Hl) as ([dt ct|k c] & Hx).
    + unfold h_clear, var. rewrite (rep_empty _ _ _ _ _ R Hx). cbn [bind h_data]. exists OUnit, s, (bind_var i (Some (Empty dt ct)) E).
      split; [reflexivity|]. split; [split; [auto|exists (Empty dt ct); auto]|]. split; [|split; [intros; apply LE; auto|auto]].
      eapply rep_ext; [|exact R]. intros q. apply bind_id; auto.
    + destruct (rep_holds _ _ _ _ _ R Hx) as (a & Hv & Ha). unfold h_clear, var. rewrite Hv. cbn [bind h_data load]. rewrite Ha. cbn [bind h_ty h_ct].
      unfold dyn_clear, dyn_with. rewrite find_class_id, (as_class_own (Obj k c)). cbn [bind o_val].
      assert (Q : clear_combined (fst k) c = cval_default (fst k) (snd k)).
      { rewrite clear_is_default. f_equal. apply (rp_typed _ _ R _ _ _ Hx). }
      rewrite Q. destruct (rep_store s E i k c _ a R Hx (default_typed k) Hv) as [R1 L1]. eexists OUnit, _, _. split; [reflexivity|].
      split; [split; [auto|exists (Holds k c); split; [auto|reflexivity]]|]. split; [exact R1|]. split; [intros; apply LE; auto|auto].
  - (* VEquals *) destruct Hl as [Hl Hl2]. destruct (LV _ Hl) as (x & Hx), (LV _ Hl2) as (y & Hy).
    destruct (rep_some _ _ _ _ R Hx) as (v & Hv), (rep_some _ _ _ _ R Hy) as (w & Hw).
    assert (Q : exists b, h_equals i j s = Done b /\ (b = true <-> i = j \/ same_content x y)).
    { unfold h_equals, var. rewrite Hv, Hw. cbn [bind]. destruct (N.eqb_spec i j) as [->|Hn]; [exists true; split; [auto|tauto]|].
      assert (F : forall b, ~ same_content x y -> b = false -> (b = true <-> i = j \/ same_content x y)) by (intros; subst; split; [discriminate|tauto]).
      destruct (N.eqb_spec (h_ty v) (h_ty w)) as [Et|Et]; cbn [negb].
      2:{ exists false. split; auto. apply F; auto. intros Z. destruct x as [|k c], y as [|k' c']; try contradiction. destruct Z as [<- _].
          destruct (rep_holds _ _ _ _ _ R Hx) as (a & Hv2 & _), (rep_holds _ _ _ _ _ R Hy) as (a' & Hw2 & _). rewrite Hv in Hv2. rewrite Hw in Hw2.
          injection Hv2 as ->. injection Hw2 as ->. apply Et. reflexivity. }
      destruct (N.eqb_spec (h_ct v) (h_ct w)) as [Ec|Ec]; cbn [negb].
      2:{ exists false. split; auto. apply F; auto. intros Z. destruct x as [|k c], y as [|k' c']; try contradiction. destruct Z as [<- _].
          destruct (rep_holds _ _ _ _ _ R Hx) as (a & Hv2 & _), (rep_holds _ _ _ _ _ R Hy) as (a' & Hw2 & _). rewrite Hv in Hv2. rewrite Hw in Hw2.
          injection Hv2 as ->. injection Hw2 as ->. apply Ec. reflexivity. }
      destruct x as [dt ct|k c].
      { rewrite (rep_empty _ _ _ _ _ R Hx) in Hv. injection Hv as <-. cbn [h_data load bind]. 
        assert (Z : exists o, load (h_data w) s = Done o).
        { destruct y as [|k' c']; [rewrite (rep_empty _ _ _ _ _ R Hy) in Hw; injection Hw as <-; cbn; eauto|].
          destruct (rep_holds _ _ _ _ _ R Hy) as (a & Hw2 & Ha). rewrite Hw in Hw2. injection Hw2 as ->. cbn. rewrite Ha. eauto. }
        destruct Z as (o & ->). cbn [bind]. unfold dyn_equals. destruct o; cbn [dyn_with]; (exists false; split; [auto|apply F; auto]). }
      destruct (rep_holds _ _ _ _ _ R Hx) as (a & Hv2 & Ha). rewrite Hv in Hv2. injection Hv2 as ->. cbn [h_data load bind] in *. rewrite Ha. cbn [bind].
      destruct y as [dt ct|k' c'].
      { rewrite (rep_empty _ _ _ _ _ R Hy) in Hw. injection Hw as <-. cbn [h_data load bind]. exists false. split; [auto|apply F; auto]. }
      destruct (rep_holds _ _ _ _ _ R Hy) as (a' & Hw2 & Ha'). rewrite Hw in Hw2. injection Hw2 as ->. cbn [h_data load bind h_ty h_ct] in *. rewrite Ha'. cbn [bind].
      assert (k' = k) by (apply ids_inj; unfold class_ids; congruence). subst k'.
      unfold dyn_equals, dyn_with. rewrite find_class_id, (as_class_own (Obj k c)), (as_class_own (Obj k c')). cbn [o_val].
      eexists. split; [reflexivity|]. rewrite cval_eq_iff; [|apply (D _ _ _ Hx)|apply (D _ _ _ Hy)]. cbn [same_content]. tauto. }
    destruct Q as (b & Eb & Hb). rewrite Eb. cbn [bind]. exists (OBool b), s, E. split; auto. split; [split; [auto|]; exists x, y, b; auto|]. auto.
  - (* VIsInit *) destruct (LV _ Hl) as (x & Hx). destruct (rep_some _ _ _ _ R Hx) as (v & Hv). unfold var. rewrite Hv. cbn [bind].
    eexists _, s, E. split; [reflexivity|]. split; [split; [auto|]; exists x; split; [auto|]|auto].
    destruct x as [dt ct|k c]; [rewrite (rep_empty _ _ _ _ _ R Hx) in Hv; injection Hv as <-; auto|].
    destruct (rep_holds _ _ _ _ _ R Hx) as (a & Hv2 & _). rewrite Hv in Hv2. injection Hv2 as ->. auto.
  - (* VIsA *) destruct (LV _ Hl) as (x & Hx). destruct (rep_some _ _ _ _ R Hx) as (v & Hv). unfold var. rewrite Hv. cbn [bind].
    eexists _, s, E. split; [reflexivity|]. split; [split; [auto|]; exists x; eexists; split; [auto|]; split; [reflexivity|]|auto].
    unfold h_is_a. rewrite andb_true_iff, !N.eqb_eq. destruct x as [dt ct|k' c].
    + rewrite (rep_empty _ _ _ _ _ R Hx) in Hv. injection Hv as <-. unfold ids_are. cbn. intuition.
    + destruct (rep_holds _ _ _ _ _ R Hx) as (a & Hv2 & _). rewrite Hv in Hv2. injection Hv2 as ->. cbn. split; [|intros ->; auto].
      intros [H1 H2]. apply ids_inj. unfold class_ids. congruence.
  - (* VType *) destruct (LV _ Hl) as (x & Hx). destruct (rep_some _ _ _ _ R Hx) as (v & Hv). unfold var. rewrite Hv. cbn [bind].
    eexists _, s, E. split; [reflexivity|]. split; [split; [auto|]; exists x; split; [auto|]|auto].
    destruct x as [dt ct|k' c].
    + rewrite (rep_empty _ _ _ _ _ R Hx) in Hv. injection Hv as <-. auto.
    + destruct (rep_holds _ _ _ _ _ R Hx) as (a & Hv2 & _). rewrite Hv in Hv2. injection Hv2 as ->. auto.
Qed.

Lemma run_ok l : forall s E live, rep s E -> (forall i, live i = match E i with Some _ => true | None => false end) -> v_legal_run live l ->
  exists xs s' E', v_run l s = Done (xs, s') /\ v_specs l E xs E' /\ rep s' E' /\ (Forall no_move_assign l -> noleak s -> noleak s').
Proof.
  induction l as [|o l IH]; intros s E live R HL Hl.
  - exists [], s, E. cbn. auto.
  - destruct Hl as [Ho Hl]. destruct (step_ok s E live o R HL Ho) as (x & s1 & E1 & H1 & H2 & H3 & H4 & H5).
    destruct (IH s1 E1 _ H3 H4 Hl) as (xs & s' & E' & Q1 & Q2 & Q3 & Q4).
    exists (x :: xs), s', E'. cbn [v_run v_specs]. rewrite H1. cbn [bind]. rewrite Q1. cbn [bind]. split; auto. split; [eauto|].
    split; auto. intros F L. inversion F; subst. auto.
Qed.
Lemma rep_start : rep v_start (fun _ => None).
Proof. constructor; cbn; try discriminate; try congruence. intros i. exact I. Qed.

Lemma t_varying_run l : v_legal_run (fun _ => false) l ->
  exists xs s E, v_run l v_start = Done (xs, s) /\ v_specs l (fun _ => None) xs E /\
    (Forall no_move_assign l -> forall a, hs_heap s a <> None -> exists i v, hs_vars s i = Some v /\ h_data v = Some a).
Proof.
  intros H. destruct (run_ok l v_start (fun _ => None) (fun _ => false) rep_start (fun _ => eq_refl) H) as (xs & s & E & Q1 & Q2 & Q3 & Q4).
  exists xs, s, E. split; auto. split; auto. intros F. apply Q4; auto. intros a Ha. cbn in Ha. congruence.
Qed.
