(** * TestValues: proofs. *)
From Verif Require Import Base Bytes BytesFacts Values Types Format Keys Containers OptionalValueFacts ValueEq ValueEqSpec ValueEqFacts
  Streams StreamFacts EntityWriter EntityReader Items ItemSpec EntityProps Sections SectionFacts SectionReadFacts SectionTheorems
  DocSpec CodecFacts TestValues TestValuesSpec.
Open Scope N_scope.

Lemma test_key_len d : len (test_key d) <= 40.
Proof.
  unfold test_key. generalize (N.to_nat (d_rand d mod 10)). intros n.
  do 10 (destruct n as [|n]; [vm_compute; discriminate|]). destruct n; vm_compute; discriminate.
Qed.

Lemma wstep t key v st f c fl lim : item_ok (Item t key v) -> wready 0 [] f st -> ws_at (w_stream st) c fl lim ->
  2 * (len c + len (encode fl t key v)) <= lim ->
  exists st', w_write 0 t key v st = Done (true, st') /\ wready 0 [] f st' /\ ws_at (w_stream st') (c ++ encode fl t key v) fl lim.
Proof.
  intros I R H L. destruct (writes_item t key v I 0 [] f st c fl lim R H L) as (st' & E & (P1 & P2 & P3)).
  exists st'. split; auto. split; auto. eapply wready_keep; eauto.
Qed.
Lemma rstep e t key v dest check st f pre post fl :
  item_ok (Item t key v) -> cval_ctype dest = cval_ctype v -> cval_ok t dest -> replaced t dest ->
  rready 0 [] f st -> r_stream st = rs_at pre (encode fl t key v ++ post) fl -> 4 * len (encode fl t key v) <= e_lim e ->
  len pre + len (encode fl t key v) + len post < two64 ->
  exists st', (forall rest, read_check e t key dest check st rest = (if check v then rest st' else Done false)) /\ rready 0 [] f st' /\
    r_stream st' = rs_at (pre ++ encode fl t key v) post fl.
Proof.
  intros I C D P R H L1 L2. destruct (reads_item t key v dest I C D P e 0 [] f st pre post fl R H L1 L2) as (st' & E & (P1 & P2 & P3)).
  exists st'. split; [intros rest; unfold read_check; rewrite E; reflexivity|]. split; auto. eapply rready_keep; eauto.
Qed.

Lemma vec_eq_self t x : Forall (val_ok t) x -> (vec_eq (val_eq t) x x = true <-> Forall (clean t) x).
Proof.
  intros H. rewrite (vec_same t x x H H), Forall2_refl. split; apply Forall_impl; intros a; apply val_same_refl.
Qed.
Lemma ids_eq (x : list N) : vec_eq N.eqb x x = true.
Proof. induction x as [|a x IH]; [reflexivity|]. cbn. rewrite N.eqb_refl. exact IH. Qed.

Lemma value_ok e t d st f c fl lim : draws_ok t d -> wready 0 [] f st -> ws_at (w_stream st) c fl lim ->
  2 * (len c + len (draws_bytes fl t d)) <= lim -> lim < two64 -> 4 * len (draws_bytes fl t d) <= e_lim e ->
  exists ok st', value_test e t d st = Done (ok, st') /\ (ok = true <-> draws_clean t d) /\ wready 0 [] f st' /\
    ws_at (w_stream st') (c ++ draws_bytes fl t d) fl lim.
Proof.
  intros (O1 & O2 & O3 & O4 & O5 & O6 & O7) WR WA LM L64 RL. pose proof (test_key_len d) as KL.
  unfold value_test. cbv zeta. rewrite (ws_at_pos _ _ _ _ WA).
  set (k := test_key d) in *. 
  assert (EI : random_idx (d_idx d) = (fst (d_idx d), [])) by (unfold random_idx; destruct (d_idx d); reflexivity).
  assert (EO : match d_optidx d with Some x => Some (random_idx x) | None => None end = option_map (fun x => (fst x, [])) (d_optidx d))
    by (destruct (d_optidx d) as [[? ?]|]; reflexivity).
  rewrite EI, EO. cbn [fst snd].
  set (oi := option_map (fun x => (fst x, [])) (d_optidx d)) in *.
  assert (B : draws_bytes fl t d = encode fl t k (CV (d_value d)) ++ encode fl t k (COpt (d_opt d)) ++ encode fl t k (CVec (d_vec d)) ++
    encode fl t k (COptVec (d_optvec d)) ++ encode fl t k (CIdx (fst (d_idx d)) []) ++ encode fl t k (COptIdx oi)).
  { unfold draws_bytes, items_image. cbn [map flat_map i_type i_key i_val]. rewrite app_nil_r. reflexivity. }
  rewrite B in *. clear B.
  assert (IX : ix_ok []) by constructor.
  assert (I5 : cval_ok t (CIdx (fst (d_idx d)) [])) by (split; [exact O5|exact IX]).
  assert (I6 : cval_ok t (COptIdx oi)) by (unfold oi; destruct (d_optidx d) as [[? ?]|]; [split; [exact O6|exact IX]|exact Logic.I]).
  set (b1 := encode fl t k (CV (d_value d))) in *. set (b2 := encode fl t k (COpt (d_opt d))) in *. set (b3 := encode fl t k (CVec (d_vec d))) in *.
  set (b4 := encode fl t k (COptVec (d_optvec d))) in *. set (b5 := encode fl t k (CIdx (fst (d_idx d)) [])) in *. set (b6 := encode fl t k (COptIdx oi)) in *.
  rewrite !len_app in LM, RL.
  destruct (wstep t k (CV (d_value d)) st f c fl lim (conj O1 KL) WR WA) as (s1 & E1 & W1 & A1); [fold b1; lia|]. fold b1 in A1.
  destruct (wstep t k (COpt (d_opt d)) s1 f _ fl lim (conj O2 KL) W1 A1) as (s2 & E2 & W2 & A2); [fold b2; rewrite ?len_app; lia|]. fold b2 in A2.
  destruct (wstep t k (CVec (d_vec d)) s2 f _ fl lim (conj O3 KL) W2 A2) as (s3 & E3 & W3 & A3); [fold b3; rewrite ?len_app; lia|]. fold b3 in A3.
  destruct (wstep t k (COptVec (d_optvec d)) s3 f _ fl lim (conj O4 KL) W3 A3) as (s4 & E4 & W4 & A4); [fold b4; rewrite ?len_app; lia|]. fold b4 in A4.
  destruct (wstep t k (CIdx (fst (d_idx d)) []) s4 f _ fl lim (conj I5 KL) W4 A4) as (s5 & E5 & W5 & A5); [fold b5; rewrite ?len_app; lia|]. fold b5 in A5.
  destruct (wstep t k (COptIdx oi) s5 f _ fl lim (conj I6 KL) W5 A5) as (s6 & E6 & W6 & A6); [fold b6; rewrite ?len_app; lia|]. fold b6 in A6.
  rewrite E1. cbn [bind negb]. rewrite E2. cbn [bind negb]. rewrite E3. cbn [bind negb]. rewrite E4. cbn [bind negb].
  rewrite E5. cbn [bind negb]. rewrite E6. cbn [bind negb].
  rewrite <- !app_assoc in A6. rewrite (ws_at_data _ _ _ _ A6). assert (FL : ws_flip (w_stream s6) = fl) by (destruct A6 as (_ & F & _); exact F). rewrite FL.
  set (rs := RS (c ++ b1 ++ b2 ++ b3 ++ b4 ++ b5 ++ b6) (len c) fl).
  assert (R0 : r_stream (r_open rs) = rs_at c (b1 ++ b2 ++ b3 ++ b4 ++ b5 ++ b6) fl) by reflexivity.
  pose proof (rready_open rs) as Q0.
  edestruct (rstep e t k (CV (d_value d)) (CV (d_uninit d)) (check_value t (d_value d)) (r_open rs)) as (r1 & F1 & Q1 & R1);
    [exact (conj O1 KL)|reflexivity|exact O7|destruct t; exact Logic.I|exact Q0|exact R0|fold b1; lia|fold b1; rewrite !len_app; lia|].
  edestruct (rstep e t k (COpt (d_opt d)) (COpt None) (check_opt t (d_opt d)) r1) as (r2 & F2 & Q2 & R2);
    [exact (conj O2 KL)|reflexivity|exact Logic.I|destruct t; exact Logic.I|exact Q1|exact R1|fold b2; lia|fold b1 b2; rewrite !len_app; lia|].
  edestruct (rstep e t k (CVec (d_vec d)) (CVec []) (check_vec t (d_vec d)) r2) as (r3 & F3 & Q3 & R3);
    [exact (conj O3 KL)|reflexivity|split; [constructor|reflexivity]|destruct t; try exact Logic.I; reflexivity|exact Q2|exact R2|fold b3; lia|fold b1 b2 b3; rewrite !len_app; lia|].
  edestruct (rstep e t k (COptVec (d_optvec d)) (COptVec None) (check_optvec t (d_optvec d)) r3) as (r4 & F4 & Q4 & R4);
    [exact (conj O4 KL)|reflexivity|exact Logic.I|destruct t; exact Logic.I|exact Q3|exact R3|fold b4; lia|fold b1 b2 b3 b4; rewrite !len_app; lia|].
  edestruct (rstep e t k (CIdx (fst (d_idx d)) []) (CIdx [] []) (check_idx t (fst (d_idx d), [])) r4) as (r5 & F5 & Q5 & R5);
    [exact (conj I5 KL)|reflexivity|split; [split; [constructor|reflexivity]|exact IX]|destruct t; try exact Logic.I; reflexivity|exact Q4|exact R4|fold b5; lia|fold b1 b2 b3 b4 b5; rewrite !len_app; lia|].
  edestruct (rstep e t k (COptIdx oi) (COptIdx None) (check_optidx t oi) r5 (rf_new 0 (rs_size rs)) (((((c ++ b1) ++ b2) ++ b3) ++ b4) ++ b5) [] fl) as (r6 & F6 & Q6 & R6);
    [exact (conj I6 KL)|reflexivity|exact Logic.I|destruct t; exact Logic.I|exact Q5|rewrite app_nil_r; exact R5|fold b6; lia|fold b1 b2 b3 b4 b5 b6; rewrite !len_app, len_nil; lia|].
  assert (K1 : check_value t (d_value d) (CV (d_value d)) = true <-> clean t (d_value d)) by (cbn; rewrite (val_eq_iff t _ _ O1 O1); apply val_same_refl).
  assert (K2 : check_opt t (d_opt d) (COpt (d_opt d)) = true <-> cval_clean t (COpt (d_opt d))).
  { cbn. destruct (d_opt d) as [x|]; [rewrite (val_eq_iff t _ _ O2 O2); apply val_same_refl|tauto]. }
  assert (K3 : check_vec t (d_vec d) (CVec (d_vec d)) = true <-> cval_clean t (CVec (d_vec d))) by (apply vec_eq_self, O3).
  assert (K4 : check_optvec t (d_optvec d) (COptVec (d_optvec d)) = true <-> cval_clean t (COptVec (d_optvec d))).
  { cbn. destruct (d_optvec d) as [x|]; [apply vec_eq_self, O4|tauto]. }
  assert (K5 : check_idx t (fst (d_idx d), []) (CIdx (fst (d_idx d)) []) = true <-> cval_clean t (CVec (fst (d_idx d)))).
  { cbn. rewrite andb_true_r. apply vec_eq_self, O5. }
  assert (K6 : check_optidx t oi (COptIdx oi) = true <-> cval_clean t (COptVec (option_map fst (d_optidx d)))).
  { unfold oi. destruct (d_optidx d) as [[x y]|]; cbn; [rewrite andb_true_r; apply vec_eq_self, O6|tauto]. }
  exists (check_value t (d_value d) (CV (d_value d)) && check_opt t (d_opt d) (COpt (d_opt d)) && check_vec t (d_vec d) (CVec (d_vec d)) &&
    check_optvec t (d_optvec d) (COptVec (d_optvec d)) && check_idx t (fst (d_idx d), []) (CIdx (fst (d_idx d)) []) && check_optidx t oi (COptIdx oi)), s6.
  split; [|split; [|split; [exact W6|exact A6]]].
  - rewrite F1. destruct (check_value t (d_value d) (CV (d_value d))); [|reflexivity].
    rewrite F2. destruct (check_opt t (d_opt d) (COpt (d_opt d))); [|reflexivity].
    rewrite F3. destruct (check_vec t (d_vec d) (CVec (d_vec d))); [|reflexivity].
    rewrite F4. destruct (check_optvec t (d_optvec d) (COptVec (d_optvec d))); [|reflexivity].
    rewrite F5. destruct (check_idx t (fst (d_idx d), []) (CIdx (fst (d_idx d)) [])); [|reflexivity].
    rewrite F6. destruct (check_optidx t oi (COptIdx oi)); reflexivity.
  - rewrite !andb_true_iff, K1, K2, K3, K4, K5, K6. unfold draws_clean. tauto.
Qed.

Lemma values_ok e : forall l st f c fl lim, Forall (fun x => draws_ok (fst x) (snd x)) l -> wready 0 [] f st -> ws_at (w_stream st) c fl lim ->
  2 * (len c + len (calls_bytes fl l)) <= lim -> lim < two64 -> 4 * len (calls_bytes fl l) <= e_lim e ->
  exists ok st', value_tests e l st = Done (ok, st') /\ (ok = true <-> Forall (fun x => draws_clean (fst x) (snd x)) l) /\
    (ok = true -> ws_at (w_stream st') (c ++ calls_bytes fl l) fl lim).
Proof.
  induction l as [|[t d] l IH]; intros st f c fl lim OK WR WA LM L64 RL.
  - exists true, st. unfold calls_bytes. cbn [flat_map]. rewrite app_nil_r. split; [reflexivity|]. split; [|auto]. split; auto.
  - inversion OK as [|? ? D OK']; subst. cbn [fst snd] in D. change (calls_bytes fl ((t, d) :: l)) with (draws_bytes fl t d ++ calls_bytes fl l) in *.
    rewrite len_app in LM, RL.
    destruct (value_ok e t d st f c fl lim D WR WA) as (ok & st1 & E1 & C1 & W1 & A1); try lia.
    cbn [value_tests]. rewrite E1. cbn [bind]. destruct ok.
    + destruct (IH st1 f (c ++ draws_bytes fl t d) fl lim OK' W1 A1) as (ok2 & st2 & E2 & C2 & A2); try (rewrite ?len_app; lia).
      exists ok2, st2. split; [exact E2|]. split.
      * rewrite C2. split; [intros H; constructor; [apply C1; reflexivity|exact H]|intros H; inversion H; auto].
      * intros H. rewrite app_assoc. auto.
    + exists false, st1. split; [reflexivity|]. split; [|discriminate]. split; [discriminate|]. intros H. inversion H as [|? ? H1 H2]; subst. apply C1. exact H1.
Qed.

Lemma t_value_pass e init lim i ds : let l := combine test_types ds in let fl := Nat.odd i in
  Forall (fun x => draws_ok (fst x) (snd x)) l -> room init lim (len (calls_bytes fl l)) -> 4 * len (calls_bytes fl l) <= e_lim e ->
  exists ok st, value_pass e init lim i ds = Done (ok, st) /\ (ok = true <-> Forall (fun x => draws_clean (fst x) (snd x)) l) /\
    (ok = true -> ws_data (w_stream st) = calls_bytes fl l).
Proof.
  intros l fl OK (R1 & R2 & R3 & R4) RL. destruct (fresh_at init lim fl R1 R2 R3) as (s0 & E0 & H0).
  destruct (values_ok e l (w_open s0) (wf_new 0 s0) [] fl lim OK (wready_open s0) H0) as (ok & st & E & C & A); try assumption.
  exists ok, st. unfold value_pass. fold fl. rewrite E0. cbn [bind]. split; [exact E|]. split; [exact C|]. intros H. exact (ws_at_data _ _ _ _ (A H)).
Qed.

Lemma t_values_test e init lim : forall passes i,
  (forall j ds, nth_error passes j = Some ds -> let l := combine test_types ds in let fl := Nat.odd (i + j) in
     Forall (fun x => draws_ok (fst x) (snd x)) l /\ room init lim (len (calls_bytes fl l)) /\ 4 * len (calls_bytes fl l) <= e_lim e) ->
  exists ok, values_test e init lim i passes = Done ok /\
    (ok = true <-> Forall (fun ds => Forall (fun x => draws_clean (fst x) (snd x)) (combine test_types ds)) passes).
Proof.
  induction passes as [|ds l IH]; intros i H.
  - exists true. split; [reflexivity|]. split; auto.
  - destruct (H 0%nat ds eq_refl) as (H1 & H2 & H3). rewrite Nat.add_0_r in H2, H3.
    destruct (t_value_pass e init lim i ds H1 H2 H3) as (ok & st & E & C & _). cbn [values_test]. rewrite E. cbn [bind]. destruct ok.
    + destruct (IH (S i)) as (ok2 & E2 & C2).
      { intros j ds' Hj. specialize (H (S j) ds' Hj). rewrite Nat.add_succ_r in H. exact H. }
      exists ok2. split; [exact E2|]. rewrite C2. split; [intros X; constructor; [apply C; reflexivity|exact X]|intros X; inversion X; auto].
    + exists false. split; [reflexivity|]. split; [discriminate|]. intros X. inversion X; subst. apply C. assumption.
Qed.
Lemma t_test_types t : In t test_types <-> ~ (exists f, t = TQuat f).
Proof.
  split.
  - intros H (f & E). subst t. cbn in H. repeat (destruct H as [H|H]; [discriminate H|]). destruct H.
  - intros H. destruct t as [|[]|[]|[]|[] []|[] []|[] []|[] []|f| | | | |]; cbn; try tauto. exfalso. apply H. exists f. reflexivity.
Qed.
Lemma t_value_coverage : (forall t, In t test_types <-> ~ (exists f, t = TQuat f)) /\
  (forall d, snd (random_idx d) = []) /\
  (forall fl t d, exists p, draws_bytes fl t d = p ++ encode fl t (test_key d) (CIdx (fst (d_idx d)) []) ++
     encode fl t (test_key d) (COptIdx (option_map (fun x => (fst x, [])) (d_optidx d)))).
Proof.
  split; [exact t_test_types|]. split; [intros [? ?]; reflexivity|]. intros fl t d. set (k := test_key d).
  exists (encode fl t k (CV (d_value d)) ++ encode fl t k (COpt (d_opt d)) ++ encode fl t k (CVec (d_vec d)) ++ encode fl t k (COptVec (d_optvec d))).
  unfold draws_bytes, items_image. cbn [map flat_map i_type i_key i_val]. fold k. rewrite app_nil_r, <- !app_assoc. reflexivity.
Qed.
