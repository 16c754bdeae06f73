(** * TestStream: proofs. *)
From Verif Require Import Base Bytes BytesFacts Values FileSpec Streams StreamFacts StreamProps Keys ValueEq ValueEqSpec ValueEqFacts Items EntityProps TestStream TestStreamSpec.
Open Scope N_scope.

Lemma words_self w n : forall a, words_eq w n a a = true.
Proof. induction n as [|n IH]; intros a; [reflexivity|]. cbn [words_eq]. rewrite N.eqb_refl, IH. reflexivity. Qed.
Lemma item_cases i (P : N -> Prop) : i < 8 -> P 0 -> P 1 -> P 2 -> P 3 -> P 4 -> P 5 -> P 6 -> P 7 -> P i.
Proof.
  intros H H0 H1 H2 H3 H4 H5 H6 H7.
  assert (X : i = 0 \/ i = 1 \/ i = 2 \/ i = 3 \/ i = 4 \/ i = 5 \/ i = 6 \/ i = 7) by lia.
  repeat destruct X as [->|X]; try assumption. rewrite X. assumption.
Qed.
Lemma item_ok_of x i : svalues_ok x -> i < 8 -> scalar_ok (item_value x i) /\ ksize (scalar_kind (item_value x i)) = item_size i.
Proof.
  intros (A1 & A2 & A3 & A4 & A5 & A6 & A7 & A8) Hi. destruct (v_uuid x) as [[[d1 d2] d3] d4] eqn:U.
  apply (item_cases i (fun i => scalar_ok (item_value x i) /\ ksize (scalar_kind (item_value x i)) = item_size i)); auto; cbn [item_value]; rewrite ?U; split; try reflexivity; assumption.
Qed.
Lemma same_self x i : i < 8 -> svalues_ok x ->
  (same_item i (item_value x i) (item_value x i) = true <-> (i = 4 -> ~ nan 4 (v_f32 x)) /\ (i = 5 -> ~ nan 8 (v_f64 x))).
Proof.
  intros Hi _. apply (item_cases i (fun i => same_item i (item_value x i) (item_value x i) = true <-> (i = 4 -> ~ nan 4 (v_f32 x)) /\ (i = 5 -> ~ nan 8 (v_f64 x)))); auto;
    cbn [item_value]; try (destruct (v_uuid x) as [[[d1 d2] d3] d4]); cbn [same_item]; rewrite ?N.eqb_refl, ?words_self;
    try (split; [intros _; split; discriminate|reflexivity]).
  - rewrite float_eq_iff by auto. unfold float_same. split; [intros (H & _); split; [auto|discriminate]|intros (H & _); specialize (H eq_refl); tauto].
  - rewrite float_eq_iff by auto. unfold float_same. split; [intros (H & _); split; [discriminate|auto]|intros (_ & H); specialize (H eq_refl); tauto].
Qed.

Definition stored_items (fl : bool) (x : svalues) (order : list N) : list byte := flat_map (fun i => stored fl (item_value x i)) order.
Lemma stored_len fl x : forall order, svalues_ok x -> order_ok order -> len (stored_items fl x order) = order_size order.
Proof.
  induction order as [|i l IH]; intros H O; [reflexivity|]. inversion O as [|? ? Hi Hl]; subst. destruct (item_ok_of x i H Hi) as [S1 S2].
  unfold stored_items. cbn [flat_map]. rewrite len_app. fold (stored_items fl x l). rewrite (IH H Hl), (len_stored fl _ S1), S2. reflexivity.
Qed.

Lemma write_one x i s c fl lim : svalues_ok x -> i < 8 -> ws_at s c fl lim -> 2 * (len c + item_size i) <= lim ->
  exists s', ws_call (OWrite (scalar_kind (item_value x i)) [item_value x i]) s = Done s' /\ ws_at s' (c ++ stored fl (item_value x i)) fl lim.
Proof.
  intros H Hi A L. destruct (item_ok_of x i H Hi) as [S1 S2]. cbn [ws_call].
  pose proof (wire_stored fl (scalar_kind (item_value x i)) [item_value x i]) as W. cbn [flat_map] in W. rewrite app_nil_r in W.
  rewrite <- W by (constructor; auto). apply ws_write_at; auto.
  - unfold images. cbn [flat_map]. rewrite app_nil_r, (len_image _ S1). change (len [item_value x i]) with 1. lia.
  - unfold images. cbn [flat_map]. rewrite app_nil_r, (len_image _ S1). rewrite S2. exact L.
Qed.
Lemma write_all_items x fl lim : forall order n s c, svalues_ok x -> order_ok order -> ws_at s c fl lim ->
  2 * (len c + order_size order) <= lim ->
  exists s', write_items x order n s = Done (n + order_size order, s') /\ ws_at s' (c ++ stored_items fl x order) fl lim.
Proof.
  induction order as [|i l IH]; intros n s c H O A L.
  - exists s. cbn. rewrite N.add_0_r, app_nil_r. auto.
  - inversion O as [|? ? Hi Hl]; subst. change (order_size (i :: l)) with (item_size i + order_size l) in *.
    destruct (write_one x i s c fl lim H Hi A) as (s1 & E1 & A1); [lia|].
    destruct (item_ok_of x i H Hi) as [S1 S2].
    destruct (IH (n + item_size i) s1 _ H Hl A1) as (s2 & E2 & A2); [rewrite len_app, (len_stored fl _ S1), S2; lia|].
    exists s2. cbn [write_items]. rewrite E1. cbn [bind]. rewrite E2. split; [do 2 f_equal; lia|]. rewrite <- app_assoc in A2. exact A2.
Qed.

Lemma peek_at fl v pre post : v < 2^8 -> b2n (rs_peek (rs_at pre (stored fl (SInt W8 v) ++ post) fl)) = v.
Proof.
  intros H. unfold rs_peek. rewrite rs_at_size, rs_at_pos, len_app. 
  assert (E : stored fl (SInt W8 v) = [n2b v]) by (unfold stored; destruct fl; reflexivity).
  rewrite E. change (len [n2b v]) with 1. destruct (N.leb_spec (len pre + (1 + len post)) (len pre)); [lia|].
  unfold rs_at. cbn [rs_data]. rewrite app_nth2; unfold len in *; [|lia]. replace (N.to_nat (N.of_nat (length pre)) - length pre)%nat with 0%nat by lia.
  cbn [nth app]. rewrite b2n_n2b. apply N.mod_small. exact H.
Qed.
Lemma read_all_items x fl : forall order pre post, svalues_ok x -> order_ok order ->
  len pre + order_size order + len post < two64 ->
  exists ok s', read_items x order (rs_at pre (stored_items fl x order ++ post) fl) = Done (ok, s') /\ (ok = true <-> floats_ok x order) /\
    (ok = true -> s' = rs_at (pre ++ stored_items fl x order) post fl).
Proof.
  induction order as [|i l IH]; intros pre post H O L.
  - exists true, (rs_at pre post fl). split; [reflexivity|]. split; [split; [intros _; split; intros []|auto]|]. intros _. cbn. rewrite app_nil_r. reflexivity.
  - inversion O as [|? ? Hi Hl]; subst. change (order_size (i :: l)) with (item_size i + order_size l) in L.
    destruct (item_ok_of x i H Hi) as [S1 S2]. unfold stored_items. cbn [flat_map]. fold (stored_items fl x l). rewrite <- app_assoc.
    cbn [read_items].
    assert (P : (i =? 0) && negb (b2n (rs_peek (rs_at pre (stored fl (item_value x i) ++ stored_items fl x l ++ post) fl)) =? v_u8 x) = false).
    { destruct (N.eqb_spec i 0) as [->|]; [|reflexivity]. cbn [item_value]. rewrite peek_at by apply H. rewrite N.eqb_refl. reflexivity. }
    rewrite P. clear P. rewrite rs_scalar_ok; [|exact S1|rewrite S2, len_app, (stored_len fl x l H Hl); lia]. cbn [bind].
    pose proof (same_self x i Hi H) as SS. destruct (same_item i (item_value x i) (item_value x i)).
    + destruct (IH (pre ++ stored fl (item_value x i)) post H Hl) as (ok & s' & E & C & A); [rewrite len_app, (len_stored fl _ S1), S2; lia|].
      exists ok, s'. split; [exact E|]. split.
      * rewrite C. destruct (proj1 SS eq_refl) as [N4 N5]. unfold floats_ok. cbn [In]. split; [intros [H4 H5]; split; intros [X|X]; auto|].
        intros [H4 H5]. split; auto.
      * intros X. rewrite (A X), <- app_assoc. reflexivity.
    + eexists false, _. split; [reflexivity|]. split; [|discriminate]. split; [discriminate|]. intros [H4 H5]. apply SS. 
      split; intros ->; [apply H4|apply H5]; left; reflexivity.
Qed.

Lemma t_stream_pass init lim fl x order : 0 < init -> init <= lim -> lim < two64 -> svalues_ok x -> order_ok order ->
  2 * order_size order <= lim -> exists ok, stream_pass init lim fl x order = Done ok /\ (ok = true <-> floats_ok x order).
Proof.
  intros L1 L2 L3 H O LM. 
  destruct (fresh_at init lim fl L1 L2 L3) as (s0 & E0 & A0). unfold stream_pass. unfold fresh in E0.
  destruct (ws_new init lim) as [b s00]. destruct b; [|discriminate]. cbn [thrown bind]. cbn [ws_calls ws_call bind] in E0. injection E0 as E0. rewrite E0.
  destruct (write_all_items x fl lim order 0 s0 [] H O A0) as (s & E & A); [rewrite len_nil; lia|]. rewrite E. cbn [bind app] in *.
  rewrite (ws_at_size _ _ _ _ A), (stored_len fl x order H O), N.add_0_l, N.eqb_refl. cbn [negb].
  rewrite (ws_at_data _ _ _ _ A). rewrite take_all by (rewrite (stored_len fl x order H O); lia).
  change (rs_setflip fl (RS (stored_items fl x order) 0 false)) with (RS (stored_items fl x order) 0 fl).
  destruct (read_all_items x fl order [] [] H O) as (ok & s' & E2 & C & Z); [rewrite len_nil; lia|].
  rewrite app_nil_r in E2. change (rs_at [] (stored_items fl x order) fl) with (RS (stored_items fl x order) 0 fl) in E2. rewrite E2. cbn [bind].
  exists (ok && (rs_pos s' =? order_size order)). split; [reflexivity|]. rewrite <- C. destruct ok; cbn [andb]; [|tauto].
  rewrite (Z eq_refl), rs_at_pos. cbn [app]. rewrite (stored_len fl x order H O), N.eqb_refl. tauto.
Qed.
Lemma t_stream_test init lim : 0 < init -> init <= lim -> lim < two64 -> forall passes i,
  Forall (fun p => svalues_ok (fst p) /\ order_ok (snd p) /\ 2 * order_size (snd p) <= lim) passes ->
  exists ok, stream_test init lim i passes = Done ok /\ (ok = true <-> Forall (fun p => floats_ok (fst p) (snd p)) passes).
Proof.
  intros L1 L2 L3. induction passes as [|[x order] l IH]; intros i F.
  - exists true. split; [reflexivity|]. split; auto.
  - inversion F as [|? ? (F1 & F2 & F3) F']; subst. cbn [fst snd] in *.
    destruct (t_stream_pass init lim (Nat.odd i) x order L1 L2 L3 F1 F2 F3) as (ok & E & C). cbn [stream_test]. rewrite E. cbn [bind]. destruct ok.
    + destruct (IH (S i) F') as (ok2 & E2 & C2). exists ok2. split; [exact E2|]. rewrite C2.
      split; [intros X; constructor; [apply C; reflexivity|exact X]|intros X; inversion X; auto].
    + exists false. split; [reflexivity|]. split; [discriminate|]. intros X. inversion X as [|? ? X1 X2]; subst. apply C. exact X1.
Qed.
