(** * StreamHeapProps: programs on streams in memory follow their specification (C61, proofs only). *)
From Verif Require Import Base Bytes BytesFacts Values Streams FileSpec ReadSpec StreamFacts StreamProps
  StreamHeap StreamHeapSpec StreamHeapFacts.
Open Scope N_scope.

Lemma nth_app {A} (l : list A) x i :
  nth_error (l ++ [x]) i = if (i <? length l)%nat then nth_error l i
                           else if (i =? length l)%nat then Some x else None.
Proof.
  destruct (Nat.ltb_spec i (length l)); [apply nth_error_app1; assumption|].
  destruct (Nat.eqb_spec i (length l)) as [->|Hn].
  - rewrite nth_error_app2, Nat.sub_diag by lia. reflexivity.
  - apply nth_error_None. rewrite app_length. cbn. lia.
Qed.
Lemma nth_set {A} i (a : A) l j :
  nth_error (set_nth i a l) j = if ((i =? j) && (i <? length l))%nat then Some a else nth_error l j.
Proof.
  destruct (Nat.eqb_spec i j) as [<-|Hn]; cbn [andb]; [|apply nth_set_other; exact Hn].
  destruct (Nat.ltb_spec i (length l)) as [H|H]; [apply nth_set_same; exact H|].
  transitivity (@None A); [|symmetry]; apply nth_error_None; rewrite ?length_set_nth; exact H.
Qed.

Section Prog.
Context (lim : N) (Hlim : lim <= 2 ^ 62).

Definition good (s : wstream) (v : swriter) : Prop :=
  ws_abs s (sw_file v) /\ ws_flip s = sw_flip v /\ ws_res s = sw_cap v /\ ws_lim s = lim.

Lemma abs_wk s f : ws_abs s f -> ws_lim s = lim -> wk lim s.
Proof. intros ((H1 & H2 & H3 & H4 & H5 & H6) & _) E. unfold wk. rewrite <- E at 1. auto. Qed.

(** The pure stream under the real limit. *)
Lemma call_abs o s f :
  wop_ok o -> match o with OWrite _ xs => len (images xs) < 2 ^ 62 | OSeek p => p < two64 | OFlip _ => True end ->
  ws_abs s f -> ws_lim s = lim ->
  match ws_call o s with
  | Undef => False
  | Throw => lim < 2 * len (f_bytes (fst (f_step (f, ws_flip s) o)))
  | Done s' => wk lim s' -> ws_abs s' (fst (f_step (f, ws_flip s) o)) /\ ws_flip s' = snd (f_step (f, ws_flip s) o) /\
                 ws_lim s' = lim
  end.
Proof.
  intros Hok Hsm Habs El. pose proof Habs as ((H1 & H2 & H3 & H4 & H5 & H6) & Hd & Hp).
  pose proof (ws_abs_size s f Habs) as Hsz.
  assert (HT : 2 * len (f_bytes (fst (f_step (f, ws_flip s) o))) <= lim -> ws_call o s <> Throw).
  { intros Hl. destruct (ws_call_ok o s f Hok Habs) as (s' & E & _); [lia|]. congruence. }
  destruct (N.lt_ge_cases (len (f_bytes (fst (f_step (f, ws_flip s) o)))) (2 ^ 63)) as [Hs|Hs].
  - assert (Ab : ws_abs (setlim (two64 - 1) s) f).
    { unfold ws_abs, ws_ok, ws_data, setlim in *. cbn [ws_mem ws_size ws_pos ws_res ws_lim].
      repeat split; try assumption; unfold two64 in *; lia. }
    destruct (ws_call_ok o (setlim (two64 - 1) s) f Hok Ab) as (sb & E & A & B & _).
    { change (ws_flip (setlim (two64 - 1) s)) with (ws_flip s). cbn [ws_lim setlim]. unfold two64. lia. }
    change (ws_flip (setlim (two64 - 1) s)) with (ws_flip s) in *.
    pose proof (ws_call_lim o s (two64 - 1)) as Hsim. rewrite E in Hsim.
    specialize (Hsim ltac:(unfold two64 in *; lia)).
    destruct (ws_call o s) as [s1| |] eqn:Ec; cbn [sim] in Hsim; [|apply N.nle_gt; intros X; exact (HT X eq_refl)|discriminate].
    destruct Hsim as (Es & El1). injection Es as ->. intros (W1 & W2 & W3 & W4).
    split; [|split; [exact B|congruence]].
    unfold ws_abs, ws_ok, ws_data, setlim in *. cbn [ws_mem ws_size ws_pos ws_res ws_lim] in A.
    destruct A as ((A1 & A2 & A3 & A4 & A5 & A6) & A7 & A8).
    repeat split; try assumption; unfold two64 in *; lia.
  - destruct o as [k xs|p|b]; cbn [f_step fst snd f_put f_seek f_bytes] in Hs.
    + exfalso.
      assert (Hlw : len (flat_map (stored (ws_flip s)) xs) = len (images xs)).
      { rewrite <- (wire_stored (ws_flip s) k xs Hok). apply len_wire. apply len_images. exact Hok. }
      rewrite !len_app, len_take, len_drop, Hlw in Hs. lia.
    + rewrite len_app, len_rep in Hs. cbn [ws_call]. unfold ws_setpos.
      assert (Hb : 2 ^ 63 <= p) by lia.
      replace (ws_size s <? p) with true by lia. unfold ws_resize.
      replace (ws_res s <? p) with true by lia. unfold ws_reserve.
      set (d := if mul64 (ws_res s) 2 <? p then p else mul64 (ws_res s) 2).
      assert (p <= d) by (unfold d; destruct (N.ltb_spec (mul64 (ws_res s) 2) p); lia).
      replace ((0 <? d) && (d <=? ws_lim s)) with false by lia. cbn [thrown].
      cbn [f_step fst f_seek f_bytes]. rewrite len_app, len_rep. lia.
    + exfalso. lia.
Qed.

(** ** The invariant *)
Definition wrel (h : areas) (o : option (option wobj)) (v : option (option swriter)) : Prop :=
  match o, v with
  | None, None => True
  | Some None, Some None => True
  | Some (Some o), Some (Some v) => exists a s, o = obj a s /\ ar_get h a = Some (ws_mem s) /\ good s v
  | _, _ => False
  end.

Definition vrel (h : areas) (ws : list (option wobj)) (S : sstate) (r : robj) (v : sview) : Prop :=
  ro_size r = sv_size v /\ ro_pos r = sv_pos v /\ ro_flip r = sv_flip v /\
  sv_pos v <= sv_size v /\ sv_size v <= lim /\ (ro_data r < length h)%nat /\
  match nth_error (ss_writers S) (sv_writer v) with
  | Some (Some w) =>
    (sv_moves v <= sw_moves w)%nat /\
    (sv_moves v = sw_moves w ->
       sv_size v <= len (f_bytes (sw_file w)) /\
       exists o, nth_error ws (sv_writer v) = Some (Some o) /\ wo_data o = Some (ro_data r)) /\
    (sv_moves v <> sw_moves w -> ar_get h (ro_data r) = None)
  | Some None => ar_get h (ro_data r) = None
  | None => False
  end.

Record inv (m : mem) (S : sstate) : Prop := {
  i_w : forall i, wrel (mm_areas m) (nth_error (mm_writers m) i) (nth_error (ss_writers S) i);
  i_own : forall i j oi oj a, nth_error (mm_writers m) i = Some (Some oi) ->
     nth_error (mm_writers m) j = Some (Some oj) -> wo_data oi = Some a -> wo_data oj = Some a -> i = j;
  i_leak : forall a x, ar_get (mm_areas m) a = Some x ->
     exists i o, nth_error (mm_writers m) i = Some (Some o) /\ wo_data o = Some a;
  i_v : forall i, match nth_error (mm_readers m) i, nth_error (ss_views S) i with
     | None, None => True
     | Some r, Some v => vrel (mm_areas m) (mm_writers m) S r v
     | _, _ => False
     end }.

Lemma inv_lens m S : inv m S ->
  length (mm_writers m) = length (ss_writers S) /\ length (mm_readers m) = length (ss_views S).
Proof.
  intros I.
  assert (Q : forall (A B : Type) (l : list A) (k : list B),
    (forall i, nth_error l i = None <-> nth_error k i = None) -> length l = length k).
  { intros A B l k H. apply Nat.le_antisymm; apply Nat.nlt_ge; intros Hl.
    - apply (nth_error_Some l (length k)); [exact Hl|]. apply H. apply nth_error_None. lia.
    - apply (nth_error_Some k (length l)); [exact Hl|]. apply H. apply nth_error_None. lia. }
  split; apply Q; intros i.
  - pose proof (i_w _ _ I i) as H. unfold wrel in H.
    destruct (nth_error (mm_writers m) i) as [[|]|], (nth_error (ss_writers S) i) as [[|]|];
      try contradiction; split; congruence.
  - pose proof (i_v _ _ I i) as H.
    destruct (nth_error (mm_readers m) i), (nth_error (ss_views S) i); try contradiction; split; congruence.
Qed.

Lemma inv_none : inv m_none s_none.
Proof.
  constructor; cbn.
  - intros i. destruct i; exact Logic.I.
  - intros i j oi oj a H. destruct i; discriminate.
  - intros a x H. destruct a; discriminate.
  - intros i. destruct i; exact Logic.I.
Qed.

(** A live writer of the program. *)
Lemma inv_live m S w : inv m S ->
  match nth_error (mm_writers m) w with
  | Some (Some o) => exists v a s, nth_error (ss_writers S) w = Some (Some v) /\ o = obj a s /\
        ar_get (mm_areas m) a = Some (ws_mem s) /\ good s v /\ live w m = Done (obj a s)
  | _ => match nth_error (ss_writers S) w with Some (Some _) => False | _ => live w m = Undef end
  end.
Proof.
  intros I. pose proof (i_w _ _ I w) as H. unfold wrel in H. unfold live.
  destruct (nth_error (mm_writers m) w) as [[o|]|], (nth_error (ss_writers S) w) as [[v|]|];
    try contradiction; try reflexivity.
  destruct H as (a & s & -> & G & Q). exists v, a, s. auto.
Qed.

(** A writer goes from [a], [s] to [a'], [s']. *)
Lemma write_inv m S w v a s h' a' s' v' :
  inv m S -> nth_error (mm_writers m) w = Some (Some (obj a s)) -> nth_error (ss_writers S) w = Some (Some v) ->
  ar_get (mm_areas m) a = Some (ws_mem s) -> ar_get h' a' = Some (ws_mem s') -> tr (mm_areas m) a s h' a' s' ->
  good s' v' -> len (f_bytes (sw_file v)) <= len (f_bytes (sw_file v')) ->
  sw_moves v' = (if Nat.eqb a' a then sw_moves v else Datatypes.S (sw_moves v)) ->
  inv (MM h' (set_nth w (Some (obj a' s')) (mm_writers m)) (mm_readers m))
      (SS (set_nth w (Some v') (ss_writers S)) (ss_views S)).
Proof.
  intros I Hw Hv G G' (T1 & T2 & T3 & T4 & T5) Q Hle Hmv.
  pose proof (nth_lt _ _ _ Hw) as Lw. pose proof (nth_lt _ _ _ Hv) as Lv.
  pose proof (ar_get_lt _ _ _ G) as La.
  assert (Hoth : forall j o b, j <> w -> nth_error (mm_writers m) j = Some (Some o) -> wo_data o = Some b ->
            b <> a /\ (b < length (mm_areas m))%nat /\ ar_get h' b = ar_get (mm_areas m) b).
  { intros j o b Hj Ho Hb.
    assert (b <> a).
    { intros ->. apply Hj. eapply (i_own _ _ I); [exact Ho|exact Hw|exact Hb|reflexivity]. }
    assert (b < length (mm_areas m))%nat.
    { pose proof (i_w _ _ I j) as H1. rewrite Ho in H1. unfold wrel in H1.
      destruct (nth_error (ss_writers S) j) as [[|]|]; try contradiction.
      destruct H1 as (b' & s1 & -> & G1 & _). cbn in Hb. injection Hb as ->. eapply ar_get_lt; exact G1. }
    split; [assumption|]. split; [assumption|]. apply T2; assumption. }
  assert (Hdead : forall b, (b < length (mm_areas m))%nat -> ar_get (mm_areas m) b = None -> ar_get h' b = None).
  { intros b Hb Hn. rewrite T2; [exact Hn|exact Hb|]. intros ->. congruence. }
  constructor; cbn [mm_areas mm_writers mm_readers ss_writers ss_views].
  - intros i. rewrite !nth_set. destruct (Nat.eqb_spec w i) as [<-|Hn]; cbn [andb].
    + replace (w <? length (mm_writers m))%nat with true by (symmetry; apply Nat.ltb_lt; exact Lw).
      replace (w <? length (ss_writers S))%nat with true by (symmetry; apply Nat.ltb_lt; exact Lv).
      cbn [wrel]. exists a', s'. auto.
    + pose proof (i_w _ _ I i) as H. unfold wrel in *.
      destruct (nth_error (mm_writers m) i) as [[o|]|] eqn:Eo, (nth_error (ss_writers S) i) as [[u|]|]; try exact H.
      destruct H as (b & s1 & -> & G1 & Q1). exists b, s1. split; [reflexivity|]. split; [|exact Q1].
      destruct (Hoth i _ b (not_eq_sym Hn) Eo eq_refl) as (_ & _ & ->). exact G1.
  - intros i j oi oj b Hi Hj Hbi Hbj. rewrite nth_set in Hi, Hj.
    replace (w <? length (mm_writers m))%nat with true in * by (symmetry; apply Nat.ltb_lt; exact Lw).
    destruct (Nat.eqb_spec w i) as [E1|N1], (Nat.eqb_spec w j) as [E2|N2]; cbn [andb] in *; try congruence.
    + injection Hi as <-. cbn in Hbi. injection Hbi as <-.
      destruct (Hoth j oj a' (not_eq_sym N2) Hj Hbj) as (X & Y & _).
      destruct T5 as [[-> _]|(Z & _)]; [congruence|lia].
    + injection Hj as <-. cbn in Hbj. injection Hbj as <-.
      destruct (Hoth i oi a' (not_eq_sym N1) Hi Hbi) as (X & Y & _).
      destruct T5 as [[-> _]|(Z & _)]; [congruence|lia].
    + eapply (i_own _ _ I); eassumption.
  - intros b x Hb. destruct (Nat.eq_dec b a') as [->|Hn].
    + exists w, (obj a' s'). split; [|reflexivity]. apply nth_set_same. exact Lw.
    + assert (Lb : (b < length (mm_areas m))%nat).
      { destruct (Nat.lt_ge_cases b (length (mm_areas m))) as [|Hg]; [assumption|].
        rewrite (T3 b Hg Hn) in Hb. discriminate. }
      assert (Hna : b <> a).
      { intros ->. destruct T5 as [[E _]|(_ & E & _)]; congruence. }
      rewrite (T2 b Lb Hna) in Hb. destruct (i_leak _ _ I b x Hb) as (j & o & Hj & Ho).
      exists j, o. split; [|exact Ho]. rewrite nth_set_other; [exact Hj|].
      intros <-. rewrite Hw in Hj. injection Hj as <-. cbn in Ho. congruence.
  - intros i. pose proof (i_v _ _ I i) as H.
    destruct (nth_error (mm_readers m) i) as [r|], (nth_error (ss_views S) i) as [u|]; try exact H.
    unfold vrel in *. destruct H as (A1 & A2 & A3 & A4 & A5 & A6 & A7). cbn [ss_writers].
    repeat (split; [first [assumption|lia]|]).
    rewrite !nth_set. destruct (Nat.eqb_spec w (sv_writer u)) as [E|N1]; cbn [andb].
    + replace (w <? length (ss_writers S))%nat with true by (symmetry; apply Nat.ltb_lt; exact Lv).
      replace (w <? length (mm_writers m))%nat with true by (symmetry; apply Nat.ltb_lt; exact Lw).
      rewrite <- E, Hv in A7. destruct A7 as (B1 & B2 & B3).
      destruct (Nat.eqb_spec a' a) as [Ea|Na].
      * split; [lia|]. split.
        -- intros Em. rewrite Hmv in Em. destruct (B2 Em) as (C1 & o & C2 & C3). split; [lia|].
           exists (obj a' s'). split; [reflexivity|]. rewrite Hw in C2. injection C2 as <-. cbn in *. congruence.
        -- intros Em. rewrite Hmv in Em. apply Hdead; [exact A6|]. apply B3. exact Em.
      * split; [lia|]. split; [intros Em; lia|]. intros _.
        destruct (Nat.eq_dec (sv_moves u) (sw_moves v)) as [Em|Em]; [|apply Hdead; [exact A6|apply B3; exact Em]].
        destruct (B2 Em) as (C1 & o & C2 & C3). rewrite Hw in C2. injection C2 as <-. cbn in C3. injection C3 as <-.
        destruct T5 as [[E' _]|(_ & E' & _)]; [congruence|exact E'].
    + destruct (nth_error (ss_writers S) (sv_writer u)) as [[w0|]|]; [|apply Hdead; assumption|contradiction].
      destruct A7 as (B1 & B2 & B3). split; [exact B1|]. split; [exact B2|].
      intros Em. apply Hdead; [exact A6|]. apply B3. exact Em.
Qed.

(** ** Steps *)
Lemma new_inv m S o v h :
  inv m S -> (length (mm_areas m) <= length h)%nat ->
  (forall b, (b < length (mm_areas m))%nat -> ar_get h b = ar_get (mm_areas m) b) ->
  (forall b, (length (mm_areas m) < b)%nat -> ar_get h b = None) ->
  wo_data o = Some (length (mm_areas m)) -> wrel h (Some (Some o)) (Some (Some v)) ->
  inv (MM h (mm_writers m ++ [Some o]) (mm_readers m)) (SS (ss_writers S ++ [Some v]) (ss_views S)).
Proof.
  intros I Hl Hold Hnew Ho Hw. destruct (inv_lens m S I) as (L1 & L2).
  assert (Hlive : forall i p b, nth_error (mm_writers m) i = Some (Some p) -> wo_data p = Some b ->
                   (b < length (mm_areas m))%nat).
  { intros i p b Hi Hb. pose proof (i_w _ _ I i) as H. rewrite Hi in H. unfold wrel in H.
    destruct (nth_error (ss_writers S) i) as [[|]|]; try contradiction.
    destruct H as (b' & s1 & -> & G1 & _). cbn in Hb. injection Hb as ->. eapply ar_get_lt; exact G1. }
  constructor; cbn [mm_areas mm_writers mm_readers ss_writers ss_views].
  - intros i. rewrite !nth_app, <- L1.
    destruct (Nat.ltb_spec i (length (mm_writers m))) as [Hi|Hi].
    + pose proof (i_w _ _ I i) as H. unfold wrel in *.
      destruct (nth_error (mm_writers m) i) as [[p|]|] eqn:Ep, (nth_error (ss_writers S) i) as [[u|]|]; try exact H.
      destruct H as (b & s1 & -> & G1 & Q1). exists b, s1. split; [reflexivity|]. split; [|exact Q1].
      rewrite Hold; [exact G1|]. eapply ar_get_lt; exact G1.
    + destruct (i =? length (mm_writers m))%nat; [exact Hw|exact Logic.I].
  - intros i j oi oj b Hi Hj Hbi Hbj. rewrite nth_app in Hi, Hj.
    destruct (Nat.ltb_spec i (length (mm_writers m))) as [Li|Li];
    destruct (Nat.ltb_spec j (length (mm_writers m))) as [Lj|Lj].
    + eapply (i_own _ _ I); eassumption.
    + destruct (Nat.eqb_spec j (length (mm_writers m))) as [Ej|]; [|discriminate]. injection Hj as <-.
      specialize (Hlive i oi b Hi Hbi). rewrite Ho in Hbj. injection Hbj as <-. lia.
    + destruct (Nat.eqb_spec i (length (mm_writers m))) as [Ei|]; [|discriminate]. injection Hi as <-.
      specialize (Hlive j oj b Hj Hbj). rewrite Ho in Hbi. injection Hbi as <-. lia.
    + destruct (Nat.eqb_spec j (length (mm_writers m))); [|discriminate].
      destruct (Nat.eqb_spec i (length (mm_writers m))); [|discriminate]. congruence.
  - intros b x Hb.
    destruct (Nat.lt_trichotomy b (length (mm_areas m))) as [L|[L|L]].
    + rewrite (Hold b L) in Hb. destruct (i_leak _ _ I b x Hb) as (j & p & Hj & Hp).
      exists j, p. split; [|exact Hp]. rewrite nth_error_app1; [exact Hj|]. eapply nth_lt; exact Hj.
    + exists (length (mm_writers m)), o. split; [|congruence].
      rewrite nth_error_app2, Nat.sub_diag by lia. reflexivity.
    + rewrite (Hnew b L) in Hb. discriminate.
  - intros i. pose proof (i_v _ _ I i) as H.
    destruct (nth_error (mm_readers m) i) as [r|], (nth_error (ss_views S) i) as [u|]; try exact H.
    unfold vrel in *. destruct H as (A1 & A2 & A3 & A4 & A5 & A6 & A7). cbn [ss_writers].
    repeat (split; [first [assumption|lia]|]).
    destruct (nth_error (ss_writers S) (sv_writer u)) as [x|] eqn:Ex; [|contradiction].
    pose proof (nth_lt _ _ _ Ex) as Lx.
    rewrite nth_error_app1, Ex by exact Lx. rewrite nth_error_app1 by lia.
    destruct x as [w0|]; rewrite (Hold _ A6); exact A7.
Qed.

Lemma del_inv m S w v a s :
  inv m S -> nth_error (mm_writers m) w = Some (Some (obj a s)) -> nth_error (ss_writers S) w = Some (Some v) ->
  ar_get (mm_areas m) a = Some (ws_mem s) ->
  inv (MM (set_nth a None (mm_areas m)) (set_nth w None (mm_writers m)) (mm_readers m))
      (SS (set_nth w None (ss_writers S)) (ss_views S)).
Proof.
  intros I Hw Hv G. pose proof (nth_lt _ _ _ Hw) as Lw. pose proof (nth_lt _ _ _ Hv) as Lv.
  pose proof (ar_get_lt _ _ _ G) as La.
  assert (Hnone : forall b, ar_get (mm_areas m) b = None -> ar_get (set_nth a None (mm_areas m)) b = None).
  { intros b Hb. destruct (Nat.eq_dec a b) as [<-|Hn]; [apply ar_get_set; exact La|].
    rewrite ar_get_set_other by exact Hn. exact Hb. }
  constructor; cbn [mm_areas mm_writers mm_readers ss_writers ss_views].
  - intros i. rewrite !nth_set.
    replace (w <? length (mm_writers m))%nat with true by (symmetry; apply Nat.ltb_lt; exact Lw).
    replace (w <? length (ss_writers S))%nat with true by (symmetry; apply Nat.ltb_lt; exact Lv).
    destruct (Nat.eqb_spec w i) as [<-|Hn]; cbn [andb]; [exact Logic.I|].
    pose proof (i_w _ _ I i) as H. unfold wrel in *.
    destruct (nth_error (mm_writers m) i) as [[o|]|] eqn:Eo, (nth_error (ss_writers S) i) as [[u|]|]; try exact H.
    destruct H as (b & s1 & -> & G1 & Q1). exists b, s1. split; [reflexivity|]. split; [|exact Q1].
    rewrite ar_get_set_other; [exact G1|]. intros <-. apply Hn. eapply (i_own _ _ I); [exact Hw|exact Eo|reflexivity..].
  - intros i j oi oj b Hi Hj Hbi Hbj. rewrite nth_set in Hi, Hj.
    replace (w <? length (mm_writers m))%nat with true in * by (symmetry; apply Nat.ltb_lt; exact Lw).
    destruct (Nat.eqb_spec w i), (Nat.eqb_spec w j); cbn [andb] in *; try discriminate.
    eapply (i_own _ _ I); eassumption.
  - intros b x Hb. destruct (Nat.eq_dec a b) as [<-|Hn]; [rewrite ar_get_set in Hb by exact La; discriminate|].
    rewrite ar_get_set_other in Hb by exact Hn. destruct (i_leak _ _ I b x Hb) as (j & o & Hj & Ho).
    exists j, o. split; [|exact Ho]. rewrite nth_set_other; [exact Hj|].
    intros <-. rewrite Hw in Hj. injection Hj as <-. cbn in Ho. congruence.
  - intros i. pose proof (i_v _ _ I i) as H.
    destruct (nth_error (mm_readers m) i) as [r|], (nth_error (ss_views S) i) as [u|]; try exact H.
    unfold vrel in *. destruct H as (A1 & A2 & A3 & A4 & A5 & A6 & A7). cbn [ss_writers].
    repeat (split; [first [assumption|lia]|]).
    split; [rewrite length_set_nth; exact A6|].
    rewrite !nth_set. destruct (Nat.eqb_spec w (sv_writer u)) as [E|N1]; cbn [andb].
    + replace (w <? length (ss_writers S))%nat with true by (symmetry; apply Nat.ltb_lt; exact Lv).
      rewrite <- E, Hv in A7. destruct A7 as (B1 & B2 & B3).
      destruct (Nat.eq_dec (sv_moves u) (sw_moves v)) as [Em|Em]; [|apply Hnone; apply B3; exact Em].
      destruct (B2 Em) as (C1 & o & C2 & C3). rewrite Hw in C2. injection C2 as <-. cbn in C3. injection C3 as <-.
      apply ar_get_set. exact La.
    + destruct (nth_error (ss_writers S) (sv_writer u)) as [[w0|]|]; [|apply Hnone; assumption|contradiction].
      destruct A7 as (B1 & B2 & B3). split; [exact B1|]. split; [exact B2|].
      intros Em. apply Hnone. apply B3. exact Em.
Qed.

Lemma view_inv m S w v a s fl :
  inv m S -> nth_error (mm_writers m) w = Some (Some (obj a s)) -> nth_error (ss_writers S) w = Some (Some v) ->
  ar_get (mm_areas m) a = Some (ws_mem s) -> good s v ->
  inv (MM (mm_areas m) (mm_writers m) (mm_readers m ++ [RO a (ws_size s) 0 fl]))
      (SS (ss_writers S) (ss_views S ++ [SV w (sw_moves v) (len (f_bytes (sw_file v))) 0 fl])).
Proof.
  intros I Hw Hv G Q. destruct (inv_lens m S I) as (L1 & L2).
  destruct Q as (Q1 & Q2 & Q3 & Q4). pose proof (ws_abs_size _ _ Q1) as Hs.
  destruct I as [I1 I2 I3 I4].
  constructor; cbn [mm_areas mm_writers mm_readers ss_writers ss_views]; try assumption.
  intros i. rewrite !nth_app, <- L2.
  destruct (Nat.ltb_spec i (length (mm_readers m))); [exact (I4 i)|].
  destruct (i =? length (mm_readers m))%nat; [|exact Logic.I].
  unfold vrel. cbn [ro_size ro_pos ro_flip ro_data sv_size sv_pos sv_flip sv_writer sv_moves ss_writers].
  rewrite Hv, Hs. split; [reflexivity|]. split; [reflexivity|]. split; [reflexivity|]. split; [lia|].
  split; [destruct Q1 as ((X1 & X2 & X3 & X4 & X5 & X6) & _); lia|].
  split; [eapply ar_get_lt; exact G|]. split; [lia|]. split; [|congruence].
  intros _. split; [lia|]. exists (obj a s). split; [exact Hw|reflexivity].
Qed.

Lemma read_inv m S i r u p fl :
  inv m S -> nth_error (mm_readers m) i = Some r -> nth_error (ss_views S) i = Some u -> p <= sv_size u ->
  inv (MM (mm_areas m) (mm_writers m) (set_nth i (RO (ro_data r) (ro_size r) p fl) (mm_readers m)))
      (SS (ss_writers S) (set_nth i (SV (sv_writer u) (sv_moves u) (sv_size u) p fl) (ss_views S))).
Proof.
  intros I Hr Hu Hp. pose proof (nth_lt _ _ _ Hr) as Lr. pose proof (nth_lt _ _ _ Hu) as Lu.
  pose proof (i_v _ _ I i) as Hi. rewrite Hr, Hu in Hi.
  destruct I as [I1 I2 I3 I4].
  constructor; cbn [mm_areas mm_writers mm_readers ss_writers ss_views]; try assumption.
  intros j. rewrite !nth_set.
  replace (i <? length (mm_readers m))%nat with true by (symmetry; apply Nat.ltb_lt; exact Lr).
  replace (i <? length (ss_views S))%nat with true by (symmetry; apply Nat.ltb_lt; exact Lu).
  destruct (Nat.eqb_spec i j) as [<-|Hn]; cbn [andb]; [|exact (I4 j)].
  unfold vrel in *. cbn [ro_size ro_pos ro_flip ro_data sv_size sv_pos sv_flip sv_writer sv_moves ss_writers].
  destruct Hi as (A1 & A2 & A3 & A4 & A5 & A6 & A7). repeat split; assumption.
Qed.

Lemma rop_ok_le n n' o : n <= n' -> rop_ok n' o -> rop_ok n o.
Proof. destruct o; cbn; try tauto. lia. Qed.

Lemma step_ok c m S :
  inv m S -> scmd_ok lim c ->
  match m_step lim c m with
  | Done (x, m1) => exists S1, s_step lim c S (Done (x, S1)) /\ inv m1 S1
  | Throw => s_step lim c S Throw
  | Undef => s_step lim c S Undef
  end.
Proof.
  intros I Hok. destruct c as [init|w|w|w op|w|w fl|i op]; cbn [scmd_ok m_step s_step] in *.
  - unfold ho_reserve, ar_alloc. cbn [wo_res wo_data wo_size wo_pos wo_flip].
    change (mul64 0 2) with 0.
    assert (Ed : (if 0 <? init then init else 0) = init) by (destruct (N.ltb_spec 0 init); lia).
    rewrite Ed. destruct ((0 <? init) && (init <=? lim)) eqn:E; cbn [bind].
    + apply andb_true_iff in E. eexists. split; [right; split; [lia|reflexivity]|].
      apply new_inv; cbn [wo_data].
      * exact I.
      * rewrite app_length. cbn. lia.
      * intros b Hb. apply ar_get_app. exact Hb.
      * intros b Hb. apply ar_get_beyond. rewrite app_length. cbn. lia.
      * reflexivity.
      * exists (length (mm_areas m)), (WS (rep x00 init) 0 0 init false lim).
        split; [reflexivity|]. split; [apply ar_get_last|].
        unfold good, ws_abs, ws_ok, ws_data. cbn [ws_mem ws_size ws_pos ws_res ws_flip ws_lim sw_file sw_flip sw_cap f_bytes f_pos].
        rewrite take_0, drop_0, len_rep. replace (init - 0) with init by lia.
        repeat split; unfold two64; lia.
    + left. split; [|reflexivity]. apply andb_false_iff in E. lia.
  - contradiction.
  - pose proof (inv_live m S w I) as H.
    destruct (nth_error (mm_writers m) w) as [[o|]|] eqn:Ew.
    + destruct H as (v & a & s & Hv & -> & G & Q & L). rewrite L, Hv. cbn [bind wo_data obj].
      unfold ar_free. rewrite G. cbn [bind]. eexists. split; [reflexivity|].
      eapply del_inv; eassumption.
    + destruct (nth_error (ss_writers S) w) as [[|]|]; try contradiction; rewrite H; reflexivity.
    + destruct (nth_error (ss_writers S) w) as [[|]|]; try contradiction; rewrite H; reflexivity.
  - pose proof (inv_live m S w I) as H.
    destruct (nth_error (mm_writers m) w) as [[o|]|] eqn:Ew.
    + destruct H as (v & a & s & Hv & -> & G & (Q1 & Q2 & Q3 & Q4) & L). rewrite L, Hv. cbn [bind].
      destruct Hok as (Hop & Hsm).
      pose proof (call_sims lim Hlim op _ a s G (abs_wk _ _ Q1 Q4)) as Hs.
      pose proof (call_abs op s (sw_file v) Hop Hsm Q1 Q4) as Ha. rewrite Q2 in Ha.
      destruct (ws_call op s) as [s'| |] eqn:Ec; cbn [sims] in Hs.
      * destruct Hs as (h' & a' & -> & G' & W' & T). cbn [bind].
        destruct (Ha W') as (A1 & A2 & A3).
        set (f' := fst (f_step (sw_file v, sw_flip v) op)) in *.
        pose proof (ws_abs_size _ _ A1) as Z'. pose proof (ws_abs_size _ _ Q1) as Z.
        pose proof T as (T1 & T2 & T3 & T4 & T5). destruct W' as (W1 & W2 & W3 & W4).
        set (v' := SW f' (snd (f_step (sw_file v, sw_flip v) op)) (ws_res s')
                      (if Nat.eqb a' a then sw_moves v else Datatypes.S (sw_moves v))).
        exists (SS (set_nth w (Some v') (ss_writers S)) (ss_views S)). split.
        -- right. exists v'. split; [|reflexivity].
           unfold grown, v'. cbn [sw_file sw_flip sw_cap sw_moves]. split; [reflexivity|]. split; [reflexivity|].
           pose proof (ar_get_lt _ _ _ G) as La.
           destruct T5 as [[Ea Er]|(X & Y & Z0)].
           ++ rewrite Ea, Nat.eqb_refl. split; [intros _; split; [congruence|reflexivity]|]. lia.
           ++ replace (Nat.eqb a' a) with false by (symmetry; apply Nat.eqb_neq; lia).
              split; [lia|]. intros _. split; [lia|reflexivity].
        -- eapply write_inv; try eassumption.
           ++ unfold good, v'. cbn [sw_file sw_flip sw_cap sw_moves]. repeat split; try assumption; apply A1.
           ++ unfold v'. cbn [sw_file]. lia.
           ++ reflexivity.
      * rewrite Hs. cbn [bind]. left. split; [|reflexivity]. split; [|exact Ha].
        apply N.nle_gt. intros Hle. apply (call_in op s (sw_file v) Hop Q1); [rewrite Q2, Q3; exact Hle|exact Ec].
      * contradiction.
    + destruct (nth_error (ss_writers S) w) as [[|]|]; try contradiction; rewrite H; reflexivity.
    + destruct (nth_error (ss_writers S) w) as [[|]|]; try contradiction; rewrite H; reflexivity.
  - pose proof (inv_live m S w I) as H.
    destruct (nth_error (mm_writers m) w) as [[o|]|] eqn:Ew.
    + destruct H as (v & a & s & Hv & -> & G & (Q1 & Q2 & Q3 & Q4) & L). rewrite L, Hv.
      cbn [bind wo_data wo_size wo_pos wo_flip obj].
      unfold ar_read. rewrite G. destruct Q1 as ((X1 & X2 & X3 & X4 & X5 & X6) & X7 & X8).
      replace (0 + ws_size s <=? len (ws_mem s)) with true by lia. cbn [bind].
      exists S. split; [|exact I]. rewrite drop_0. fold (ws_data s).
      assert (Hz : len (ws_data s) = ws_size s) by (unfold ws_data; rewrite len_take; lia).
      rewrite <- X7, Hz, X8, Q2. reflexivity.
    + destruct (nth_error (ss_writers S) w) as [[|]|]; try contradiction; rewrite H; reflexivity.
    + destruct (nth_error (ss_writers S) w) as [[|]|]; try contradiction; rewrite H; reflexivity.
  - pose proof (inv_live m S w I) as H.
    destruct (nth_error (mm_writers m) w) as [[o|]|] eqn:Ew.
    + destruct H as (v & a & s & Hv & -> & G & Q & L). rewrite L, Hv. cbn [bind wo_data wo_size obj].
      eexists. split; [reflexivity|]. apply (view_inv m S w v a s fl I Ew Hv G Q).
    + destruct (nth_error (ss_writers S) w) as [[|]|]; try contradiction; rewrite H; reflexivity.
    + destruct (nth_error (ss_writers S) w) as [[|]|]; try contradiction; rewrite H; reflexivity.
  - pose proof (i_v _ _ I i) as H.
    destruct (nth_error (mm_readers m) i) as [r|] eqn:Er, (nth_error (ss_views S) i) as [u|] eqn:Eu;
      try contradiction; [|reflexivity].
    destruct H as (A1 & A2 & A3 & A4 & A5 & A6 & A7).
    destruct r as [rd rz rp rf]; cbn [ro_size ro_pos ro_flip ro_data] in *; subst rz rp rf.
    assert (Hcall : forall bytes, len bytes = sv_size u ->
      exists x s', rs_call op (RS bytes (sv_pos u) (sv_flip u)) = Done (x, s') /\
        rcall_spec op (RS bytes (sv_pos u) (sv_flip u)) x s' /\ rs_pos s' <= sv_size u).
    { intros bytes Hb.
      destruct (rs_call_total op (RS bytes (sv_pos u) (sv_flip u))) as (x & s' & E1 & E2 & E3 & E4).
      - unfold rs_inv, rs_size. cbn [rs_data rs_pos]. unfold two64. lia.
      - unfold rs_size. cbn [rs_data]. eapply rop_ok_le; [|exact Hok]. lia.
      - exists x, s'. split; [exact E1|]. split; [exact E2|]. destruct E3 as (E3 & _).
        unfold rs_size in *. cbn [rs_data] in E4. lia. }
    assert (Hfin : forall bytes (P : res (sout * sstate) -> Prop), len bytes = sv_size u ->
       (forall x s', rcall_spec op (RS bytes (sv_pos u) (sv_flip u)) x s' -> 
           P (Done (XRead x, SS (ss_writers S)
             (set_nth i (SV (sv_writer u) (sv_moves u) (sv_size u) (rs_pos s') (rs_flip s')) (ss_views S))))) ->
       match (do x <- (do x <- rs_call op (RS bytes (sv_pos u) (sv_flip u));
               let '(out, s) := x in Done (out, RO rd (sv_size u) (rs_pos s) (rs_flip s)));
              let '(out, o1) := x in
              Done (XRead out, MM (mm_areas m) (mm_writers m) (set_nth i o1 (mm_readers m)))) with
       | Done (x, m1) => exists S1, P (Done (x, S1)) /\ inv m1 S1
       | Throw => P Throw | Undef => P Undef end).
    { intros bytes P Hb HP. destruct (Hcall bytes Hb) as (x & s' & E1 & E2 & E3). rewrite E1. cbn [bind].
      eexists. split; [apply HP; exact E2|]. apply (read_inv m S i _ u _ (rs_flip s') I Er Eu E3). }
    unfold ro_call, sees. cbn [ro_size ro_pos ro_flip ro_data].
    assert (Hdead : ar_get (mm_areas m) rd = None ->
      forall P : res (sout * sstate) -> Prop,
       (touches op (sv_size u) (sv_pos u) = true -> P Undef) ->
       (forall x s', touches op (sv_size u) (sv_pos u) = false ->
           rcall_spec op (RS (rep x00 (sv_size u)) (sv_pos u) (sv_flip u)) x s' -> 
           P (Done (XRead x, SS (ss_writers S)
             (set_nth i (SV (sv_writer u) (sv_moves u) (sv_size u) (rs_pos s') (rs_flip s')) (ss_views S))))) ->
       match (do x <- (do bytes <- match ar_get (mm_areas m) rd with
              | Some m => if sv_size u <=? len m then Done (take (sv_size u) m) else Undef
              | None => if touches op (sv_size u) (sv_pos u) then Undef else Done (rep x00 (sv_size u))
              end; do x <- rs_call op (RS bytes (sv_pos u) (sv_flip u));
               let '(out, s) := x in Done (out, RO rd (sv_size u) (rs_pos s) (rs_flip s)));
              let '(out, o1) := x in
              Done (XRead out, MM (mm_areas m) (mm_writers m) (set_nth i o1 (mm_readers m)))) with
       | Done (x, m1) => exists S1, P (Done (x, S1)) /\ inv m1 S1
       | Throw => P Throw | Undef => P Undef end).
    { intros Hn P H1 H2. rewrite Hn.
      destruct (touches op (sv_size u) (sv_pos u)); cbn [bind]; [apply H1; reflexivity|].
      apply Hfin; [apply len_rep|]. intros x s' Hx. apply H2; [reflexivity|exact Hx]. }
    destruct (nth_error (ss_writers S) (sv_writer u)) as [[w0|]|] eqn:Ewr; [| |contradiction].
    + destruct A7 as (B1 & B2 & B3).
      destruct (Nat.eqb_spec (sw_moves w0) (sv_moves u)) as [Em|Em].
      * destruct (B2 (eq_sym Em)) as (C1 & o & C2 & C3).
        pose proof (i_w _ _ I (sv_writer u)) as Hw. rewrite C2, Ewr in Hw. cbn [wrel] in Hw.
        destruct Hw as (a & s & -> & G & (Q1 & Q2 & Q3 & Q4)). cbn in C3. injection C3 as C3. subst a. rewrite G.
        pose proof (ws_abs_size _ _ Q1) as Z. destruct Q1 as ((X1 & X2 & X3 & X4 & X5 & X6) & X7 & X8).
        replace (sv_size u <=? len (ws_mem s)) with true by lia. cbn [bind].
        assert (Et : take (sv_size u) (ws_mem s) = take (sv_size u) (f_bytes (sw_file w0))).
        { rewrite <- X7. unfold ws_data. rewrite take_take. f_equal. lia. }
        rewrite Et.
        apply (Hfin (take (sv_size u) (f_bytes (sw_file w0)))
          (fun r => exists x s', rcall_spec op (RS (take (sv_size u) (f_bytes (sw_file w0))) (sv_pos u) (sv_flip u)) x s' /\ r = Done (XRead x, SS (ss_writers S)
             (set_nth i (SV (sv_writer u) (sv_moves u) (sv_size u) (rs_pos s') (rs_flip s')) (ss_views S))))).
        -- rewrite len_take. lia.
        -- intros x s' Hx. exists x, s'. split; [exact Hx|reflexivity].
      * apply (Hdead (B3 (not_eq_sym Em)) (fun r => touches op (sv_size u) (sv_pos u) = true /\ r = Undef \/
            touches op (sv_size u) (sv_pos u) = false /\
            exists x s', rcall_spec op (RS (rep x00 (sv_size u)) (sv_pos u) (sv_flip u)) x s' /\
              r = Done (XRead x, SS (ss_writers S)
                (set_nth i (SV (sv_writer u) (sv_moves u) (sv_size u) (rs_pos s') (rs_flip s')) (ss_views S))))).
        -- intros Ht. left. split; [exact Ht|reflexivity].
        -- intros x s' Ht Hx. right. split; [exact Ht|]. exists x, s'. split; [exact Hx|reflexivity].
    + apply (Hdead A7 (fun r => touches op (sv_size u) (sv_pos u) = true /\ r = Undef \/
            touches op (sv_size u) (sv_pos u) = false /\
            exists x s', rcall_spec op (RS (rep x00 (sv_size u)) (sv_pos u) (sv_flip u)) x s' /\
              r = Done (XRead x, SS (ss_writers S)
                (set_nth i (SV (sv_writer u) (sv_moves u) (sv_size u) (rs_pos s') (rs_flip s')) (ss_views S))))).
      -- intros Ht. left. split; [exact Ht|reflexivity].
      -- intros x s' Ht Hx. right. split; [exact Ht|]. exists x, s'. split; [exact Hx|reflexivity].
Qed.

Definition outs (r : res (list sout * mem)) : res (list sout) := do x <- r; Done (fst x).

Lemma run_ok cs : forall m S, inv m S -> Forall (scmd_ok lim) cs ->
  s_run lim cs S (outs (m_run lim cs m)) /\
  match m_run lim cs m with Done (_, m') => exists S', inv m' S' | _ => True end.
Proof.
  induction cs as [|c cs IH]; intros m S I Hok.
  - cbn. split; [reflexivity|]. exists S. exact I.
  - inversion Hok as [|? ? Hc Hcs]; subst. cbn [m_run s_run].
    pose proof (step_ok c m S I Hc) as H.
    destruct (m_step lim c m) as [[x m1]| |]; cbn [bind].
    + destruct H as (S1 & Hs & I1). destruct (IH m1 S1 I1 Hcs) as (R1 & R2).
      split.
      * right. right. exists x, S1, (outs (m_run lim cs m1)). split; [exact Hs|]. split; [exact R1|].
        unfold outs. destruct (m_run lim cs m1) as [[xs m2]| |]; reflexivity.
      * destruct (m_run lim cs m1) as [[xs m2]| |]; cbn [bind]; exact R2.
    + split; [|exact Logic.I]. right. left. split; [exact H|reflexivity].
    + split; [|exact Logic.I]. left. split; [exact H|reflexivity].
Qed.
End Prog.

(** ** Consequences *)
Lemma c61_streams_and_views : forall lim cs,
  lim <= 2 ^ 62 -> Forall (scmd_ok lim) cs ->
  s_run lim cs s_none (do x <- m_run lim cs m_none; Done (fst x)).
Proof. intros lim cs Hl Hok. apply (run_ok lim Hl cs m_none s_none (inv_none lim) Hok). Qed.

Lemma c61_owned : forall lim cs xs m,
  lim <= 2 ^ 62 -> Forall (scmd_ok lim) cs -> m_run lim cs m_none = Done (xs, m) ->
  (forall w o, nth_error (mm_writers m) w = Some (Some o) ->
     exists a x, wo_data o = Some a /\ ar_get (mm_areas m) a = Some x) /\
  (forall w w' o o' a, nth_error (mm_writers m) w = Some (Some o) -> nth_error (mm_writers m) w' = Some (Some o') ->
     wo_data o = Some a -> wo_data o' = Some a -> w = w') /\
  (forall a x, ar_get (mm_areas m) a = Some x ->
     exists w o, nth_error (mm_writers m) w = Some (Some o) /\ wo_data o = Some a).
Proof.
  intros lim cs xs m Hl Hok E.
  destruct (run_ok lim Hl cs m_none s_none (inv_none lim) Hok) as (_ & H). rewrite E in H.
  destruct H as (S & I). split; [|split].
  - intros w o Hw. pose proof (i_w _ _ _ I w) as H. rewrite Hw in H. unfold wrel in H.
    destruct (nth_error (ss_writers S) w) as [[v|]|]; try contradiction.
    destruct H as (a & s & -> & G & _). exists a, (ws_mem s). auto.
  - intros w w' o o' a. apply (i_own _ _ _ I).
  - apply (i_leak _ _ _ I).
Qed.

Lemma c61_nothing_left : forall lim cs xs m,
  lim <= 2 ^ 62 -> Forall (scmd_ok lim) cs -> m_run lim cs m_none = Done (xs, m) ->
  Forall (fun o => o = None) (mm_writers m) -> Forall (fun x => x = None) (mm_areas m).
Proof.
  intros lim cs xs m Hl Hok E Hn.
  destruct (c61_owned lim cs xs m Hl Hok E) as (_ & _ & H).
  apply Forall_forall. intros [x|] Hx; [|reflexivity].
  apply In_nth_error in Hx. destruct Hx as (a & Ha).
  destruct (H a x) as (w & o & Hw & _); [unfold ar_get; rewrite Ha; reflexivity|].
  rewrite Forall_forall in Hn. apply nth_error_In in Hw. specialize (Hn _ Hw). discriminate.
Qed.

(** One write stream that stays within its initial size. *)
Lemma within lim init cs : forall views v S r,
  Forall (scmd_ok lim) cs -> one_writer views cs ->
  ss_writers S = [Some v] -> length (ss_views S) = views ->
  Forall (fun u => sv_writer u = 0%nat /\ sv_moves u = sw_moves v) (ss_views S) ->
  sw_cap v = init -> 
  Forall (fun n => n <= init) (f_sizes (sw_file v, sw_flip v) (writes cs)) ->
  s_run lim cs S r -> exists xs, r = Done xs.
Proof.
  induction cs as [|c cs IH]; intros views v S r Hok H1 HS HV HF Hc Hsz Hr.
  - cbn in Hr. exists []. exact Hr.
  - inversion Hok as [|? ? Hcok Hcs]; subst. cbn [s_run] in Hr.
    destruct S as [SW0 SV0]. cbn [ss_writers ss_views] in *. subst SW0.
    destruct c as [i|w|w|[|w] op|[|w]|[|w] fl|i op]; cbn [one_writer] in H1; try contradiction.
    + cbn [writes f_sizes] in Hsz. cbv zeta in Hsz.
      pose proof (Forall_inv Hsz) as Hs1. pose proof (Forall_inv_tail Hsz) as Hs2. cbv beta in Hs1.
      cbn [s_step ss_writers ss_views nth_error] in Hr.
      destruct Hr as [[Hu Hr]|[[Hu Hr]|(x & S1 & r' & Hu & Hrun & ->)]].
      * destruct Hu as [(_ & Hu)|(v' & _ & Hu)]; discriminate.
      * destruct Hu as [(Hu & _)|(v' & _ & Hu)]; [lia|discriminate].
      * destruct Hu as [(_ & Hu)|(v' & (G1 & G2 & G3 & G4) & Hu)]; [discriminate|].
        injection Hu as -> ->. cbn [set_nth] in Hrun.
        destruct (G3 Hs1) as (G5 & G6).
        destruct (IH (length SV0) v' (SS [Some v'] SV0) r' Hcs H1 eq_refl eq_refl) as (xs & ->); cbn [ss_views].
        -- rewrite G6. exact HF.
        -- exact G5.
        -- rewrite G1, G2, <- surjective_pairing. rewrite G5 in *. exact Hs2.
        -- exact Hrun.
        -- eexists. reflexivity.
    + cbn [s_step ss_writers ss_views nth_error] in Hr. cbn [writes] in Hsz.
      destruct Hr as [[Hu Hr]|[[Hu Hr]|(x & S1 & r' & Hu & Hrun & ->)]]; [discriminate..|].
      injection Hu as -> ->.
      destruct (IH (length SV0) v (SS [Some v] SV0) r' Hcs H1 eq_refl eq_refl HF eq_refl Hsz Hrun) as (xs & ->).
      eexists. reflexivity.
    + cbn [s_step ss_writers ss_views nth_error] in Hr. cbn [writes] in Hsz.
      destruct Hr as [[Hu Hr]|[[Hu Hr]|(x & S1 & r' & Hu & Hrun & ->)]]; [discriminate..|].
      injection Hu as -> ->.
      destruct (IH (S (length SV0)) v (SS [Some v] (SV0 ++ [SV 0 (sw_moves v) (len (f_bytes (sw_file v))) 0 fl])) r' Hcs H1 eq_refl) as (xs & ->); cbn [ss_views].
      * rewrite app_length. cbn. lia.
      * apply Forall_app. split; [exact HF|]. constructor; [|constructor]. split; reflexivity.
      * reflexivity.
      * exact Hsz.
      * exact Hrun.
      * eexists. reflexivity.
    + destruct H1 as (Hi & H1). cbn [s_step ss_writers ss_views] in Hr. cbn [writes] in Hsz.
      destruct (nth_error SV0 i) as [u|] eqn:Eu; [|apply nth_error_None in Eu; lia].
      assert (Hu0 : sv_writer u = 0%nat /\ sv_moves u = sw_moves v).
      { rewrite Forall_forall in HF. apply HF. eapply nth_error_In. exact Eu. }
      destruct Hu0 as (U1 & U2).
      unfold sees in Hr. cbn [ss_writers] in Hr. rewrite U1, U2 in Hr. cbn [nth_error] in Hr.
      rewrite Nat.eqb_refl in Hr.
      destruct Hr as [[Hu Hr]|[[Hu Hr]|(x & S1 & r' & Hu & Hrun & ->)]].
      * destruct Hu as (? & ? & _ & Hu). discriminate.
      * destruct Hu as (? & ? & _ & Hu). discriminate.
      * destruct Hu as (y & s' & _ & Hu). injection Hu as -> ->.
        destruct (IH (length SV0) v (SS [Some v] (set_nth i (SV 0 (sw_moves v) (sv_size u) (rs_pos s') (rs_flip s')) SV0)) r' Hcs H1 eq_refl) as (xs & ->); cbn [ss_views].
        -- apply length_set_nth.
        -- rewrite Forall_forall in *. intros z Hz. apply In_nth_error in Hz. destruct Hz as (j & Hj).
           rewrite nth_set in Hj. destruct ((i =? j) && (i <? length SV0))%nat.
           ++ injection Hj as <-. split; reflexivity.
           ++ apply HF. eapply nth_error_In. exact Hj.
        -- reflexivity.
        -- exact Hsz.
        -- exact Hrun.
        -- eexists. reflexivity.
Qed.

Lemma c61_within_room : forall lim init cs,
  0 < init -> init <= lim -> lim <= 2 ^ 62 -> Forall (scmd_ok lim) cs -> one_writer 0 cs ->
  Forall (fun n => n <= init) (f_sizes (File [] 0, false) (writes cs)) ->
  exists xs m, m_run lim (SNew init :: cs) m_none = Done (xs, m).
Proof.
  intros lim init cs H0 Hl Hb Hok H1 Hsz.
  pose proof (c61_streams_and_views lim (SNew init :: cs) Hb) as H.
  specialize (H ltac:(constructor; [exact Logic.I|exact Hok])).
  assert (Q : exists xs, (do x <- m_run lim (SNew init :: cs) m_none; Done (fst x)) = Done xs).
  { cbn [s_run] in H. remember (do x <- m_run lim (SNew init :: cs) m_none; Done (fst x)) as r eqn:Er. clear Er.
    cbn [s_step s_none ss_writers ss_views app] in H.
    destruct H as [[Hu Hr]|[[Hu Hr]|(x & S1 & r' & Hu & Hrun & ->)]].
    - destruct Hu as [(_ & Hu)|(_ & Hu)]; discriminate.
    - destruct Hu as [(Hu & _)|(_ & Hu)]; [lia|discriminate].
    - destruct Hu as [(_ & Hu)|(_ & Hu)]; [discriminate|]. injection Hu as -> ->.
      destruct (within lim init cs 0%nat (SW (File [] 0) false init 0) (SS [Some (SW (File [] 0) false init 0)] []) r' Hok H1 eq_refl eq_refl) as (xs & ->).
      + constructor.
      + reflexivity.
      + exact Hsz.
      + exact Hrun.
      + eexists. reflexivity. }
  destruct Q as (xs & E). destruct (m_run lim (SNew init :: cs) m_none) as [[ys m]| |]; try discriminate.
  exists ys, m. reflexivity.
Qed.

(** A program may not go on with a view when the write stream has moved or is gone. *)
Lemma c61_grown_refuted :
  m_run 64 [SNew 4; SWrite 0 (OWrite (KW W32) [SInt W32 7]); SView 0 false;
            SWrite 0 (OWrite (KW W8) [SInt W8 1]); SRead 0 (RRead (KW W32) 1 (rep x00 4))] m_none = Undef.
Proof. vm_compute. reflexivity. Qed.
Lemma c61_gone_refuted :
  m_run 64 [SNew 4; SWrite 0 (OWrite (KW W32) [SInt W32 7]); SView 0 false; SDel 0; SRead 0 RPeek] m_none = Undef.
Proof. vm_compute. reflexivity. Qed.
Lemma c61_copy_refuted :
  m_run 64 [SNew 4; SCopy 0; SDel 0; SDel 1] m_none = Undef /\
  m_run 64 [SNew 4; SCopy 0; SDel 1; SWrite 0 (OWrite (KW W8) [SInt W8 1])] m_none = Undef /\
  m_run 64 [SNew 4; SCopy 0; SWrite 0 (OWrite (KW W64) [SInt W64 1]); SWrite 1 (OWrite (KW W8) [SInt W8 1])] m_none = Undef.
Proof. vm_compute. auto. Qed.

(** ** What a view sees *)
Lemma c61_appending : forall f fl o n,
  n <= f_pos f -> f_pos f <= len (f_bytes f) ->
  take n (f_bytes (fst (f_step (f, fl) o))) = take n (f_bytes f).
Proof.
  intros f fl o n H1 H2. destruct o as [k xs|p|b]; cbn [f_step fst f_put f_seek f_bytes]; [| |reflexivity].
  - rewrite take_app_le by (rewrite len_take; lia). rewrite take_take. f_equal. lia.
  - apply take_app_le. lia.
Qed.
Lemma c61_isolated : forall lim w op S x S1 v,
  s_step lim (SWrite w op) S (Done (x, S1)) -> sv_writer v <> w -> sees S1 v = sees S v.
Proof.
  intros lim w op S x S1 v H Hn. cbn [s_step] in H.
  destruct (nth_error (ss_writers S) w) as [[u|]|]; try discriminate.
  destruct H as [(_ & H)|(v' & _ & H)]; [discriminate|]. injection H as -> ->.
  unfold sees. cbn [ss_writers]. rewrite nth_set_other by congruence. reflexivity.
Qed.
