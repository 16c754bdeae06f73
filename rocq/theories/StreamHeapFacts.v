(** * StreamHeapFacts: the write stream in memory does what the write stream of Streams.v does (C61, proofs only). *)
From Verif Require Import Base Bytes BytesFacts Values Streams FileSpec ReadSpec StreamFacts StreamProps
  StreamHeap StreamHeapSpec.
Open Scope N_scope.

(** ** Lists and areas *)
Lemma length_set_nth {A} i (a : A) l : length (set_nth i a l) = length l.
Proof. revert i; induction l as [|x l IH]; intros [|i]; cbn; auto. Qed.
Lemma nth_set_same {A} i (a : A) l : (i < length l)%nat -> nth_error (set_nth i a l) i = Some a.
Proof. revert i; induction l as [|x l IH]; intros [|i] H; cbn in *; try lia; auto. apply IH. lia. Qed.
Lemma nth_set_other {A} i j (a : A) l : i <> j -> nth_error (set_nth i a l) j = nth_error l j.
Proof. revert i j; induction l as [|x l IH]; intros [|i] [|j] H; cbn; auto; try congruence. Qed.
Lemma nth_lt {A} (l : list A) i x : nth_error l i = Some x -> (i < length l)%nat.
Proof. intros H. apply nth_error_Some. congruence. Qed.

Lemma ar_get_lt h a m : ar_get h a = Some m -> (a < length h)%nat.
Proof. unfold ar_get. intros H. destruct (nth_error h a) eqn:E; [eapply nth_lt; exact E|discriminate]. Qed.
Lemma ar_get_set h a x : (a < length h)%nat -> ar_get (set_nth a x h) a = x.
Proof. intros H. unfold ar_get. rewrite nth_set_same by exact H. destruct x; reflexivity. Qed.
Lemma ar_get_set_other h a b x : a <> b -> ar_get (set_nth a x h) b = ar_get h b.
Proof. intros H. unfold ar_get. rewrite nth_set_other by exact H. reflexivity. Qed.
Lemma ar_get_beyond h a : (length h <= a)%nat -> ar_get h a = None.
Proof. intros H. unfold ar_get. apply nth_error_None in H. rewrite H. reflexivity. Qed.
Lemma ar_get_app h x a : (a < length h)%nat -> ar_get (h ++ [x]) a = ar_get h a.
Proof. intros H. unfold ar_get. rewrite nth_error_app1 by exact H. reflexivity. Qed.
Lemma ar_get_last h x : ar_get (h ++ [x]) (length h) = x.
Proof. unfold ar_get. rewrite nth_error_app2, Nat.sub_diag by lia. destruct x; reflexivity. Qed.

Lemma ar_write_ok a pos bs h m :
  ar_get h a = Some m ->
  ar_write a pos bs h = if pos + len bs <=? len m
     then Done (set_nth a (Some (take pos m ++ bs ++ drop (pos + len bs) m)) h) else Undef.
Proof. intros H. unfold ar_write. rewrite H. reflexivity. Qed.

Section Heap.
Context (lim : N) (Hlim : lim <= 2 ^ 62).

(** The areas behave around one write stream: [a] is its area before, [a'] behind. *)
Definition tr (h : areas) (a : nat) (s : wstream) (h' : areas) (a' : nat) (s' : wstream) : Prop :=
  (length h <= length h')%nat /\
  (forall b, (b < length h)%nat -> b <> a -> ar_get h' b = ar_get h b) /\
  (forall b, (length h <= b)%nat -> b <> a' -> ar_get h' b = None) /\
  ws_size s <= ws_size s' /\
  (a' = a /\ ws_res s' = ws_res s \/
   (length h <= a')%nat /\ ar_get h' a = None /\ ws_res s < ws_size s').

Definition wk (s : wstream) : Prop :=
  len (ws_mem s) = ws_res s /\ ws_size s <= ws_res s /\ ws_res s <= lim /\ ws_lim s = lim.

Definition obj (a : nat) (s : wstream) : wobj := WO (Some a) (ws_size s) (ws_pos s) (ws_res s) (ws_flip s).

Definition sims h a s (x : res (areas * wobj)) (y : res wstream) : Prop :=
  match y with
  | Throw => x = Throw
  | Undef => x = Undef
  | Done s' => exists h' a', x = Done (h', obj a' s') /\ ar_get h' a' = Some (ws_mem s') /\ wk s' /\
                 tr h a s h' a' s'
  end.

Lemma tr_trans h a s h1 a1 s1 h2 a2 s2 :
  (a < length h)%nat -> (a1 < length h1)%nat ->
  tr h a s h1 a1 s1 -> wk s1 -> tr h1 a1 s1 h2 a2 s2 -> tr h a s h2 a2 s2.
Proof.
  intros Ha Ha1 (A1 & A2 & A3 & A4 & A5) W (B1 & B2 & B3 & B4 & B5). unfold tr. unfold wk in W.
  split; [lia|]. split; [|split; [|split; [lia|]]].
  - intros b Hb Hne. destruct (Nat.eq_dec b a1) as [->|Hn].
    + destruct A5 as [[-> _]|(X & _)]; [congruence|lia].
    + rewrite B2 by (try exact Hn; lia). apply A2; assumption.
  - intros b Hb Hne. destruct (Nat.lt_ge_cases b (length h1)) as [Hl|Hl]; [|apply B3; assumption].
    destruct (Nat.eq_dec b a1) as [->|Hn].
    + destruct B5 as [[E _]|(X & Y & _)]; [congruence|exact Y].
    + rewrite B2 by assumption. apply A3; assumption.
  - destruct A5 as [[-> E]|(X & Y & Z)], B5 as [[-> E']|(X' & Y' & Z')].
    + left. split; [reflexivity|congruence].
    + right. split; [lia|]. split; [exact Y'|]. lia.
    + right. split; [lia|]. split; [|lia].
      destruct (Nat.eq_dec a a1) as [->|Hn]; [lia|]. rewrite B2 by (try exact Hn; lia). exact Y.
    + right. split; [lia|]. split; [|lia].
      destruct (Nat.eq_dec a a1) as [->|Hn]; [exact Y'|]. rewrite B2 by (try exact Hn; lia). exact Y.
Qed.

Lemma tr_refl h a s m : ar_get h a = Some m -> tr h a s h a s.
Proof.
  intros Ha. unfold tr. split; [lia|]. split; [reflexivity|]. split; [|split; [lia|left; auto]].
  intros b Hb Hn. apply ar_get_beyond. exact Hb.
Qed.

Lemma sims_bind h a s x y F G :
  (a < length h)%nat ->
  sims h a s x y ->
  (forall h' a' s', ar_get h' a' = Some (ws_mem s') -> wk s' -> tr h a s h' a' s' ->
     sims h' a' s' (F (h', obj a' s')) (G s')) ->
  sims h a s (bind x F) (bind y G).
Proof.
  intros Ha H HF. destruct y as [s1| |]; cbn [sims bind] in *; [|subst x; reflexivity..].
  destruct H as (h1 & a1 & -> & G1 & W1 & T1). cbn [bind].
  specialize (HF h1 a1 s1 G1 W1 T1). pose proof (ar_get_lt _ _ _ G1) as L1.
  destruct (G s1) as [s2| |]; cbn [sims] in *; try assumption.
  destruct HF as (h2 & a2 & E & G2 & W2 & T2). exists h2, a2.
  split; [exact E|]. split; [exact G2|]. split; [exact W2|].
  eapply tr_trans; eassumption.
Qed.

(** Same area, same sizes, other content or position. *)
Lemma tr_same h a s m s' :
  (a < length h)%nat -> ws_size s' = ws_size s -> ws_res s' = ws_res s ->
  tr h a s (set_nth a m h) a s'.
Proof.
  intros Ha E1 E2. unfold tr. rewrite length_set_nth. split; [lia|].
  split; [intros b _ Hn; apply ar_get_set_other; congruence|].
  split; [intros b Hb _; apply ar_get_beyond; rewrite length_set_nth; exact Hb|].
  split; [lia|]. left. auto.
Qed.

(** ** ReserveForSize and Resize *)
Lemma resize_sims n h a s :
  ar_get h a = Some (ws_mem s) -> wk s -> ws_size s <= n ->
  sims h a s (ho_resize lim n h (obj a s)) (thrown (ws_resize n s)).
Proof.
  intros G W Hn. pose proof (ar_get_lt _ _ _ G) as La. destruct W as (W1 & W2 & W3 & W4).
  unfold ho_resize, ws_resize. cbn [wo_res obj].
  destruct (N.ltb_spec (ws_res s) n) as [Hlt|Hge].
  - unfold ho_reserve, ws_reserve, ar_alloc. cbn [wo_res obj wo_data wo_size wo_pos wo_flip].
    rewrite W4.
    assert (Hm : mul64 (ws_res s) 2 = ws_res s * 2) by (apply mul64_small; unfold two64; lia).
    rewrite Hm. set (d := if ws_res s * 2 <? n then n else ws_res s * 2).
    assert (Hd : n <= d) by (unfold d; destruct (N.ltb_spec (ws_res s * 2) n); lia).
    destruct ((0 <? d) && (d <=? lim)) eqn:E; cbn [bind thrown sims]; [|reflexivity].
    apply andb_true_iff in E. destruct E as (E1 & E2).
    unfold ar_read. rewrite ar_get_app by exact La. rewrite G.
    replace (0 + ws_size s <=? len (ws_mem s)) with true by lia. cbn [bind].
    rewrite drop_0.
    assert (Lt : len (take (ws_size s) (ws_mem s)) = ws_size s) by (rewrite len_take; lia).
    rewrite (ar_write_ok _ _ _ _ (rep x00 d)) by apply ar_get_last.
    rewrite Lt, len_rep. replace (0 + ws_size s <=? d) with true by lia. cbn [bind].
    rewrite take_0. cbn [app].
    unfold ar_free. rewrite ar_get_set_other by lia. rewrite ar_get_app by exact La. rewrite G. cbn [bind].
    eexists _, (length h). split; [reflexivity|]. cbn [ws_mem].
    split; [|split].
    + rewrite ar_get_set_other by lia. rewrite ar_get_set by (rewrite app_length; cbn; lia).
      f_equal. f_equal. rewrite drop_rep. f_equal.
    + unfold wk. cbn [ws_mem ws_size ws_res ws_lim]. rewrite len_app, Lt, len_rep. lia.
    + unfold tr. cbn [ws_size ws_res]. rewrite !length_set_nth, app_length. cbn [length].
      split; [lia|]. split; [|split; [|split; [lia|]]].
      * intros b Hb Hne. rewrite !ar_get_set_other by lia. apply ar_get_app. exact Hb.
      * intros b Hb Hne. rewrite !ar_get_set_other by lia. apply ar_get_beyond. rewrite app_length. cbn. lia.
      * right. split; [lia|]. split; [|lia].
        apply ar_get_set. rewrite length_set_nth, app_length. cbn. lia.
  - cbn [bind thrown sims]. eexists h, a. split; [reflexivity|]. cbn [ws_mem].
    split; [exact G|]. split; [unfold wk; cbn; lia|].
    destruct (tr_refl h a s _ G) as (T1 & T2 & T3 & T4 & T5).
    unfold tr. cbn [ws_size ws_res]. repeat split; try assumption. left; auto.
Qed.

Lemma thrown_if (c : bool) n s :
  (let '(ok, s1) := if c then ws_resize n s else (true, s) in
   if ok then Done s1 else Throw) = if c then thrown (ws_resize n s) else Done s.
Proof. destruct c; [unfold thrown|]; reflexivity. Qed.

Lemma maybe_resize_sims n h a s :
  ar_get h a = Some (ws_mem s) -> wk s ->
  sims h a s (if ws_size s <? n then ho_resize lim n h (obj a s) else Done (h, obj a s))
             (if ws_size s <? n then thrown (ws_resize n s) else Done s).
Proof.
  intros G W. destruct (N.ltb_spec (ws_size s) n).
  - apply resize_sims; try assumption. lia.
  - cbn [sims]. exists h, a. split; [reflexivity|]. split; [exact G|]. split; [exact W|]. eapply tr_refl; exact G.
Qed.

(** ** WriteRawData *)
Lemma raw_as_bind src s :
  thrown_res (ws_raw src s) =
  do s1 <- (if ws_size s <? add64 (ws_pos s) (len src) then thrown (ws_resize (add64 (ws_pos s) (len src)) s) else Done s);
  if ws_pos s1 + len src <=? len (ws_mem s1)
  then Done (WS (take (ws_pos s1) (ws_mem s1) ++ src ++ drop (ws_pos s1 + len src) (ws_mem s1))
                (ws_size s1) (add64 (ws_pos s) (len src)) (ws_res s1) (ws_flip s1) (ws_lim s1))
  else Undef.
Proof.
  unfold thrown_res, ws_raw. destruct (_ <? _).
  - destruct (ws_resize _ s) as [[] s1]; cbn [thrown bind]; [|reflexivity].
    destruct (_ <=? _); reflexivity.
  - cbn [bind]. destruct (_ <=? _); reflexivity.
Qed.

Lemma raw_sims src h a s :
  ar_get h a = Some (ws_mem s) -> wk s ->
  sims h a s (ho_raw lim src h (obj a s)) (thrown_res (ws_raw src s)).
Proof.
  intros G W. rewrite raw_as_bind. unfold ho_raw. cbn [wo_pos wo_size obj].
  apply sims_bind; [eapply ar_get_lt; exact G|apply maybe_resize_sims; assumption|].
  intros h1 a1 s1 G1 W1 T1. cbn [obj wo_data wo_pos wo_size wo_res wo_flip].
  pose proof (ar_get_lt _ _ _ G1) as L1.
  rewrite (ar_write_ok _ _ _ _ _ G1).
  destruct (N.leb_spec (ws_pos s1 + len src) (len (ws_mem s1))) as [Hle|Hgt]; cbn [bind sims]; [|reflexivity].
  eexists _, a1. split; [reflexivity|]. cbn [ws_mem].
  split; [apply ar_get_set; exact L1|]. split.
  - destruct W1 as (X1 & X2 & X3 & X4). unfold wk. cbn [ws_mem ws_size ws_res ws_lim].
    rewrite !len_app, len_take, len_drop. lia.
  - apply tr_same; [exact L1|reflexivity..].
Qed.

(** ** WriteValues *)
Lemma swap_words_prefix w c l :
  N.of_nat c * wbytes w <= len l ->
  swap_words w c l = swap_words w c (take (N.of_nat c * wbytes w) l) ++ drop (N.of_nat c * wbytes w) l.
Proof.
  intros H. rewrite <- (take_drop (N.of_nat c * wbytes w) l) at 1.
  apply swap_words_app. rewrite len_take. lia.
Qed.

Definition swap_step (w : wsize) (count pos : N) (fl : bool) (s1 : wstream) : res wstream :=
  match w with
  | W8 => Done s1
  | _ =>
    if fl then
      if pos + count * wbytes w <=? len (ws_mem s1)
      then Done (WS (take pos (ws_mem s1) ++ swap_words w (N.to_nat count) (drop pos (ws_mem s1)))
                          (ws_size s1) (ws_pos s1) (ws_res s1) (ws_flip s1) (ws_lim s1))
      else Undef
    else Done s1
  end.

Lemma words_as_bind w count src s :
  thrown_res (ws_words w count src s) =
  let n := match w with W8 => count | _ => mul64 count (wbytes w) end in
  if len src <? n then Undef else
  do s1 <- thrown_res (ws_raw (take n src) s); swap_step w count (ws_pos s) (ws_flip s) s1.
Proof.
  unfold thrown_res, ws_words. cbv zeta. set (n := match w with W8 => count | _ => mul64 count (wbytes w) end).
  destruct (len src <? n); [reflexivity|].
  destruct (ws_raw (take n src) s) as [[[] s1]| |]; cbn [bind thrown]; try reflexivity;
    destruct w; cbn [bind thrown andb swap_step]; try reflexivity;
    destruct (ws_flip s); cbn [bind thrown]; try reflexivity;
    destruct (_ <=? _); reflexivity.
Qed.

Lemma swap_sims w count pos (fl : bool) h a s :
  ar_get h a = Some (ws_mem s) -> wk s ->
  sims h a s
    (match w with
     | W8 => Done (h, obj a s)
     | _ => if fl then
        match Some a with
        | None => Undef
        | Some a =>
          do bs <- ar_read a pos (count * wbytes w) h;
          do h2 <- ar_write a pos (swap_words w (N.to_nat count) bs) h;
          Done (h2, obj a s)
        end
       else Done (h, obj a s)
     end) (swap_step w count pos fl s).
Proof.
  intros G W. pose proof (ar_get_lt _ _ _ G) as La.
  assert (R : sims h a s (Done (h, obj a s)) (Done s)).
  { cbn [sims]. exists h, a. split; [reflexivity|]. split; [exact G|]. split; [exact W|]. eapply tr_refl; exact G. }
  assert (Q : forall w, sims h a s
      (if fl then do bs <- ar_read a pos (count * wbytes w) h;
          do h2 <- ar_write a pos (swap_words w (N.to_nat count) bs) h;
          Done (h2, obj a s) else Done (h, obj a s))
      (if fl then
      if pos + count * wbytes w <=? len (ws_mem s)
      then Done (WS (take pos (ws_mem s) ++ swap_words w (N.to_nat count) (drop pos (ws_mem s)))
                          (ws_size s) (ws_pos s) (ws_res s) (ws_flip s) (ws_lim s))
      else Undef
    else Done s)).
  { clear w. intros w. destruct fl; [|exact R]. unfold ar_read. rewrite G.
    destruct (N.leb_spec (pos + count * wbytes w) (len (ws_mem s))) as [Hle|Hgt]; cbn [bind sims]; [|reflexivity].
    set (t := take (count * wbytes w) (drop pos (ws_mem s))).
    assert (Lt : len t = count * wbytes w) by (unfold t; rewrite len_take, len_drop; lia).
    assert (Ls : len (swap_words w (N.to_nat count) t) = count * wbytes w)
      by (rewrite len_swap_words; [exact Lt|rewrite Lt; lia]).
    rewrite (ar_write_ok _ _ _ _ _ G), Ls.
    replace (pos + count * wbytes w <=? len (ws_mem s)) with true by lia. cbn [bind].
    assert (E : take pos (ws_mem s) ++ swap_words w (N.to_nat count) t ++ drop (pos + count * wbytes w) (ws_mem s)
                = take pos (ws_mem s) ++ swap_words w (N.to_nat count) (drop pos (ws_mem s))).
    { f_equal. rewrite (swap_words_prefix w (N.to_nat count) (drop pos (ws_mem s))) by (rewrite len_drop; lia).
      replace (N.of_nat (N.to_nat count)) with count by lia. fold t. f_equal. rewrite drop_drop. f_equal. lia. }
    eexists _, a. split; [reflexivity|]. cbn [ws_mem]. rewrite E.
    split; [apply ar_get_set; exact La|]. split; [|apply tr_same; [exact La|reflexivity..]].
    destruct W as (W1 & W2 & W3 & W4). unfold wk. cbn [ws_mem ws_size ws_res ws_lim].
    rewrite <- E, !len_app, Ls, len_take, len_drop. lia. }
  destruct w; cbn [swap_step]; [exact R|apply Q..].
Qed.

Lemma words_sims w count src h a s :
  ar_get h a = Some (ws_mem s) -> wk s ->
  sims h a s (ho_words lim w count src h (obj a s)) (thrown_res (ws_words w count src s)).
Proof.
  intros G W. rewrite words_as_bind. unfold ho_words. cbv zeta.
  set (n := match w with W8 => count | _ => mul64 count (wbytes w) end).
  destruct (len src <? n); [reflexivity|].
  apply sims_bind; [eapply ar_get_lt; exact G|apply raw_sims; assumption|].
  intros h1 a1 s1 G1 W1 T1. cbn [wo_flip wo_pos wo_data obj].
  pose proof (swap_sims w count (ws_pos s) (ws_flip s) h1 a1 s1 G1 W1) as H. exact H.
Qed.

Lemma uuids_sims c : forall src h a s,
  ar_get h a = Some (ws_mem s) -> wk s ->
  sims h a s (ho_uuids lim c src h (obj a s)) (ws_uuids c src s).
Proof.
  induction c as [|c IH]; intros src h a s G W; cbn [ho_uuids ws_uuids].
  - cbn [sims]. exists h, a. split; [reflexivity|]. split; [exact G|]. split; [exact W|]. eapply tr_refl; exact G.
  - destruct (len src <? 16); [reflexivity|].
    apply sims_bind; [eapply ar_get_lt; exact G|apply words_sims; assumption|].
    intros h1 a1 s1 G1 W1 T1. apply IH; assumption.
Qed.

Lemma setpos_sims p h a s :
  ar_get h a = Some (ws_mem s) -> wk s ->
  sims h a s (ho_setpos lim p h (obj a s)) (thrown (ws_setpos p s)).
Proof.
  intros G W.
  replace (thrown (ws_setpos p s)) with
   (do s1 <- (if ws_size s <? p then thrown (ws_resize p s) else Done s);
    Done (WS (ws_mem s1) (ws_size s1) p (ws_res s1) (ws_flip s1) (ws_lim s1))).
  2:{ unfold ws_setpos. destruct (_ <? _); [|reflexivity]. destruct (ws_resize p s) as [[] s1]; reflexivity. }
  unfold ho_setpos. cbn [wo_size obj].
  apply sims_bind; [eapply ar_get_lt; exact G|apply maybe_resize_sims; assumption|].
  intros h1 a1 s1 G1 W1 T1. cbn [sims]. eexists h1, a1. split; [reflexivity|]. cbn [ws_mem].
  split; [exact G1|]. split; [exact W1|].
  destruct (tr_refl h1 a1 s1 _ G1) as (X1 & X2 & X3 & X4 & X5).
  unfold tr. cbn [ws_size ws_res]. repeat split; try assumption.
Qed.

Lemma call_sims o h a s :
  ar_get h a = Some (ws_mem s) -> wk s ->
  sims h a s (ho_call lim o h (obj a s)) (ws_call o s).
Proof.
  intros G W. destruct o as [[w| |] xs|p|b]; cbn [ho_call ws_call ws_write].
  - apply words_sims; assumption.
  - apply uuids_sims; assumption.
  - apply words_sims; assumption.
  - apply setpos_sims; assumption.
  - cbn [sims]. exists h, a. split; [reflexivity|]. split; [exact G|]. split; [exact W|].
    destruct (tr_refl h a s _ G) as (X1 & X2 & X3 & X4 & X5).
    unfold tr. cbn [ws_size ws_res ws_setflip]. repeat split; try assumption.
Qed.
End Heap.

(** ** No exception without growth *)
Lemma raw_in src s :
  len (ws_mem s) = ws_res s -> ws_res s < two64 -> ws_pos s + len src <= ws_res s ->
  exists s1, ws_raw src s = Done (true, s1) /\ len (ws_mem s1) = ws_res s1 /\ ws_res s1 = ws_res s /\
    ws_pos s1 = ws_pos s + len src.
Proof.
  intros H1 H2 H3. unfold ws_raw. rewrite add64_small by lia.
  assert (E : exists s0, (if ws_size s <? ws_pos s + len src then ws_resize (ws_pos s + len src) s else (true, s)) = (true, s0) /\
      ws_mem s0 = ws_mem s /\ ws_res s0 = ws_res s /\ ws_pos s0 = ws_pos s).
  { destruct (_ <? _); [|exists s; auto]. unfold ws_resize.
    replace (ws_res s <? ws_pos s + len src) with false by lia. eexists. split; [reflexivity|]. auto. }
  destruct E as (s0 & -> & E1 & E2 & E3). rewrite E1, E3.
  replace (ws_pos s + len src <=? len (ws_mem s)) with true by lia.
  eexists. split; [reflexivity|]. cbn [ws_mem ws_res ws_pos]. rewrite !len_app, len_take, len_drop.
  repeat split; try assumption. lia.
Qed.
Lemma words_in w count src s :
  len (ws_mem s) = ws_res s -> ws_res s < two64 -> ws_pos s + len src <= ws_res s ->
  thrown_res (ws_words w count src s) <> Throw.
Proof.
  intros H1 H2 H3. rewrite words_as_bind. cbv zeta.
  set (n := match w with W8 => count | _ => mul64 count (wbytes w) end).
  destruct (len src <? n); [discriminate|].
  destruct (raw_in (take n src) s H1 H2) as (s1 & E & _); [rewrite len_take; lia|].
  unfold thrown_res. rewrite E. cbn [bind thrown]. unfold swap_step.
  destruct w; try discriminate; destruct (ws_flip s); try discriminate; destruct (_ <=? _); discriminate.
Qed.
Lemma uuids_in c : forall src s,
  len (ws_mem s) = ws_res s -> ws_res s < two64 -> ws_pos s + 16 * N.of_nat c <= ws_res s ->
  ws_uuids c src s <> Throw.
Proof.
  induction c as [|c IH]; intros src s H1 H2 H3; cbn [ws_uuids]; [discriminate|].
  destruct (len src <? 16) eqn:El; [discriminate|].
  assert (Lu : len (uuid_to_wire (take 16 src)) = 16).
  { unfold uuid_to_wire. rewrite !len_app, be32_rev, !be16_rev, !len_rev, !len_le, len_take, len_drop, len_take. lia. }
  rewrite words_as_bind. cbv zeta. rewrite Lu. cbn [N.ltb N.compare].
  change (16 <? 16) with false. cbn [bind].
  rewrite (take_all (uuid_to_wire (take 16 src))) by lia.
  destruct (raw_in (uuid_to_wire (take 16 src)) s H1 H2) as (s1 & E & A & B & C); [lia|].
  unfold thrown_res. rewrite E. cbn [bind thrown swap_step]. apply IH; lia.
Qed.
Lemma setpos_in p s : p <= ws_res s -> thrown (ws_setpos p s) <> Throw.
Proof.
  intros H. unfold ws_setpos. destruct (ws_size s <? p); [|discriminate].
  unfold ws_resize. replace (ws_res s <? p) with false by lia. discriminate.
Qed.
Lemma call_in o s f :
  wop_ok o -> ws_abs s f -> len (f_bytes (fst (f_step (f, ws_flip s) o))) <= ws_res s -> ws_call o s <> Throw.
Proof.
  intros Hok Habs Hl. pose proof Habs as ((H1 & H2 & H3 & H4 & H5 & H6) & Hd & Hp).
  destruct o as [k xs|p|b]; cbn [f_step fst f_put f_seek f_bytes ws_call] in *; [| |discriminate].
  - pose proof (len_images k xs Hok) as Hi.
    assert (Hlw : len (flat_map (stored (ws_flip s)) xs) = len (images xs)).
    { rewrite <- (wire_stored (ws_flip s) k xs Hok). apply len_wire. exact Hi. }
    pose proof (ws_abs_size s f Habs) as Hz.
    rewrite !len_app, len_take, len_drop, Hlw in Hl.
    destruct k as [w| |]; cbn [ws_write ksize] in *.
    + apply words_in; lia.
    + apply uuids_in; lia.
    + apply words_in; lia.
  - rewrite len_app, len_rep in Hl. apply setpos_in. lia.
Qed.
