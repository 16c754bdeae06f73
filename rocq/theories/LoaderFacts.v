(** * LoaderFacts: proofs about EntityLoader. *)
From Verif Require Import Base Bytes BytesFacts Values Streams Hex HexSpec HexFacts Sha256 Sha256Spec ShaSpec ShaFacts Loader LoaderSpec.
Open Scope N_scope.

Lemma sub64_ok a b : b <= a -> a < two64 -> sub64 a b = a - b.
Proof.
  intros H K. unfold sub64, w64. replace (a + two64 - b) with (a - b + 1 * two64) by (unfold two64; lia).
  rewrite N.mod_add by discriminate. apply N.mod_small. lia.
Qed.
Lemma add64_ok a b : a + b < two64 -> add64 a b = a + b.
Proof. intros H. apply N.mod_small. exact H. Qed.

Lemma delivered_app a b : delivered (a ++ b) = delivered a ++ delivered b.
Proof. apply flat_map_app. Qed.

Definition is_read (total : N) (c : os_call) : Prop :=
  match c with CallRead pos n _ => 0 < n /\ n <= uint_max /\ pos + n <= total | _ => False end.
Definition no_fail (c : os_call) : Prop := match c with CallRead _ _ None => False | _ => True end.

(** Every read starts where the previous ones ended. *)
Definition contiguous (tr : list os_call) : Prop :=
  forall a pos n x b, tr = a ++ CallRead pos n x :: b -> pos = len (delivered a).

Lemma contiguous_snoc tr pos n x : contiguous tr -> pos = len (delivered tr) -> contiguous (tr ++ [CallRead pos n x]).
Proof.
  intros C E a pos' n' x' b H. destruct b as [|c b _] using rev_ind.
  - apply app_inj_tail in H. destruct H as (-> & H). injection H as <- _ _. exact E.
  - replace (a ++ CallRead pos' n' x' :: b ++ [c]) with ((a ++ CallRead pos' n' x' :: b) ++ [c]) in H by (rewrite <- app_assoc; auto).
    apply app_inj_tail in H. destruct H as (H & _). eapply C; eauto.
Qed.

Lemma loop_any o total (W : within_requests o) (T : total < two64) : forall reads i br buf tr,
  br <= total -> len buf = total -> delivered tr = take br buf -> contiguous tr ->
  exists x cs, read_loop reads i o total br buf tr = (x, tr ++ cs) /\ Forall (is_read total) cs /\ contiguous (tr ++ cs) /\
    match x with
    | inr buf' => len buf' = total /\ delivered (tr ++ cs) = buf' /\ Forall no_fail cs
    | inl (Ended ECantRead None) => exists pos n, In (CallRead pos n None) cs
    | inl Running => Forall no_fail cs
    | _ => False
    end.
Proof.
  induction reads as [|reads IH]; intros i br buf tr B LB D C; cbn [read_loop].
  - destruct (br <? total) eqn:E.
    + exists (inl Running), []. rewrite app_nil_r. repeat split; auto.
    + exists (inr buf), []. rewrite app_nil_r. apply N.ltb_ge in E. repeat split; auto.
      rewrite D. apply take_all. lia.
  - destruct (br <? total) eqn:E.
    2:{ exists (inr buf), []. rewrite app_nil_r. apply N.ltb_ge in E. repeat split; auto.
        rewrite D. apply take_all. lia. }
    apply N.ltb_lt in E. rewrite sub64_ok by lia. cbv zeta.
    set (n := if total - br <? uint_max then total - br else uint_max).
    assert (Hn : 0 < n /\ n <= uint_max /\ br + n <= total).
    { unfold n. destruct (total - br <? uint_max) eqn:E2; [apply N.ltb_lt in E2|apply N.ltb_ge in E2]; unfold uint_max in *; lia. }
    assert (DL : len (delivered tr) = br) by (rewrite D, len_take; lia).
    destruct (os_read o i br n) as [d|] eqn:R.
    + pose proof (W _ _ _ _ R) as Wd.
      replace (br + len d <=? len buf) with true by (symmetry; apply N.leb_le; lia).
      rewrite add64_ok by lia.
      destruct (IH (S i) (br + len d) (take br buf ++ d ++ drop (br + len d) buf) (tr ++ [CallRead br n (Some d)]))
        as (x & cs & X & F & CT & M).
      * lia.
      * rewrite !len_app, len_take, len_drop. lia.
      * rewrite delivered_app, D. cbn [delivered flat_map]. rewrite app_nil_r. rewrite app_assoc.
        rewrite take_app_exact; auto. rewrite len_app, len_take. lia.
      * apply contiguous_snoc; auto.
      * exists x, (CallRead br n (Some d) :: cs). rewrite <- app_assoc in X, CT, M. cbn [app] in X, CT, M. rewrite X.
        split; [reflexivity|]. split; [constructor; auto|]. split; [exact CT|].
        destruct x as [[s [st|]| | |]|buf'].
        -- destruct s; auto.
        -- destruct s; auto. destruct M as (p & q & M). exists p, q. right. exact M.
        -- auto.
        -- auto.
        -- constructor; [exact Logic.I|auto].
        -- destruct M as (M1 & M2 & M3). split; [auto|]. split; [auto|]. constructor; [exact Logic.I|auto].
    + exists (inl (Ended ECantRead None)), [CallRead br n None]. split; [reflexivity|].
      split; [constructor; auto|]. split; [apply contiguous_snoc; auto|]. exists br, n. left. reflexivity.
Qed.

(** With a real file the loop ends, and the buffer is the file. *)
Lemma loop_serves o f (S0 : serves o f) (T : len f < two64) : forall reads i br buf tr,
  br <= len f -> len buf = len f -> take br buf = take br f -> (N.to_nat (len f - br) <= reads)%nat ->
  match fst (read_loop reads i o (len f) br buf tr) with
  | inr buf' => buf' = f
  | inl Running => False
  | _ => True
  end.
Proof.
  induction reads as [|reads IH]; intros i br buf tr B LB D R; cbn [read_loop].
  - destruct (br <? len f) eqn:E; [apply N.ltb_lt in E; lia|]. apply N.ltb_ge in E. cbn [fst].
    rewrite !take_all in D by lia. exact D.
  - destruct (br <? len f) eqn:E.
    2:{ apply N.ltb_ge in E. cbn [fst]. rewrite !take_all in D by lia. exact D. }
    apply N.ltb_lt in E. rewrite sub64_ok by lia. cbv zeta.
    set (n := if len f - br <? uint_max then len f - br else uint_max).
    assert (Hn : 0 < n /\ n <= uint_max /\ br + n <= len f).
    { unfold n. destruct (len f - br <? uint_max) eqn:E2; [apply N.ltb_lt in E2|apply N.ltb_ge in E2]; unfold uint_max in *; lia. }
    destruct (os_read o i br n) as [d|] eqn:Rd; [|exact Logic.I].
    destruct S0 as (S1 & S2). destruct (S2 _ _ _ _ Rd) as (A & A2 & A3).
    replace (br + len d <=? len buf) with true by (symmetry; apply N.leb_le; lia).
    rewrite add64_ok by lia. apply IH.
    + lia.
    + rewrite !len_app, len_take, len_drop. lia.
    + rewrite app_assoc. rewrite take_app_exact by (rewrite len_app, len_take; lia). rewrite D, A2 at 1.
      unfold take, drop. rewrite N2Nat.inj_add. generalize (N.to_nat br) (N.to_nat (len d)). clear. intros i j.
      revert f. induction i as [|i IH]; intros f; cbn; auto. destruct f; cbn; [destruct j; auto|]. f_equal. apply IH.
    + specialize (A3 E). lia.
Qed.

Lemma same_bytes_iff n : forall a b, length a = n -> length b = n -> (same_bytes n a b = true <-> a = b).
Proof.
  induction n as [|n IH]; intros [|x a] [|y b] H K; try discriminate; cbn [same_bytes]; [intuition|].
  cbn in H, K. rewrite andb_true_iff, (IH a b) by lia. split.
  - intros (E & ->). apply Byte.byte_dec_bl in E. subst. auto.
  - intros E. injection E as -> ->. split; auto. apply Byte.byte_dec_lb. auto.
Qed.

(** The digest, whenever the hashing ends. *)
Lemma sha_loop_more L r : forall r' c d n x, (r <= r')%nat -> sha_loop L r c d n = Some x -> sha_loop L r' c d n = Some x.
Proof.
  induction r as [|r IH]; intros r' c d n x H; cbn [sha_loop].
  - destruct (0 <? n) eqn:E; [discriminate|]. destruct r'; cbn [sha_loop]; rewrite E; auto.
  - destruct r' as [|r']; [lia|]. cbn [sha_loop]. destruct (0 <? n); auto.
    destruct ((if int_max <? n then int_max else n) <=? len d); auto. apply IH. lia.
Qed.
Lemma sha_new_digest L : computes_sha256 L -> forall r d n x, n <= len d -> n < 2 ^ 61 ->
  sha_new L r (Some d) n = Some x -> exists c, x = Done c /\ fst (sha_digest L c) = sha256 (take n d).
Proof.
  intros C r d n x H B E. destruct (digest_ok L C d n [] H (Forall_nil _)) as (b & U).
  { cbn. rewrite app_nil_r, len_take. lia. }
  destruct (U (Nat.max b r)) as (c & c' & U1 & U2 & U3); [lia|]. cbn in U2. injection U2 as <-.
  exists c. cbn [map concat] in U3. rewrite app_nil_r in U3. split; [|exact U3].
  cbn [sha_new sha_update] in *. apply (sha_loop_more L r (Nat.max b r)) in E; [|lia]. congruence.
Qed.
Lemma sha_new_ends L d n r : n <= len d -> (rounds_for n <= r)%nat -> exists c, sha_new L r (Some d) n = Some (Done c).
Proof.
  intros H R. destruct (loop_feeds L r (lib_init L) d n H R) as (p & _ & _ & E). cbn [sha_new sha_update]. eauto.
Qed.

(** ** load_file *)
Lemma split_tail (data f : list byte) : len f = len data + 32 ->
  (drop (len data) f = sha256 (take (len data) f) <-> intact f (take (len data) f)).
Proof.
  intros H. unfold intact. split; intros E.
  - rewrite <- E. symmetry. apply take_drop.
  - rewrite <- (take_drop (len data) f) in E at 1. apply app_inv_head in E. exact E.
Qed.
Lemma intact_size (f data : list byte) : intact f data -> len f = len data + 32 /\ take (len data) f = data.
Proof.
  intros ->. rewrite len_app. assert (len (sha256 data) = 32) as -> by (unfold len; rewrite sha256_length; auto).
  split; auto. apply take_len_app.
Qed.

Lemma start_contig p : contiguous ([CallOpen p] ++ [CallSize]).
Proof. intros a pos n x b E. destruct a as [|? [|? [|? a]]]; discriminate. Qed.

(** What load_file does once the file is open, its size known and the memory there. *)
Lemma load_any L o p total : within_requests o -> os_open o p = true -> os_size o = Some total -> total < 2 ^ 61 ->
  32 <= total -> total <= os_mem o -> computes_sha256 L -> forall reads rounds,
  exists e cs, load_file L reads rounds o p = (e, CallOpen p :: CallSize :: cs) /\
   contiguous (CallOpen p :: CallSize :: cs) /\
   ( (exists pos n, In (CallRead pos n None) cs) /\ Forall (is_read total) cs /\ e = Ended ECantRead None
  \/ Forall no_fail cs /\ Forall (is_read total) cs /\ e = Running
  \/ exists rs, cs = rs ++ [CallClose] /\ Forall (is_read total) rs /\ Forall no_fail rs /\ len (delivered rs) = total /\
      let data := take (total - 32) (delivered rs) in
      (e = Running /\ (rounds < rounds_for (total - 32))%nat \/
       e = Ended SOk (Some (RS data 0 false)) /\ intact (delivered rs) data \/
       e = Ended ECorrupted None /\ ~ intact (delivered rs) data)).
Proof.
  intros W O Sz B Lo Me C reads rounds. unfold load_file. rewrite O, Sz. cbn [negb].
  replace (total <? 32) with false by (symmetry; apply N.ltb_ge; auto).
  replace (os_mem o <? total) with false by (symmetry; apply N.ltb_ge; auto).
  assert (T64 : total < two64) by (unfold two64; change (2 ^ 61) with 2305843009213693952 in B; lia).
  destruct (loop_any o total W T64 reads 0 0 (rep x00 total) ([CallOpen p] ++ [CallSize])) as (x & cs & X & F & CT & M).
  { lia. } { apply len_rep. } { reflexivity. } { apply start_contig. }
  rewrite X. cbn [app] in *. rewrite sub64_ok by lia.
  destruct x as [[s [st|]| | |]|buf'].
  - destruct s; contradiction.
  - destruct s; try contradiction. exists (Ended ECantRead None), cs. split; [reflexivity|]. split; [exact CT|]. left. auto.
  - contradiction.
  - contradiction.
  - exists Running, cs. split; [reflexivity|]. split; [exact CT|]. right. left. auto.
  - destruct M as (M1 & M2 & M3). change (delivered (CallOpen p :: CallSize :: cs)) with (delivered cs) in M2.
    cbv zeta.
    assert (TRC : (CallOpen p :: CallSize :: cs) ++ [CallClose] = CallOpen p :: CallSize :: (cs ++ [CallClose])) by reflexivity.
    assert (CT2 : contiguous (CallOpen p :: CallSize :: cs ++ [CallClose])).
    { rewrite <- TRC. intros a pos n x b E. destruct b as [|c b _] using rev_ind.
      - apply app_inj_tail in E. destruct E as (_ & E). discriminate.
      - replace (a ++ CallRead pos n x :: b ++ [c]) with ((a ++ CallRead pos n x :: b) ++ [c]) in E by (rewrite <- app_assoc; auto).
        apply app_inj_tail in E. destruct E as (E & _). eapply CT; eauto. }
    rewrite ?TRC.
    assert (LD : len (drop (total - 32) buf') = 32) by (rewrite len_drop; lia).
    assert (SP : sha256 (take (total - 32) buf') = drop (total - 32) buf' <-> intact buf' (take (total - 32) buf')).
    { pose proof (split_tail (take (total - 32) buf') buf') as Q. rewrite len_take in Q.
      replace (N.min (total - 32) (len buf')) with (total - 32) in Q by lia. rewrite <- Q by lia. split; auto. }
    destruct (sha_new L rounds (Some buf') (total - 32)) as [y|] eqn:SN.
    + destruct (sha_new_digest L C rounds buf' (total - 32) y) as (c & -> & DG); [lia|lia|exact SN|].
      rewrite DG.
      pose proof (same_bytes_iff 32 (sha256 (take (total - 32) buf')) (drop (total - 32) buf') (sha256_length _)
                    ltac:(unfold len in LD; lia)) as SB.
      destruct (same_bytes 32 (sha256 (take (total - 32) buf')) (drop (total - 32) buf')) eqn:SE.
      * exists (Ended SOk (Some (RS (take (total - 32) buf') 0 false))), (cs ++ [CallClose]). split; [reflexivity|].
        split; [exact CT2|]. right. right. exists cs. rewrite M2. split; [reflexivity|]. split; [exact F|]. split; [exact M3|].
        split; [exact M1|]. right. left. split; [reflexivity|]. apply SP. apply SB. reflexivity.
      * exists (Ended ECorrupted None), (cs ++ [CallClose]). split; [reflexivity|].
        split; [exact CT2|]. right. right. exists cs. rewrite M2. split; [reflexivity|]. split; [exact F|]. split; [exact M3|].
        split; [exact M1|]. right. right. split; [reflexivity|]. intros IN. apply SP in IN. apply SB in IN. discriminate.
    + exists Running, (cs ++ [CallClose]). split; [reflexivity|].
      split; [exact CT2|]. right. right. exists cs. rewrite M2. split; [reflexivity|]. split; [exact F|]. split; [exact M3|].
      split; [exact M1|]. left. split; [reflexivity|].
      destruct (Nat.lt_ge_cases rounds (rounds_for (total - 32))) as [|H]; auto.
      destruct (sha_new_ends L buf' (total - 32) rounds) as (c & E); [lia|lia|congruence].
Qed.

Lemma delivered_reads p rs : delivered (CallOpen p :: CallSize :: rs ++ [CallClose]) = delivered rs.
Proof. change (delivered (rs ++ [CallClose]) = delivered rs). rewrite delivered_app. cbn. apply app_nil_r. Qed.
Lemma no_fail_in cs pos n : Forall no_fail cs -> ~ In (CallRead pos n None) cs.
Proof. intros F H. rewrite Forall_forall in F. apply (F _ H). Qed.

Lemma t_verdict L o p f : computes_sha256 L -> serves o f -> os_open o p = true -> len f <= os_mem o -> len f < 2 ^ 61 ->
  exists bound, forall reads rounds, (bound <= reads)%nat -> (bound <= rounds)%nat ->
  exists e tr, load_file L reads rounds o p = (e, tr) /\
    (a_read_failed tr /\ e = Ended ECantRead None \/
     ~ a_read_failed tr /\ (exists data, intact f data /\ e = Ended SOk (Some (RS data 0 false))) \/
     ~ a_read_failed tr /\ (~ exists data, intact f data) /\ e = Ended ECorrupted None).
Proof.
  intros C S0 O Me B. pose proof S0 as (Sz & S2).
  assert (W : within_requests o) by (intros i pos n d R; destruct (S2 _ _ _ _ R); auto).
  exists (Nat.max (N.to_nat (len f)) (rounds_for (len f - 32))). intros reads rounds R1 R2.
  destruct (N.lt_ge_cases (len f) 32) as [Sh|Lo].
  - exists (Ended ECorrupted None), [CallOpen p; CallSize]. split.
    + unfold load_file. rewrite O, Sz. cbn [negb]. replace (len f <? 32) with true by (symmetry; apply N.ltb_lt; auto). reflexivity.
    + right. right. split; [intros (a & b & [H|[H|[]]]); discriminate|]. split; [|reflexivity].
      intros (data & D). apply intact_size in D. lia.
  - destruct (load_any L o p (len f) W O Sz B Lo Me C reads rounds) as (e & cs & E & _ & M).
    assert (T64 : len f < two64) by (unfold two64; change (2 ^ 61) with 2305843009213693952 in B; lia).
    pose proof (loop_serves o f S0 T64 reads 0 0 (rep x00 (len f)) ([CallOpen p] ++ [CallSize]) ltac:(lia) (len_rep _ _) eq_refl ltac:(lia)) as LS.
    exists e, (CallOpen p :: CallSize :: cs). split; [exact E|]. destruct M as [(M1 & _ & ->)|[(M1 & M2 & ->)|M]].
    + left. split; [|reflexivity]. destruct M1 as (a & b & M1). exists a, b. cbn. auto.
    + exfalso. unfold load_file in E. rewrite O, Sz in E. cbn [negb] in E.
      replace (len f <? 32) with false in E by (symmetry; apply N.ltb_ge; auto).
      replace (os_mem o <? len f) with false in E by (symmetry; apply N.ltb_ge; auto).
      destruct (loop_any o (len f) W T64 reads 0 0 (rep x00 (len f)) ([CallOpen p] ++ [CallSize])) as (x & cs' & X & F' & CT & M).
      { lia. } { apply len_rep. } { reflexivity. } { apply start_contig. }
      rewrite X in E, LS. cbn [fst] in LS.
      destruct x as [[s [st|]| | |]|buf']; try contradiction; try discriminate.
      cbv zeta in E.
      assert (In CallClose cs).
      { cbn [app] in E. repeat match type of E with context [match ?z with _ => _ end] => destruct z end;
          try discriminate; injection E as <-; apply in_or_app; right; left; reflexivity. }
      rewrite Forall_forall in M2. apply M2 in H. exact H.
    + destruct M as (rs & -> & F & NF & LD & M). cbv zeta in M.
      assert (NR : ~ a_read_failed (CallOpen p :: CallSize :: rs ++ [CallClose])).
      { intros (a & b & [H|[H|H]]); try discriminate. apply in_app_or in H. destruct H as [H|[H|[]]]; [|discriminate].
        eapply no_fail_in; eauto. }
      assert (DF : delivered rs = f).
      { (* the loop's buffer is both what was delivered and the file *)
        unfold load_file in E. rewrite O, Sz in E. cbn [negb] in E.
        replace (len f <? 32) with false in E by (symmetry; apply N.ltb_ge; auto).
        replace (os_mem o <? len f) with false in E by (symmetry; apply N.ltb_ge; auto).
        destruct (loop_any o (len f) W T64 reads 0 0 (rep x00 (len f)) ([CallOpen p] ++ [CallSize])) as (x & cs' & X & F' & CT & M').
        { lia. } { apply len_rep. } { reflexivity. } { apply start_contig. }
        rewrite X in E, LS. cbn [fst] in LS.
        assert (NC : forall l, Forall (is_read (len f)) l -> ~ In CallClose l).
        { intros l Fl Hl. rewrite Forall_forall in Fl. apply Fl in Hl. exact Hl. }
        destruct x as [[s [st|]| | |]|buf']; try contradiction.
        - destruct s; contradiction.
        - exfalso. injection E as _ E. apply (NC _ F'). rewrite E. apply in_or_app. right. left. reflexivity.
        - destruct M' as (_ & M2 & _). change (delivered cs' = buf') in M2. rewrite LS in M2. cbv zeta in E.
          cbn [app] in E. assert (Q : cs' ++ [CallClose] = rs ++ [CallClose]).
          { repeat match type of E with context [match ?z with _ => _ end] => destruct z end;
              injection E as _ E; exact E. }
          apply app_inj_tail in Q. destruct Q as (-> & _). auto. }
      rewrite DF in M. right. destruct M as [(_ & M)|[(-> & IN)|(-> & NI)]]; [lia| |].
      * left. split; [exact NR|]. eauto.
      * right. split; [exact NR|]. split; [|reflexivity]. intros (data & IN). apply NI.
        destruct (intact_size _ _ IN) as (LL & TK). replace (len f - 32) with (len data) by lia. rewrite TK. exact IN.
Qed.

(** Whatever the OS does, an accepted load delivered an intact file. *)
Lemma t_accepts L o p : computes_sha256 L -> within_requests o -> (forall n, os_size o = Some n -> n < 2 ^ 61) ->
  forall reads rounds st tr, load_file L reads rounds o p = (Ended SOk st, tr) ->
  exists data, intact (delivered tr) data /\ st = Some (RS data 0 false) /\ closes tr = 1%nat.
Proof.
  intros C W B reads rounds st tr E. destruct (os_open o p) eqn:O.
  2:{ unfold load_file in E. rewrite O in E. discriminate. }
  destruct (os_size o) as [total|] eqn:Sz.
  2:{ unfold load_file in E. rewrite O, Sz in E. discriminate. }
  destruct (N.lt_ge_cases total 32) as [Sh|Lo].
  { unfold load_file in E. rewrite O, Sz in E. cbn [negb] in E. replace (total <? 32) with true in E by (symmetry; apply N.ltb_lt; auto). discriminate. }
  destruct (N.lt_ge_cases (os_mem o) total) as [Me|Me].
  { unfold load_file in E. rewrite O, Sz in E. cbn [negb] in E. replace (total <? 32) with false in E by (symmetry; apply N.ltb_ge; auto).
    replace (os_mem o <? total) with true in E by (symmetry; apply N.ltb_lt; auto). discriminate. }
  destruct (load_any L o p total W O Sz (B _ eq_refl) Lo Me C reads rounds) as (e & cs & E' & _ & M).
  rewrite E in E'. injection E' as <- ->. destruct M as [(_ & _ & M)|[(_ & _ & M)|M]]; try discriminate.
  destruct M as (rs & -> & F & NF & LD & M). cbv zeta in M. destruct M as [(M & _)|[(M & IN)|(M & _)]]; try discriminate.
  injection M as ->. exists (take (total - 32) (delivered rs)). rewrite delivered_reads. split; [exact IN|]. split; [reflexivity|].
  unfold closes. cbn [filter]. rewrite filter_app, app_length. cbn.
  assert (Z : filter (fun c => match c with CallClose => true | _ => false end) rs = []).
  { clear - F. induction F as [|c rs Hc F IH]; auto. cbn. destruct c; try contradiction. exact IH. }
  rewrite Z. reflexivity.
Qed.

(** All requests are in bounds, and no memory outside the buffer is touched. *)
Lemma t_requests L o p : computes_sha256 L -> within_requests o -> (forall n, os_size o = Some n -> n < 2 ^ 61) ->
  forall reads rounds e tr, load_file L reads rounds o p = (e, tr) ->
  e <> Bad /\
  forall a pos n x b, tr = a ++ CallRead pos n x :: b ->
    pos = len (delivered a) /\ 0 < n /\ n <= uint_max /\ exists total, os_size o = Some total /\ pos + n <= total.
Proof.
  intros C W B reads rounds e tr E.
  assert (NoReads : forall a pos n x b, [CallOpen p] = a ++ CallRead pos n x :: b -> False)
    by (intros [|? [|? a]]; discriminate).
  assert (NoReads2 : forall a pos n x b, [CallOpen p; CallSize] = a ++ CallRead pos n x :: b -> False)
    by (intros [|? [|? [|? a]]]; discriminate).
  destruct (os_open o p) eqn:O.
  2:{ unfold load_file in E. rewrite O in E. injection E as <- <-. split; [discriminate|]. intros a pos n x b H. apply NoReads in H. contradiction. }
  destruct (os_size o) as [total|] eqn:Sz.
  2:{ unfold load_file in E. rewrite O, Sz in E. injection E as <- <-. split; [discriminate|]. intros a pos n x b H. apply NoReads2 in H. contradiction. }
  destruct (N.lt_ge_cases total 32) as [Sh|Lo].
  { unfold load_file in E. rewrite O, Sz in E. cbn [negb] in E. replace (total <? 32) with true in E by (symmetry; apply N.ltb_lt; auto).
    injection E as <- <-. split; [discriminate|]. intros a pos n x b H. apply NoReads2 in H. contradiction. }
  destruct (N.lt_ge_cases (os_mem o) total) as [Me|Me].
  { unfold load_file in E. rewrite O, Sz in E. cbn [negb] in E. replace (total <? 32) with false in E by (symmetry; apply N.ltb_ge; auto).
    replace (os_mem o <? total) with true in E by (symmetry; apply N.ltb_lt; auto).
    injection E as <- <-. split; [discriminate|]. intros a pos n x b H. apply NoReads2 in H. contradiction. }
  destruct (load_any L o p total W O Sz (B _ eq_refl) Lo Me C reads rounds) as (e' & cs & E' & CT & M).
  rewrite E in E'. injection E' as <- ->.
  assert (FR : forall pos n x, In (CallRead pos n x) cs -> is_read total (CallRead pos n x)).
  { intros pos n x H. destruct M as [(_ & M & _)|[(_ & M & _)|(rs & -> & M & _)]].
    - rewrite Forall_forall in M. apply M. exact H.
    - rewrite Forall_forall in M. apply M. exact H.
    - rewrite Forall_forall in M. apply M. apply in_app_or in H. destruct H as [H|[H|[]]]; [exact H|discriminate]. }
  split.
  - destruct M as [(_ & _ & ->)|[(_ & _ & ->)|(rs & _ & _ & _ & _ & [(-> & _)|[(-> & _)|(-> & _)]])]]; discriminate.
  - intros a pos n x b H. split; [eapply CT; eauto|].
    assert (I0 : In (CallRead pos n x) cs).
    { assert (J : In (CallRead pos n x) (CallOpen p :: CallSize :: cs)) by (rewrite H; apply in_or_app; cbn; auto).
      destruct J as [J|[J|J]]; try discriminate. exact J. }
    destruct (FR _ _ _ I0) as (F1 & F2 & F3). split; [exact F1|]. split; [exact F2|]. eauto.
Qed.

(** When nothing could be read at all. *)
Lemma t_cant_open L o p reads rounds : computes_sha256 L -> within_requests o -> (forall n, os_size o = Some n -> n < 2 ^ 61) ->
  forall e tr, load_file L reads rounds o p = (e, tr) ->
  (e = Ended ECantOpen None <-> os_open o p = false \/ os_size o = None) /\
  (e = Threw <-> os_open o p = true /\ exists n, os_size o = Some n /\ 32 <= n /\ os_mem o < n).
Proof.
  intros C W B e tr E. destruct (os_open o p) eqn:O.
  2:{ unfold load_file in E. rewrite O in E. injection E as <- <-. split; [tauto|]. split; [discriminate|intros (? & _); discriminate]. }
  destruct (os_size o) as [total|] eqn:Sz.
  2:{ unfold load_file in E. rewrite O, Sz in E. injection E as <- <-. split; [tauto|]. split; [discriminate|intros (_ & n & ? & _); discriminate]. }
  destruct (N.lt_ge_cases total 32) as [Sh|Lo].
  { unfold load_file in E. rewrite O, Sz in E. cbn [negb] in E. replace (total <? 32) with true in E by (symmetry; apply N.ltb_lt; auto).
    injection E as <- <-. split; (split; [discriminate|]).
    - intros [|]; discriminate.
    - intros (_ & n & H & ?). injection H as <-. lia. }
  destruct (N.lt_ge_cases (os_mem o) total) as [Me|Me].
  { unfold load_file in E. rewrite O, Sz in E. cbn [negb] in E. replace (total <? 32) with false in E by (symmetry; apply N.ltb_ge; auto).
    replace (os_mem o <? total) with true in E by (symmetry; apply N.ltb_lt; auto).
    injection E as <- <-. split; [split; [discriminate|intros [|]; discriminate]|]. split; auto. intros _. split; auto. eauto. }
  destruct (load_any L o p total W O Sz (B _ eq_refl) Lo Me C reads rounds) as (e' & cs & E' & CT & M).
  rewrite E in E'. injection E' as <- ->.
  assert (Q : e <> Ended ECantOpen None /\ e <> Threw).
  { destruct M as [(_ & _ & ->)|[(_ & _ & ->)|(rs & _ & _ & _ & _ & [(-> & _)|[(-> & _)|(-> & _)]])]]; split; discriminate. }
  destruct Q as (Q1 & Q2). split; (split; [contradiction|]).
  - intros [|]; discriminate.
  - intros (_ & n & H & ?). injection H as <-. lia.
Qed.

(** The handle is closed exactly once, as the last OS call, or never. *)
Lemma closes_reads total cs : Forall (is_read total) cs -> closes cs = O.
Proof. induction 1 as [|c cs H _ IH]; [reflexivity|]. destruct c; try contradiction. exact IH. Qed.
Lemma closes_cons_open p cs : closes (CallOpen p :: CallSize :: cs) = closes cs.
Proof. reflexivity. Qed.
Lemma closes_app a b : closes (a ++ b) = (closes a + closes b)%nat.
Proof. unfold closes. rewrite filter_app, app_length. reflexivity. Qed.
Lemma t_handle L o p reads rounds : computes_sha256 L -> within_requests o -> (forall n, os_size o = Some n -> n < 2 ^ 61) ->
  forall e tr, load_file L reads rounds o p = (e, tr) -> os_open o p = true -> e <> Running ->
  (closes tr = 1%nat /\ (exists a, tr = a ++ [CallClose]) /\ os_size o = Some (len (delivered tr)) /\ ~ a_read_failed tr) \/
  (closes tr = 0%nat /\ (os_size o = None \/ (exists n, os_size o = Some n /\ (n < 32 \/ os_mem o < n)) \/ a_read_failed tr)).
Proof.
  intros C W B e tr E O Ru.
  destruct (os_size o) as [total|] eqn:Sz.
  2:{ unfold load_file in E. rewrite O, Sz in E. injection E as <- <-. right. split; [reflexivity|]. auto. }
  destruct (N.lt_ge_cases total 32) as [Sh|Lo].
  { unfold load_file in E. rewrite O, Sz in E. cbn [negb] in E. replace (total <? 32) with true in E by (symmetry; apply N.ltb_lt; auto).
    injection E as <- <-. right. split; [reflexivity|]. right. left. eauto. }
  destruct (N.lt_ge_cases (os_mem o) total) as [Me|Me].
  { unfold load_file in E. rewrite O, Sz in E. cbn [negb] in E. replace (total <? 32) with false in E by (symmetry; apply N.ltb_ge; auto).
    replace (os_mem o <? total) with true in E by (symmetry; apply N.ltb_lt; auto).
    injection E as <- <-. right. split; [reflexivity|]. right. left. eauto. }
  destruct (load_any L o p total W O Sz (B _ eq_refl) Lo Me C reads rounds) as (e' & cs & E' & CT & M).
  rewrite E in E'. injection E' as <- ->. rewrite closes_cons_open.
  destruct M as [((pos & n & F) & R & ->)|[(_ & _ & ->)|(rs & -> & R & Nf & D & _)]]; [right|contradiction|left].
  - split; [exact (closes_reads _ _ R)|]. right. right. exists pos, n. right. right. exact F.
  - split; [rewrite closes_app, (closes_reads _ _ R); reflexivity|]. split; [exists (CallOpen p :: CallSize :: rs); reflexivity|].
    split; [rewrite delivered_reads, D; reflexivity|]. intros (pos & n & [X|[X|X]]); [discriminate X|discriminate X|].
    apply in_app_iff in X. destruct X as [X|[X|[]]]; [|discriminate X]. exact (no_fail_in _ _ _ Nf X).
Qed.

(** ** File names *)
Lemma widen_ascii conv s : ascii_kept conv -> Forall (fun c => 0 < b2n c /\ b2n c < 128) s -> widen conv s = map b2n s.
Proof.
  intros A F. unfold widen. destruct s as [|c s]; auto.
  assert (E : c_str (c :: s) = c :: s).
  { clear A. induction F as [|x l Hx F IH]; auto. cbn [c_str]. replace (b2n x =? 0) with false by (symmetry; apply N.eqb_neq; lia).
    rewrite IH. auto. }
  rewrite E, A; auto.
Qed.
Lemma numeral_ascii s v : hex_numeral s v -> Forall (fun c => 0 < b2n c /\ b2n c < 128) s.
Proof.
  induction 1 as [|s v c d H IH D]; [constructor|]. apply Forall_app. split; auto. constructor; [|constructor].
  unfold hex_digit in D. destruct ((48 <=? b2n c) && (b2n c <=? 57)) eqn:E1; [lia|].
  destruct ((97 <=? b2n c) && (b2n c <=? 102)) eqn:E2; [lia|discriminate].
Qed.
Lemma text_ascii d1 d2 d3 d4 s : hex_text (SUuid d1 d2 d3 d4) s -> Forall (fun c => 0 < b2n c /\ b2n c < 128) s.
Proof.
  intros (a & b & c & d & e & -> & _ & _ & _ & _ & _ & A & B & C & D). apply numeral_ascii in A, B, C, D.
  apply Forall_app in D. destruct D as (D & E). unfold dash. repeat (apply Forall_app; split; auto); repeat constructor; vm_compute; reflexivity.
Qed.
Lemma t_file_path conv path d1 d2 d3 d4 : ascii_kept conv -> scalar_ok (SUuid d1 d2 d3 d4) ->
  exists s, hex_text (SUuid d1 d2 d3 d4) s /\
    file_path conv path d1 d2 d3 d4 = Done (path ++ [92] ++ map b2n s ++ [46; 100; 97; 116]).
Proof.
  intros A O. destruct (hex_text_ok _ O) as (s & E & T). exists s. split; [exact T|].
  unfold file_path. cbn [hex_of] in E. rewrite E. unfold hex_u8. rewrite hex_bytes by reflexivity. unfold bind.
  rewrite (widen_ascii conv s A (text_ascii _ _ _ _ _ T)). reflexivity.
Qed.
Lemma t_file_path_inj conv path d1 d2 d3 d4 e1 e2 e3 e4 q : ascii_kept conv ->
  scalar_ok (SUuid d1 d2 d3 d4) -> scalar_ok (SUuid e1 e2 e3 e4) ->
  file_path conv path d1 d2 d3 d4 = Done q -> file_path conv path e1 e2 e3 e4 = Done q ->
  SUuid d1 d2 d3 d4 = SUuid e1 e2 e3 e4.
Proof.
  intros A O O' E E'. destruct (t_file_path conv path _ _ _ _ A O) as (s & T & F).
  destruct (t_file_path conv path _ _ _ _ A O') as (s' & T' & F'). rewrite E in F. rewrite E' in F'.
  rewrite F' in F. injection F as F. apply app_inv_head in F. cbn [app] in F. injection F as F.
  apply app_inv_tail in F.
  assert (s' = s) as ->.
  { clear - F. revert s F. induction s' as [|x s' IH]; intros [|y s] F; try discriminate; auto. cbn in F. injection F as X F.
    apply b2n_inj in X. subst. f_equal. auto. }
  eapply text_inj; eauto.
Qed.
