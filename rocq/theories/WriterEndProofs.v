(** * WriterEndProofs: proofs of C45. *)
From Verif Require Import Base Bytes BytesFacts Values Streams FileSpec StreamFacts Types Format
  EntityWriter EntityWriterFacts Items Sections SectionFacts Protocol SectionEndSpec SectionEndFacts WriterAppend WriterEndSpec WriterEndFacts.
Open Scope N_scope.

Lemma fresh_any init lim fl s0 : fresh init lim fl = Done s0 -> lim < two64 -> ws_at s0 [] fl lim.
Proof.
  unfold fresh. intros E L.
  destruct (N.eq_dec init 0) as [->|Hi].
  { unfold ws_new, ws_reserve in E. cbn in E. discriminate E. }
  destruct (N.lt_ge_cases lim init) as [Hl|Hl].
  { unfold ws_new, ws_reserve in E. cbn [ws_res ws_lim] in E. change (mul64 0 2) with 0 in E.
    destruct (N.ltb_spec 0 init); [|lia]. destruct (N.leb_spec init lim); [lia|]. rewrite andb_false_r in E. discriminate E. }
  destruct (ws_new_ok init lim ltac:(lia) Hl L) as (s & E1 & (A1 & A2 & A3) & B & C & _). rewrite E1 in E. cbn [ws_calls ws_call bind] in E.
  injection E as <-. split; [|split; [reflexivity|exact C]]. split; [exact A1|]. split; [exact A2|exact A3].
Qed.
Lemma winv_bytes st D fl lim : winv st D fl lim -> bytes_of st = D.
Proof. intros (H & _). exact (ws_at_data _ _ _ _ H). Qed.
Lemma winv_pos st D fl lim : winv st D fl lim -> ws_pos (w_stream st) = len (bytes_of st).
Proof. intros H. rewrite (winv_bytes _ _ _ _ H). exact (ws_at_pos _ _ _ _ (proj1 H)). Qed.

Lemma t_calls init lim fl s0 hist st c r st' :
  fresh init lim fl = Done s0 -> lim < two64 -> whist s0 hist st -> all_sane hist -> sane c -> wstep c st = Done (r, st') ->
  ws_pos (w_stream st') = len (bytes_of st') /\
  (is_end c = false -> exists new, bytes_of st' = bytes_of st ++ new) /\
  (is_end c = true -> bytes_of st' = bytes_of st \/ exists p, p + 8 <= len (bytes_of st) /\ bytes_of st' = sized fl p (bytes_of st)).
Proof.
  intros F L W Hs Hc E. destruct (hist_inv _ _ _ _ _ _ (fresh_any _ _ _ _ F L) W Hs) as (D & I0).
  destruct (step_inv c st r st' D fl lim I0 Hc E) as (D' & I1 & _ & _ & X).
  rewrite (winv_pos _ _ _ _ I1), (winv_bytes _ _ _ _ I0), (winv_bytes _ _ _ _ I1).
  split; [reflexivity|]. destruct (is_end c); split; try discriminate; intros _.
  - destruct X as [X|(p & _ & P & X)]; [left; exact X|right; exists p; auto].
  - exact X.
Qed.
Lemma t_end_total init lim fl s0 hist st c :
  fresh init lim fl = Done s0 -> lim < two64 -> whist s0 hist st -> all_sane hist -> sane c -> is_end c = true -> wstep c st <> Throw.
Proof.
  intros F L W Hs Hc He E. destruct (hist_inv _ _ _ _ _ _ (fresh_any _ _ _ _ F L) W Hs) as (D & I0).
  pose proof (wstep_any c st D fl lim I0 Hc) as X. rewrite E in X. congruence.
Qed.

(** Opening. *)
Lemma w_begin_owns h key st c st1 D fl lim : winv st D fl lim -> w_begin h key st = Done (Some c, st1) ->
  exists n f fc, (exists D1, winv st1 D1 fl lim /\ len D + 10 <= len D1) /\ wowns h c (len D) st1 n f fc /\ w_chain st = firstn n (w_chain st) ++ [f] /\ length (firstn n (w_chain st)) = n /\
    wf_id f = h /\ w_chain st1 = w_chain st ++ [fc].
Proof.
  intros I0 E. destruct (step_inv (WBegin h key) st (WHandle (Some c)) st1 D fl lim I0 Logic.I) as (D1 & I1 & S1 & L1 & new & X).
  { cbn [wstep as_handle]. rewrite E. reflexivity. }
  pose proof (ws_at_pos _ _ _ _ (proj1 I0)) as P0. pose proof (ws_at_pos _ _ _ _ (proj1 I1)) as P1.
  unfold w_begin in E. destruct (split_at wf_id h (w_chain st)) as [[[a f] b]|] eqn:Es; [|discriminate E].
  apply split_at_app in Es. destruct Es as (Ec & Hid & _). destruct b as [|c0 b]; [|discriminate E].
  destruct (begin_write vt_subsection key (w_stream st)) as [[ok s1]| |] eqn:Eb; cbn [bind] in E; [|discriminate E|discriminate E].
  destruct ok; [|discriminate E]. injection E as <- <-. exists (length a), f, (wf_new (w_next st) (w_stream st)).
  rewrite Ec, firstn_app, firstn_all, Nat.sub_diag. cbn [firstn]. rewrite app_nil_r.
  split; [|split; [|split; [reflexivity|split; [reflexivity|split; [exact Hid|rewrite <- app_assoc; reflexivity]]]]].
  - exists D1. split; [exact I1|]. destruct S1 as (_ & S1). destruct (S1 (S (length a)) (wf_new (w_next st) (w_stream st)) (nth_after a [] f _)) as [(_ & _ & _ & _ & Q1 & Q2 & _)|(g & G & _)].
    + cbn [wf_new wf_start] in *. lia.
    + rewrite Ec in G. assert (Q : nth_error (a ++ [f]) (S (length a)) = None) by (apply nth_error_None; rewrite app_length; cbn; lia). congruence.
  - unfold wowns. cbn [w_chain]. split; [apply nth_len|]. split; [apply nth_after|]. split; [exact Hid|]. split; [reflexivity|]. exact P0.
Qed.
Lemma w_begin_arr_owns h key size ix st c st1 D fl lim : winv st D fl lim -> w_begin_arr h key size ix st = Done (Some c, st1) ->
  exists n f f0 fc, (exists D1, winv st1 D1 fl lim /\ len D + 10 <= len D1) /\ wowns h c (len D) st1 n f fc /\ w_chain st = firstn n (w_chain st) ++ [f0] /\ length (firstn n (w_chain st)) = n /\
    wf_id f0 = h /\ wf_id f = h /\ wf_start f = wf_start f0 /\ w_chain st1 = firstn n (w_chain st) ++ [f; fc].
Proof.
  intros I0 E. destruct (step_inv (WBeginArr h key size ix) st (WHandle (Some c)) st1 D fl lim I0 Logic.I) as (D1 & I1 & S1 & L1 & new & X).
  { cbn [wstep as_handle]. rewrite E. reflexivity. }
  pose proof (ws_at_pos _ _ _ _ (proj1 I0)) as P0. pose proof (ws_at_pos _ _ _ _ (proj1 I1)) as P1.
  unfold w_begin_arr in E. destruct (split_at wf_id h (w_chain st)) as [[[a f] b]|] eqn:Es; [|discriminate E].
  apply split_at_app in Es. destruct Es as (Ec & Hid & _). destruct b as [|c0 b]; [|discriminate E].
  destruct (begin_write vt_array_subsection key (w_stream st)) as [[ok s1]| |] eqn:Eb; cbn [bind] in E; [|discriminate E|discriminate E].
  destruct ok; cbn [negb] in E; [|discriminate E].
  assert (K : forall f' s2, wf_id f' = wf_id f -> wf_start f' = wf_start f -> st1 = WSt s2 (a ++ [f'; wf_new (w_next st) (w_stream st)]) (w_next st + 1) -> c = w_next st ->
    exists n f g fc, (exists D1, winv st1 D1 fl lim /\ len D + 10 <= len D1) /\ wowns h c (len D) st1 n f fc /\ w_chain st = firstn n (w_chain st) ++ [g] /\ length (firstn n (w_chain st)) = n /\
    wf_id g = h /\ wf_id f = h /\ wf_start f = wf_start g /\ w_chain st1 = firstn n (w_chain st) ++ [f; fc]).
  { intros f' s2 K1 K2 -> ->. exists (length a), f', f, (wf_new (w_next st) (w_stream st)).
    rewrite Ec, firstn_app, firstn_all, Nat.sub_diag. cbn [firstn]. rewrite app_nil_r.
    split; [|split; [|split; [reflexivity|split; [reflexivity|split; [exact Hid|split; [congruence|split; [exact K2|reflexivity]]]]]]].
    - exists D1. split; [exact I1|]. destruct S1 as (_ & S1). destruct (S1 (S (length a)) (wf_new (w_next st) (w_stream st)) (nth_after a [] f' _)) as [(_ & _ & _ & _ & Q1 & Q2 & _)|(g & G & _)].
      + cbn [wf_new wf_start] in *. lia.
      + rewrite Ec in G. assert (Q : nth_error (a ++ [f]) (S (length a)) = None) by (apply nth_error_None; rewrite app_length; cbn; lia). congruence.
    - unfold wowns. cbn [w_chain]. split; [apply nth_len|]. split; [apply nth_after|]. split; [congruence|]. split; [reflexivity|]. exact P0. }
  destruct (size =? ones).
  { injection E as Ea Eb1. eapply K; [| |symmetry; exact Eb1|symmetry; exact Ea]; reflexivity. }
  destruct (write_meta 0 size ix s1) as [[ok2 s2]| |] eqn:Em; cbn [bind] in E; [|discriminate E|discriminate E].
  destruct ok2; cbn [negb] in E; [|discriminate E].
  injection E as Ea Eb1. eapply K; [| |symmetry; exact Eb1|symmetry; exact Ea]; reflexivity.
Qed.

(** Closing. *)
Lemma w_end_owned h c start st n f fc D fl lim : winv st D fl lim -> wowns h c start st n f fc ->
  exists a b s3, w_chain st = a ++ f :: fc :: b /\ w_end h (Some c) st = Done (true, WSt s3 (a ++ [f]) (w_next st)) /\
    winv (WSt s3 (a ++ [f]) (w_next st)) (sized fl (start + 1) D) fl lim /\ ~ wlive c (WSt s3 (a ++ [f]) (w_next st)).
Proof.
  intros I0 O. pose proof I0 as (Hat & Hids & Hix & Hst).
  destruct (wowns_split _ _ _ _ _ _ _ Hids O) as (a & b & Es & Ec). pose proof O as (F & FC & I1 & I2 & I3).
  destruct (end_write_sized _ _ _ _ (wf_start fc) Hat (Hst _ _ FC)) as (s3 & E & Z). rewrite I3 in Z.
  assert (Ew : w_end h (Some c) st = Done (true, WSt s3 (a ++ [f]) (w_next st))).
  { unfold w_end. rewrite Es. cbn [head_id]. rewrite I2, hdl_refl. cbn [negb]. rewrite E. reflexivity. }
  exists a, b, s3. split; [exact Ec|]. split; [exact Ew|]. split.
  - destruct (step_inv (WEnd h (Some c)) st (WBool true) _ D fl lim I0 Logic.I ltac:(cbn [wstep as_bool]; rewrite Ew; reflexivity)) as (D' & J & _).
    replace (sized fl (start + 1) D) with D'; [exact J|]. rewrite <- (winv_bytes _ _ _ _ J). exact (ws_at_data _ _ _ _ Z).
  - rewrite <- I2. eapply wgone_after; [exact Hids|exact Ec|reflexivity].
Qed.
Lemma w_end_arr_owned h c start st n f fc D fl lim : winv st D fl lim -> wowns h c start st n f fc ->
  w_end_arr h (Some c) st = Done (false, st) \/
  exists a b s3, let st3 := WSt s3 (a ++ [WF (wf_id f) (wf_start f) 0 ones 0]) (w_next st) in
    w_chain st = a ++ f :: fc :: b /\ w_end_arr h (Some c) st = Done (true, st3) /\
    winv st3 (sized fl (start + 1) D) fl lim /\ ~ wlive c st3.
Proof.
  intros I0 O. pose proof I0 as (Hat & Hids & Hix & Hst).
  destruct (wowns_split _ _ _ _ _ _ _ Hids O) as (a & b & Es & Ec). pose proof O as (F & FC & I1 & I2 & I3).
  destruct (end_write_sized _ _ _ _ (wf_start fc) Hat (Hst _ _ FC)) as (s3 & E & Z). rewrite I3 in Z.
  unfold w_end_arr. rewrite Es. cbn [head_id]. rewrite I2, hdl_refl. cbn [negb].
  destruct (add64 (wf_index f) 1 =? wf_size f) eqn:Ez; cbn [negb]; [right|left; reflexivity].
  assert (Ew : w_end_arr h (Some c) st = Done (true, WSt s3 (a ++ [WF (wf_id f) (wf_start f) 0 ones 0]) (w_next st))).
  { unfold w_end_arr. rewrite Es. cbn [head_id]. rewrite I2, hdl_refl. cbn [negb]. rewrite Ez. cbn [negb]. rewrite E. reflexivity. }
  rewrite E. cbn [bind]. exists a, b, s3. split; [exact Ec|]. split; [reflexivity|]. split.
  - destruct (step_inv (WEndArr h (Some c)) st (WBool true) _ D fl lim I0 Logic.I ltac:(cbn [wstep as_bool]; rewrite Ew; reflexivity)) as (D' & J & _).
    replace (sized fl (start + 1) D) with D'; [exact J|]. rewrite <- (winv_bytes _ _ _ _ J). exact (ws_at_data _ _ _ _ Z).
  - rewrite <- I2. eapply wgone_after; [exact Hids|exact Ec|reflexivity].
Qed.

Lemma t_w_section init lim fl s0 hist st h key c st1 more st2 :
  fresh init lim fl = Done s0 -> lim < two64 -> whist s0 hist st -> all_sane hist -> w_begin h key st = Done (Some c, st1) ->
  wcont st1 more st2 -> all_sane more -> wlive c st2 ->
  exists st3, w_end h (Some c) st2 = Done (true, st3) /\
    bytes_of st3 = sized fl (len (bytes_of st) + 1) (bytes_of st2) /\ len (bytes_of st) + 10 <= len (bytes_of st2) /\
    ws_pos (w_stream st3) = len (bytes_of st3) /\ ~ wlive c st3.
Proof.
  intros F L W Hs E C Hm Lv. destruct (hist_inv _ _ _ _ _ _ (fresh_any _ _ _ _ F L) W Hs) as (D & I0).
  destruct (w_begin_owns h key st c st1 D fl lim I0 E) as (n & f & fc & (D1 & I1 & L1) & O & _).
  destruct (cont_inv _ _ _ _ _ _ C I1 Hm) as (D2 & I2 & L2).
  destruct (wowns_cont _ _ _ _ _ _ _ _ _ _ _ _ C I1 Hm O Lv) as (f' & fc' & O' & _).
  destruct (w_end_owned _ _ _ _ _ _ _ _ _ _ I2 O') as (a & b & s3 & _ & Ew & J & G).
  eexists. split; [exact Ew|]. rewrite (winv_bytes _ _ _ _ I0), (winv_bytes _ _ _ _ I2), (winv_bytes _ _ _ _ J).
  split; [reflexivity|]. split; [lia|]. split; [|exact G]. rewrite (winv_pos _ _ _ _ J), (winv_bytes _ _ _ _ J). reflexivity.
Qed.
Lemma t_w_array init lim fl s0 hist st h key size ix c st1 more st2 :
  fresh init lim fl = Done s0 -> lim < two64 -> whist s0 hist st -> all_sane hist -> w_begin_arr h key size ix st = Done (Some c, st1) ->
  wcont st1 more st2 -> all_sane more -> wlive c st2 ->
  w_end_arr h (Some c) st2 = Done (false, st2) \/
  exists st3, w_end_arr h (Some c) st2 = Done (true, st3) /\
    bytes_of st3 = sized fl (len (bytes_of st) + 1) (bytes_of st2) /\ len (bytes_of st) + 10 <= len (bytes_of st2) /\
    ws_pos (w_stream st3) = len (bytes_of st3) /\ ~ wlive c st3.
Proof.
  intros F L W Hs E C Hm Lv. destruct (hist_inv _ _ _ _ _ _ (fresh_any _ _ _ _ F L) W Hs) as (D & I0).
  destruct (w_begin_arr_owns h key size ix st c st1 D fl lim I0 E) as (n & f & f0 & fc & (D1 & I1 & L1) & O & _).
  destruct (cont_inv _ _ _ _ _ _ C I1 Hm) as (D2 & I2 & L2).
  destruct (wowns_cont _ _ _ _ _ _ _ _ _ _ _ _ C I1 Hm O Lv) as (f' & fc' & O' & _).
  destruct (w_end_arr_owned _ _ _ _ _ _ _ _ _ _ I2 O') as [Ew|(a & b & s3 & _ & Ew & J & G)]; [left; exact Ew|right].
  eexists. split; [exact Ew|]. rewrite (winv_bytes _ _ _ _ I0), (winv_bytes _ _ _ _ I2), (winv_bytes _ _ _ _ J).
  split; [reflexivity|]. split; [lia|]. split; [|exact G]. rewrite (winv_pos _ _ _ _ J), (winv_bytes _ _ _ _ J). reflexivity.
Qed.
Lemma t_w_element init lim fl s0 hist st h arr i st1 more st2 :
  fresh init lim fl = Done s0 -> lim < two64 -> whist s0 hist st -> all_sane hist -> w_begin_in h (Some arr) i st = Done (true, st1) -> i < ones ->
  wcont st1 more st2 -> all_sane more -> no_begin_in_w h more -> wlive arr st2 ->
  exists st3, w_end_in h (Some arr) i st2 = Done (true, st3) /\
    bytes_of st3 = sized fl (len (bytes_of st)) (bytes_of st2) /\ len (bytes_of st) + 8 <= len (bytes_of st2) /\
    ws_pos (w_stream st3) = len (bytes_of st3) /\ w_chain st3 = w_chain st2.
Proof.
  intros F L W Hs E Hi C Hm Hn Lv. destruct (hist_inv _ _ _ _ _ _ (fresh_any _ _ _ _ F L) W Hs) as (D & I0).
  destruct (step_inv (WBeginIn h (Some arr) i) st (WBool true) st1 D fl lim I0 Logic.I) as (D1 & I1 & S1 & L1 & new & X).
  { cbn [wstep as_bool]. rewrite E. reflexivity. }
  pose proof (ws_at_pos _ _ _ _ (proj1 I0)) as P0.
  assert (O : exists n f fc, wowns h arr (wf_start fc) st1 n f fc /\ wf_index f = i /\ wf_arr_start f = len D).
  { unfold w_begin_in in E. destruct (split_at wf_id h (w_chain st)) as [[[a f] b]|] eqn:Es; [|discriminate E].
    apply split_at_app in Es. destruct Es as (Ec & Hid & _).
    destruct (hdl_eqb (head_id wf_id b) (Some arr)) eqn:Eh; cbn [negb] in E; [|discriminate E].
    destruct (negb _) in E; [discriminate E|]. destruct (_ <=? _) in E; [discriminate E|].
    destruct (ws_u64 maxint64 (w_stream st)) as [s1| |]; cbn [bind] in E; [|discriminate E|discriminate E]. injection E as _ <-.
    destruct b as [|fc b]; [discriminate Eh|]. cbn [head_id hdl_eqb] in Eh. apply N.eqb_eq in Eh.
    exists (length a), (WF (wf_id f) (wf_start f) (wf_size f) i (ws_pos (w_stream st))), fc. unfold wowns. cbn [w_chain wf_id wf_index wf_arr_start].
    split; [|auto]. split; [apply nth_len|]. split; [apply nth_after|]. auto. }
  destruct O as (n & f & fc & O & Fi & Fa).
  destruct (cont_inv _ _ _ _ _ _ C I1 Hm) as (D2 & I2 & L2).
  destruct (wowns_cont _ _ _ _ _ _ _ _ _ _ _ _ C I1 Hm O Lv) as (f' & fc' & O' & K). specialize (K Hn). subst f'.
  pose proof I2 as (Hat & Hids & Hix & Hst). destruct (wowns_split _ _ _ _ _ _ _ Hids O') as (a & b & Es & Ec). pose proof O' as (F' & FC & J1 & J2 & J3).
  assert (Hne : wf_index f <> ones) by lia.
  pose proof (Hix _ _ F' Hne) as Hb. rewrite Fa in Hb. pose proof (ws_at_len _ _ _ _ Hat) as Hl. pose proof (ws_at_pos _ _ _ _ Hat) as Hpos.
  destruct (patch_sized _ _ _ _ (len D) (len D2 - len D - 8) Hat Hb ltac:(lia)) as (s1 & s2 & s3 & Q1 & Q2 & Q3 & Q4).
  assert (Ew : w_end_in h (Some arr) i st2 = Done (true, WSt s3 (w_chain st2) (w_next st2))).
  { unfold w_end_in. rewrite Es. cbn [head_id]. rewrite J2, hdl_refl, Fi, N.eqb_refl. cbn [negb orb]. rewrite Fa, Hpos, sub64_8 by lia.
    rewrite Q1. cbn [thrown bind]. rewrite Q2. cbn [bind]. rewrite <- Hpos, Q3. cbn [thrown bind].
    destruct (N.ltb_spec (len D) (ws_pos (w_stream st2))); [reflexivity|lia]. }
  eexists. split; [exact Ew|]. rewrite (winv_bytes _ _ _ _ I0), (winv_bytes _ _ _ _ I2). unfold bytes_of. cbn [w_stream w_chain].
  rewrite (ws_at_data _ _ _ _ Q4), (ws_at_pos _ _ _ _ Q4). repeat split. exact Hb.
Qed.

(** ** Closed sections are final *)
Definition nofield (q e : N) (st : wstate) : Prop := forall p, wfield st p -> p + 8 <= q \/ e <= p.
Lemma sized_outside fl p q e D : p + 8 <= len D -> q <= e -> e <= len D -> p + 8 <= q \/ e <= p -> same_between q e D (sized fl p D).
Proof.
  intros Hp Hq He Ho. unfold same_between, sized. destruct (parts D p 8 Hp) as (a & old & b & -> & <- & Hold).
  rewrite take_app_exact by lia. rewrite !len_app in *.
  replace (drop (len a + 8) (a ++ old ++ b)) with b.
  2:{ rewrite app_assoc, drop_app_exact; [reflexivity|]. rewrite len_app. lia. }
  assert (Hn : forall v, len (num W64 fl v) = 8) by (intros v; rewrite len_num; reflexivity).
  destruct Ho as [Ho|Ho].
  - rewrite !app_assoc. rewrite !drop_app_ge by (rewrite len_app, ?Hn; lia). rewrite !len_app, Hn, Hold. reflexivity.
  - rewrite !drop_app_le by lia. rewrite !take_app_le by (rewrite len_drop; lia). reflexivity.
Qed.
Lemma same_app q e D new : q <= e -> e <= len D -> same_between q e D (D ++ new).
Proof. intros Hq He. unfold same_between. rewrite drop_app_le by lia. rewrite take_app_le by (rewrite len_drop; lia). reflexivity. Qed.
Lemma nofield_step q e c st st' D fl lim : winv st D fl lim -> e <= len D -> wshape c st st' -> nofield q e st -> nofield q e st'.
Proof.
  intros I0 He (_ & S) Nf p [(k & f' & Hf & ->)|(k & f' & Hf & Hi & ->)].
  - destruct (S _ _ Hf) as [(_ & _ & _ & _ & X & _)|(f & Hf0 & _ & E & _)].
    + rewrite X, (ws_at_pos _ _ _ _ (proj1 I0)). right. lia.
    + rewrite E. apply Nf. left. eauto.
  - destruct (S _ _ Hf) as [(_ & _ & _ & _ & _ & _ & X)|(f & Hf0 & _ & _ & X)]; [contradiction|].
    destruct X as [->|[([X|(X1 & X2)] & _)|(_ & X1 & _)]].
    + apply Nf. right. eauto.
    + contradiction.
    + rewrite X2. apply Nf. right. exists k, f. rewrite <- X1. auto.
    + rewrite X1, (ws_at_pos _ _ _ _ (proj1 I0)). right. lia.
Qed.
Lemma keep_cont q e st l st' D fl lim : wcont st l st' -> winv st D fl lim -> all_sane l -> q <= e -> e <= len D -> nofield q e st ->
  exists D', winv st' D' fl lim /\ same_between q e D D'.
Proof.
  intros C. revert D. induction C as [|st c r st1 l st2 E C IH]; intros D I0 F Hq He Nf.
  - exists D. split; [exact I0|reflexivity].
  - inversion F as [|x l' Fa Fb]; subst. destruct (step_inv c st r st1 D fl lim I0 Fa E) as (D1 & I1 & S1 & L1 & X).
    destruct (IH D1 I1 Fb Hq ltac:(lia) (nofield_step _ _ _ _ _ _ _ _ I0 He S1 Nf)) as (D2 & I2 & Y). exists D2. split; [exact I2|].
    assert (Z : same_between q e D D1).
    { destruct (is_end c); [destruct X as [->|(p & Hp & Hb & ->)]|destruct X as (new & ->)].
      - reflexivity.
      - apply sized_outside; auto.
      - apply same_app; auto. }
    unfold same_between in *. congruence.
Qed.

(** The writers above an open section. *)
Definition olds (st0 : wstate) (q : N) (X : N -> Prop) (n : nat) (st : wstate) : Prop :=
  forall k f, (k <= n)%nat -> nth_error (w_chain st) k = Some f ->
    wlive (wf_id f) st0 /\ (~ X (wf_id f) -> wf_index f <> ones -> wf_arr_start f + 8 <= q) /\ (k <> O -> wf_start f + 10 <= q).
Lemma olds_step st0 q (X : N -> Prop) n c st st' : wshape c st st' -> (n < length (w_chain st))%nat ->
  (match c with WBeginIn h _ _ => ~ (wlive h st0 /\ ~ X h) | _ => True end) -> olds st0 q X n st -> olds st0 q X n st'.
Proof.
  intros (_ & S) Hn Hc O k f' Hk Hf. destruct (S k f' Hf) as [(E & _)|(f & Hf0 & I1 & I2 & Y)]; [lia|].
  destruct (O k f Hk Hf0) as (A & B & C). rewrite I1, I2. split; [exact A|]. split; [|exact C]. intros Hx Hi.
  destruct Y as [->|[([Y|(Y1 & Y2)] & _)|(Y & _)]].
  - exact (B Hx Hi).
  - contradiction.
  - rewrite Y2. apply B; [exact Hx|]. congruence.
  - destruct c; cbn in Y, Hc; try contradiction. subst. exfalso. exact (Hc (conj A Hx)).
Qed.
Lemma olds_cont st0 q (X : N -> Prop) n h c start f fc st l st' D fl lim : wcont st l st' -> winv st D fl lim -> all_sane l ->
  no_element_of (fun h => wlive h st0 /\ ~ X h) l -> wowns h c start st n f fc -> wlive c st' -> olds st0 q X n st -> olds st0 q X n st'.
Proof.
  intros C. revert D f fc. induction C as [|st cl r st1 l st2 E C IH]; intros D f fc I0 F Ne O L Ol; [exact Ol|].
  inversion F as [|x l' Fa Fb]; subst. inversion Ne as [|y l'' Na Nb]; subst.
  destruct (step_inv cl st r st1 D fl lim I0 Fa E) as (D1 & I1 & S1 & _). destruct I0 as (_ & R & _).
  destruct (wlive_dec c st1) as [L1|L1].
  - destruct (wowns_step _ _ _ _ _ _ _ _ _ R S1 O L1) as (f1 & fc1 & O1 & _).
    refine (IH D1 f1 fc1 I1 Fb Nb O1 L _). eapply olds_step; [exact S1| |destruct cl; exact Na|exact Ol].
    destruct O as (_ & FC & _). assert (Nat.lt (S n) (length (w_chain st))) by (apply nth_error_Some; rewrite FC; discriminate). lia.
  - exfalso. refine (wgone_cont _ _ _ c D1 fl lim C I1 Fb _ L1 L). destruct R as (_ & B), O as (_ & FC & _ & <- & _). destruct S1 as (Hn & _). apply B in FC. lia.
Qed.
Lemma olds_start st D fl lim (X : N -> Prop) n : winv st D fl lim -> olds st (len D) X n st.
Proof.
  intros (_ & _ & Hix & Hst) k f _ Hf. split; [eapply nth_wlive; exact Hf|]. split; [intros _; exact (Hix k f Hf)|].
  intros Hk. destruct k as [|k]; [contradiction|]. exact (Hst k f Hf).
Qed.
Lemma olds_nofield st0 q e (X : N -> Prop) a f st : olds st0 q X (length a) st -> w_chain st = a ++ [f] ->
  (X (wf_id f) -> wf_index f = ones) -> (forall g, In g a -> ~ X (wf_id g)) -> nofield q e st.
Proof.
  intros O Ec Hf Ha p Hp. left.
  assert (K : forall k g, nth_error (w_chain st) k = Some g -> (k <= length a)%nat).
  { intros k g Hk. rewrite Ec in Hk. assert (Nat.lt k (length (a ++ [f]))) by (apply nth_error_Some; rewrite Hk; discriminate). rewrite app_length in *. cbn in *. lia. }
  destruct Hp as [(k & g & Hg & ->)|(k & g & Hg & Hi & ->)].
  - destruct (O _ g (K _ _ Hg) Hg) as (_ & _ & C). specialize (C ltac:(discriminate)). lia.
  - destruct (O _ g (K _ _ Hg) Hg) as (_ & B & _). apply B; [|exact Hi]. intros Hx.
    rewrite Ec in Hg. destruct (nth_short a [] f f k g Hg) as [Y|(-> & ->)].
    + destruct (Nat.lt_ge_cases k (length a)) as [Hk|Hk].
      * rewrite nth_error_app1 in Y by exact Hk. exact (Ha g (nth_error_In _ _ Y) Hx).
      * assert (k = length a) by (pose proof (K k g ltac:(rewrite Ec; exact Hg)); lia). subst k. rewrite nth_len in Y. injection Y as <-. exact (Hi (Hf Hx)).
    + exact (Hi (Hf Hx)).
Qed.

Lemma t_w_section_final init lim fl s0 hist st h key c st1 more st2 st3 later st4 :
  fresh init lim fl = Done s0 -> lim < two64 -> whist s0 hist st -> all_sane hist -> w_begin h key st = Done (Some c, st1) ->
  wcont st1 more st2 -> all_sane more -> no_element_of (fun x => wlive x st) more -> wlive c st2 ->
  w_end h (Some c) st2 = Done (true, st3) -> wcont st3 later st4 -> all_sane later ->
  same_between (len (bytes_of st)) (len (bytes_of st3)) (bytes_of st3) (bytes_of st4).
Proof.
  intros F L W Hs E C Hm Ne Lv Ee C2 Hl. destruct (hist_inv _ _ _ _ _ _ (fresh_any _ _ _ _ F L) W Hs) as (D & I0).
  destruct (w_begin_owns h key st c st1 D fl lim I0 E) as (n & f & fc & (D1 & I1 & L1) & O & Ec0 & Hn & Hid & Ec1).
  destruct (cont_inv _ _ _ _ _ _ C I1 Hm) as (D2 & I2 & L2).
  destruct (wowns_cont _ _ _ _ _ _ _ _ _ _ _ _ C I1 Hm O Lv) as (f' & fc' & O' & _).
  assert (Ol1 : olds st (len D) (fun _ => False) n st1).
  { intros k g Hk Hg. rewrite Ec1 in Hg. assert (Hg0 : nth_error (w_chain st) k = Some g).
    { rewrite nth_error_app1 in Hg; [exact Hg|]. rewrite Ec0, app_length, Hn. cbn. lia. }
    exact (olds_start st D fl lim (fun _ => False) n I0 k g Hk Hg0). }
  assert (Ne' : no_element_of (fun x => wlive x st /\ ~ False) more).
  { eapply Forall_impl; [|exact Ne]. intros [cl r] Hp. destruct cl; cbn in *; try exact Logic.I. tauto. }
  pose proof (olds_cont _ _ _ _ _ _ _ _ _ _ _ _ _ _ _ C I1 Hm Ne' O Lv Ol1) as Ol2.
  destruct (w_end_owned _ _ _ _ _ _ _ _ _ _ I2 O') as (a & b & s3 & Ec & Ew & J & G). rewrite Ew in Ee. injection Ee as <-.
  assert (Hla : length a = n).
  { destruct O' as (F' & _ & J1 & _). destruct I2 as (_ & (U & _) & _). eapply U; [rewrite Ec; apply nth_len|exact F'|]. reflexivity. }
  rewrite (winv_bytes _ _ _ _ I0), (winv_bytes _ _ _ _ J).
  assert (Hls : len (sized fl (len D + 1) D2) = len D2) by (apply len_sized; lia).
  assert (Nf : nofield (len D) (len (sized fl (len D + 1) D2)) (WSt s3 (a ++ [f']) (w_next st2))).
  { eapply (olds_nofield st _ _ (fun _ => False) a f'); [|reflexivity|contradiction|auto]. rewrite Hla. intros k g Hk Hg. cbn [w_chain] in Hg.
    apply (Ol2 k g Hk). rewrite Ec. destruct (nth_short a (fc' :: b) f' f' k g Hg) as [Y|(-> & ->)]; [exact Y|apply nth_len]. }
  destruct (keep_cont (len D) (len (sized fl (len D + 1) D2)) _ _ _ _ _ _ C2 J Hl ltac:(lia) ltac:(lia) Nf) as (D4 & I4 & Z).
  rewrite (winv_bytes _ _ _ _ I4). exact Z.
Qed.
Lemma t_w_array_final init lim fl s0 hist st h key size ix c st1 more st2 st3 later st4 :
  fresh init lim fl = Done s0 -> lim < two64 -> whist s0 hist st -> all_sane hist -> w_begin_arr h key size ix st = Done (Some c, st1) ->
  wcont st1 more st2 -> all_sane more -> no_element_of (fun x => wlive x st /\ x <> h) more -> wlive c st2 ->
  w_end_arr h (Some c) st2 = Done (true, st3) -> wcont st3 later st4 -> all_sane later ->
  same_between (len (bytes_of st)) (len (bytes_of st3)) (bytes_of st3) (bytes_of st4).
Proof.
  intros F L W Hs E C Hm Ne Lv Ee C2 Hl. destruct (hist_inv _ _ _ _ _ _ (fresh_any _ _ _ _ F L) W Hs) as (D & I0).
  destruct (w_begin_arr_owns h key size ix st c st1 D fl lim I0 E) as (n & f & f0 & fc & (D1 & I1 & L1) & O & Ec0 & Hn & Hid0 & Hid & Hsf & Ec1).
  destruct (cont_inv _ _ _ _ _ _ C I1 Hm) as (D2 & I2 & L2).
  destruct (wowns_cont _ _ _ _ _ _ _ _ _ _ _ _ C I1 Hm O Lv) as (f' & fc' & O' & _).
  assert (Ol1 : olds st (len D) (eq h) n st1).
  { pose proof (olds_start _ _ _ _ (eq h) n I0) as Q. intros k g Hk Hg. rewrite Ec1 in Hg.
    destruct (Nat.lt_ge_cases k n) as [Hkn|Hkn].
    - apply (Q k g Hk). rewrite Ec0. rewrite nth_error_app1 in * by (rewrite Hn; exact Hkn). exact Hg.
    - assert (k = n) by lia. subst k. rewrite nth_error_app2, Hn, Nat.sub_diag in Hg by (rewrite Hn; lia). cbn in Hg. injection Hg as <-.
      assert (Hf0 : nth_error (w_chain st) n = Some f0). { rewrite Ec0, nth_error_app2, Hn, Nat.sub_diag by (rewrite Hn; lia). reflexivity. }
      destruct (Q n f0 Hk Hf0) as (A & _ & B). rewrite Hid, Hsf. rewrite Hid0 in A. split; [exact A|]. split; [intros X; destruct X; reflexivity|exact B]. }
  assert (Ne' : no_element_of (fun x => wlive x st /\ h <> x) more).
  { eapply Forall_impl; [|exact Ne]. intros [cl r] Hp. destruct cl; cbn in *; try exact Logic.I. intros (A & B). apply Hp. split; [exact A|]. congruence. }
  pose proof (olds_cont _ _ _ _ _ _ _ _ _ _ _ _ _ _ _ C I1 Hm Ne' O Lv Ol1) as Ol2.
  destruct (w_end_arr_owned _ _ _ _ _ _ _ _ _ _ I2 O') as [Ew|(a & b & s3 & Ec & Ew & J & G)]; rewrite Ew in Ee; [discriminate Ee|]. injection Ee as <-.
  pose proof O' as (F' & _ & J1 & _). pose proof I2 as (_ & (U & _) & _).
  assert (Hla : length a = n) by (eapply U; [rewrite Ec; apply nth_len|exact F'|reflexivity]).
  rewrite (winv_bytes _ _ _ _ I0), (winv_bytes _ _ _ _ J).
  assert (Hls : len (sized fl (len D + 1) D2) = len D2) by (apply len_sized; lia).
  set (fr := WF (wf_id f') (wf_start f') 0 ones 0) in *.
  assert (Nf : nofield (len D) (len (sized fl (len D + 1) D2)) (WSt s3 (a ++ [fr]) (w_next st2))).
  { eapply (olds_nofield st _ _ (eq h) a fr); [|reflexivity|intros _; reflexivity|].
    - rewrite Hla. intros k g Hk Hg. cbn [w_chain] in Hg. destruct (nth_short a (fc' :: b) f' fr k g Hg) as [Y|(-> & ->)].
      + apply (Ol2 k g Hk). rewrite Ec. exact Y.
      + destruct (Ol2 (length a) f' Hk ltac:(rewrite Ec; apply nth_len)) as (A & _ & B). cbn [fr wf_id wf_index wf_start]. split; [exact A|]. split; [intros _ X; destruct X; reflexivity|exact B].
    - intros g Hg X. apply In_nth_error in Hg. destruct Hg as (k & Hk).
      assert (Hkl : Nat.lt k (length a)) by (apply nth_error_Some; rewrite Hk; discriminate).
      assert (k = length a). { eapply U; [rewrite Ec, nth_error_app1 by exact Hkl; exact Hk|rewrite Ec; apply nth_len|congruence]. } lia. }
  destruct (keep_cont (len D) (len (sized fl (len D + 1) D2)) _ _ _ _ _ _ C2 J Hl ltac:(lia) ltac:(lia) Nf) as (D4 & I4 & Z).
  rewrite (winv_bytes _ _ _ _ I4). exact Z.
Qed.
