(** * WriterEndFacts: the bytes written under any history of calls on a writer (proofs only). *)
From Verif Require Import Base Bytes BytesFacts Values Streams FileSpec StreamFacts Types Format
  EntityWriter EntityWriterFacts Items Sections SectionFacts Protocol SectionEndSpec SectionEndFacts WriterAppend WriterEndSpec.
Open Scope N_scope.

Definition is_begin_in_w (h : N) (c : wcall) : Prop := match c with WBeginIn h' _ _ => h' = h | _ => False end.

(** What a frame may become: the same; reset, or only its size changed, when it is the last one before or after; or an
    element of its array is begun. *)
Definition wchg (c : wcall) (st st' : wstate) (k : nat) (f f' : wframe) : Prop :=
  f' = f \/
  (wf_index f' = ones \/ wf_index f' = wf_index f /\ wf_arr_start f' = wf_arr_start f) /\
    (Nat.le (length (w_chain st')) (S k) \/ Nat.le (length (w_chain st)) (S k)) \/
  is_begin_in_w (wf_id f) c /\ wf_arr_start f' = ws_pos (w_stream st) /\ wf_arr_start f' + 8 <= ws_pos (w_stream st').
Definition wshape (c : wcall) (st st' : wstate) : Prop :=
  w_next st <= w_next st' /\
  forall k f', nth_error (w_chain st') k = Some f' ->
    (k = length (w_chain st) /\ k <> O /\ wf_id f' = w_next st /\ w_next st' = w_next st + 1 /\ wf_start f' = ws_pos (w_stream st) /\
     wf_start f' + 10 <= ws_pos (w_stream st') /\ wf_index f' = ones) \/
    (exists f, nth_error (w_chain st) k = Some f /\ wf_id f' = wf_id f /\ wf_start f' = wf_start f /\ wchg c st st' k f f').

Lemma wshape_same c st st' : w_chain st' = w_chain st -> w_next st' = w_next st -> wshape c st st'.
Proof. intros E1 E2. split; [lia|]. rewrite E1. intros k f' H. right. exists f'. split; [exact H|]. split; [reflexivity|]. split; [reflexivity|]. left. reflexivity. Qed.
Lemma wshape_in c st st' a f f' b : w_chain st = a ++ f :: b -> w_chain st' = a ++ f' :: b -> w_next st' = w_next st ->
  wf_id f' = wf_id f -> wf_start f' = wf_start f -> is_begin_in_w (wf_id f) c -> wf_arr_start f' = ws_pos (w_stream st) ->
  wf_arr_start f' + 8 <= ws_pos (w_stream st') -> wshape c st st'.
Proof.
  intros E1 E2 E3 I1 I2 Hb Hs Hp. split; [lia|]. rewrite E1, E2. intros k x H.
  destruct (nth_mid a b f f' k x H) as [X|(-> & ->)].
  - right. exists x. split; [exact X|]. split; [reflexivity|]. split; [reflexivity|]. left. reflexivity.
  - right. exists f. split; [apply nth_len|]. split; [exact I1|]. split; [exact I2|]. right. right. auto.
Qed.
Lemma wshape_close c st st' a f f' b : w_chain st = a ++ f :: b -> w_chain st' = a ++ [f'] -> w_next st' = w_next st ->
  wf_id f' = wf_id f -> wf_start f' = wf_start f ->
  wf_index f' = ones \/ wf_index f' = wf_index f /\ wf_arr_start f' = wf_arr_start f -> wshape c st st'.
Proof.
  intros E1 E2 E3 I1 I2 Hx. split; [lia|]. intros k x H. rewrite E2 in H.
  destruct (nth_short a b f f' k x H) as [X|(-> & ->)].
  - right. exists x. rewrite E1. split; [exact X|]. split; [reflexivity|]. split; [reflexivity|]. left. reflexivity.
  - right. exists f. rewrite E1. split; [apply nth_len|]. split; [exact I1|]. split; [exact I2|]. right. left. split; [exact Hx|].
    left. rewrite E2, app_length. cbn. lia.
Qed.
Lemma wshape_open c st st' a f f' n : w_chain st = a ++ [f] -> w_chain st' = a ++ [f'; n] -> w_next st' = w_next st + 1 ->
  wf_id f' = wf_id f -> wf_start f' = wf_start f ->
  wf_index f' = ones \/ wf_index f' = wf_index f /\ wf_arr_start f' = wf_arr_start f ->
  n = wf_new (w_next st) (w_stream st) -> ws_pos (w_stream st) + 10 <= ws_pos (w_stream st') -> wshape c st st'.
Proof.
  intros E1 E2 E3 I1 I2 Hx -> Hp. split; [lia|]. intros k x H. rewrite E2 in H.
  destruct (nth_last a f f' _ k x H) as [X|[(-> & ->)|(-> & ->)]].
  - right. exists x. rewrite E1. split; [exact X|]. split; [reflexivity|]. split; [reflexivity|]. left. reflexivity.
  - right. exists f. rewrite E1. split; [apply nth_len|]. split; [exact I1|]. split; [exact I2|]. right. left. split; [exact Hx|].
    right. rewrite E1, app_length. cbn. lia.
  - left. rewrite E1. split; [rewrite app_length; cbn; lia|]. split; [discriminate|]. cbn [wf_new wf_id wf_start wf_index]. auto.
Qed.

(** The invariant: the stream stands at its end, identities are unique, size fields lie in what was written. *)
Definition wids (st : wstate) : Prop :=
  (forall k l f g, nth_error (w_chain st) k = Some f -> nth_error (w_chain st) l = Some g -> wf_id f = wf_id g -> k = l) /\
  (forall k f, nth_error (w_chain st) k = Some f -> wf_id f < w_next st).
Definition winv (st : wstate) (D : list byte) (fl : bool) (lim : N) : Prop :=
  ws_at (w_stream st) D fl lim /\ wids st /\
  (forall k f, nth_error (w_chain st) k = Some f -> wf_index f <> ones -> wf_arr_start f + 8 <= len D) /\
  (forall k f, nth_error (w_chain st) (S k) = Some f -> wf_start f + 10 <= len D).
(** A size field that may be rewritten. *)
Definition wfield (st : wstate) (p : N) : Prop :=
  (exists k f, nth_error (w_chain st) (S k) = Some f /\ p = wf_start f + 1) \/
  (exists k f, nth_error (w_chain st) k = Some f /\ wf_index f <> ones /\ p = wf_arr_start f).

Lemma ws_at_len s D fl lim : ws_at s D fl lim -> len D < two64.
Proof. intros H. pose proof (ws_at_size _ _ _ _ H) as E. destruct H as (((G1 & G2 & G3 & G4 & G5 & G6) & _) & _). lia. Qed.
Lemma len_sized fl p D : p + 8 <= len D -> len (sized fl p D) = len D.
Proof. intros H. unfold sized. rewrite !len_app, len_take, len_drop, len_num. cbn [wbytes]. lia. Qed.

Lemma sized_parts fl (p : N) (a old b : list byte) : len a = p -> len old = 8 -> sized fl p (a ++ old ++ b) = a ++ num W64 fl (len b) ++ b.
Proof.
  intros Ha Ho. unfold sized. rewrite take_app_exact by lia.
  replace (a ++ old ++ b) with ((a ++ old) ++ b) by (symmetry; apply app_assoc).
  rewrite drop_app_exact by (rewrite len_app; lia). rewrite !len_app. do 2 f_equal. f_equal. lia.
Qed.
Lemma parts {A} (D : list A) p n : p + n <= len D -> exists a old b, D = a ++ old ++ b /\ len a = p /\ len old = n.
Proof.
  intros H. exists (take p D), (take n (drop p D)), (drop n (drop p D)). rewrite !take_drop.
  split; [reflexivity|]. rewrite !len_take, len_drop. lia.
Qed.

Lemma end_write_sized s D fl lim q : ws_at s D fl lim -> q + 10 <= len D ->
  exists s', end_write q s = Done (true, s') /\ ws_at s' (sized fl (q + 1) D) fl lim.
Proof.
  intros H Hq. destruct (parts D q 9 ltac:(lia)) as (a & t & b & -> & <- & Ht).
  destruct (end_write_any s a t b fl lim Ht H) as (s' & E & H'). exists s'. split; [exact E|].
  destruct t as [|x t]; [discriminate Ht|]. rewrite len_cons in Ht.
  change (a ++ (x :: t) ++ b) with (a ++ [x] ++ t ++ b). rewrite (app_assoc a [x]).
  rewrite (sized_parts fl (len a + 1) (a ++ [x]) t b) by (rewrite ?len_app, ?len_cons, ?len_nil; lia).
  rewrite num_enc, <- app_assoc. exact H'.
Qed.
Lemma patch_sized s D fl lim p v : ws_at s D fl lim -> p + 8 <= len D -> v = len D - (p + 8) ->
  exists s1 s2 s3, ws_setpos p s = (true, s1) /\ ws_u64 v s1 = Done s2 /\ ws_setpos (ws_pos s) s2 = (true, s3) /\ ws_at s3 (sized fl p D) fl lim.
Proof.
  intros H Hp ->. destruct (parts D p 8 Hp) as (a & t & b & -> & <- & Ht).
  destruct (ws_patch_any (len a) (len (a ++ t ++ b) - (len a + 8)) s a t b fl lim H eq_refl Ht) as (s1 & s2 & s3 & P1 & P2 & P3 & P4).
  exists s1, s2, s3. repeat (split; [assumption|]). rewrite (sized_parts fl (len a) a t b eq_refl Ht), num_enc.
  replace (len (a ++ t ++ b) - (len a + 8)) with (len b) in P4 by (rewrite !len_app; lia). exact P4.
Qed.

Lemma nth_after {A} (a b : list A) f c : nth_error (a ++ f :: c :: b) (S (length a)) = Some c.
Proof. rewrite nth_error_app2 by lia. replace (S (length a) - length a)%nat with 1%nat by lia. reflexivity. Qed.

(** One call. *)
Definition effect (c : wcall) (st st' : wstate) (D : list byte) (fl : bool) (lim : N) : Prop :=
  exists D', ws_at (w_stream st') D' fl lim /\ wshape c st st' /\
    (if is_end c then D' = D \/ exists p, wfield st p /\ D' = sized fl p D else exists new, D' = D ++ new).
Lemma effect_same c st st' D fl lim : ws_at (w_stream st) D fl lim -> st' = st -> effect c st st' D fl lim.
Proof.
  intros H ->. exists D. split; [exact H|]. split; [apply wshape_same; reflexivity|]. destruct (is_end c); [left; reflexivity|exists []; symmetry; apply app_nil_r].
Qed.

Lemma wstep_any c st D fl lim : winv st D fl lim -> sane c ->
  match wstep c st with
  | Done (r, st') => effect c st st' D fl lim
  | Throw => is_end c = false
  | Undef => True
  end.
Proof.
  intros (Hat & Hids & Hix & Hst) Hs. pose proof (ws_at_pos _ _ _ _ Hat) as Hpos.
  destruct c as [h t key v|h key|h arg|h key size ix|h arg i|h arg i|h arg]; cbn [wstep]; unfold as_bool, as_handle.
  - unfold w_write. destruct (split_at wf_id h (w_chain st)) as [[[a f] b]|] eqn:Es; [|exact Logic.I].
    pose proof (ew_write_grow t key v _ _ _ _ Hat) as X. destruct (ew_write t key v (w_stream st)) as [[ok s1]| |]; cbn [bind]; [|reflexivity|exact Logic.I].
    destruct X as (new & X). exists (D ++ new). split; [exact X|]. split; [apply wshape_same; reflexivity|]. exists new. reflexivity.
  - unfold w_begin. destruct (split_at wf_id h (w_chain st)) as [[[a f] b]|] eqn:Es; [|exact Logic.I].
    apply split_at_app in Es. destruct Es as (Ec & Hid & _).
    destruct b as [|c0 b]; [|cbn [bind]; apply effect_same; auto].
    pose proof (begin_write_grow vt_subsection key _ _ _ _ Hat) as X. destruct (begin_write vt_subsection key (w_stream st)) as [[ok s1]| |]; cbn [bind]; [|reflexivity|exact Logic.I].
    destruct X as (name & X). eexists. split; [exact X|]. split; [|eexists; reflexivity].
    eapply wshape_open; [exact Ec|reflexivity|reflexivity|reflexivity|reflexivity|right; auto|reflexivity|].
    cbn [w_stream]. rewrite (ws_at_pos _ _ _ _ X), Hpos, !len_app, !len_enc. cbn [wbytes]. lia.
  - unfold w_end. destruct (split_at wf_id h (w_chain st)) as [[[a f] b]|] eqn:Es; [|exact Logic.I].
    apply split_at_app in Es. destruct Es as (Ec & Hid & _).
    destruct (negb _); [cbn [bind]; apply effect_same; auto|]. destruct b as [|c0 b]; [exact Logic.I|].
    assert (Hn : nth_error (w_chain st) (S (length a)) = Some c0) by (rewrite Ec; apply nth_after).
    destruct (end_write_sized _ _ _ _ (wf_start c0) Hat (Hst _ _ Hn)) as (s1 & E & Z). rewrite E. cbn [bind].
    eexists. split; [exact Z|]. split; [|right; eexists; split; [left; exists (length a), c0; auto|reflexivity]].
    eapply wshape_close; [exact Ec|reflexivity|reflexivity|reflexivity|reflexivity|right; auto].
  - unfold w_begin_arr. destruct (split_at wf_id h (w_chain st)) as [[[a f] b]|] eqn:Es; [|exact Logic.I].
    apply split_at_app in Es. destruct Es as (Ec & Hid & _).
    destruct b as [|c0 b]; [|cbn [bind]; apply effect_same; auto].
    pose proof (begin_write_grow vt_array_subsection key _ _ _ _ Hat) as X. destruct (begin_write vt_array_subsection key (w_stream st)) as [[ok s1]| |]; cbn [bind]; [|reflexivity|exact Logic.I].
    destruct X as (name & X).
    assert (Hp1 : ws_pos (w_stream st) + 10 <= ws_pos s1).
    { rewrite (ws_at_pos _ _ _ _ X), Hpos, !len_app, !len_enc. cbn [wbytes]. lia. }
    destruct ok; cbn [negb].
    2:{ cbn [bind]. eexists. split; [exact X|]. split; [|eexists; reflexivity].
        eapply wshape_open; [exact Ec|reflexivity|reflexivity|reflexivity|reflexivity|right; auto|reflexivity|exact Hp1]. }
    destruct (size =? ones).
    { cbn [bind]. eexists. split; [exact X|]. split; [|eexists; reflexivity].
      eapply wshape_open; [exact Ec|reflexivity|reflexivity|reflexivity|reflexivity|right; auto|reflexivity|exact Hp1]. }
    pose proof (write_meta_grow 0 size ix _ _ _ _ X) as Y. destruct (write_meta 0 size ix s1) as [[ok2 s2]| |]; cbn [bind]; [|reflexivity|exact Logic.I].
    destruct Y as (new & Y).
    assert (Hp2 : ws_pos (w_stream st) + 10 <= ws_pos s2).
    { rewrite (ws_at_pos _ _ _ _ Y), Hpos, !len_app, !len_enc. cbn [wbytes]. lia. }
    rewrite <- app_assoc in Y.
    destruct ok2; cbn [negb bind]; eexists; (split; [exact Y|]); (split; [|eexists; reflexivity]).
    + eapply wshape_open; [exact Ec|reflexivity|reflexivity|reflexivity|reflexivity|left; reflexivity|reflexivity|exact Hp2].
    + eapply wshape_open; [exact Ec|reflexivity|reflexivity|reflexivity|reflexivity|right; auto|reflexivity|exact Hp2].
  - unfold w_begin_in. destruct (split_at wf_id h (w_chain st)) as [[[a f] b]|] eqn:Es; [|exact Logic.I].
    apply split_at_app in Es. destruct Es as (Ec & Hid & _).
    destruct (negb _); [cbn [bind]; apply effect_same; auto|]. destruct (negb _); [cbn [bind]; apply effect_same; auto|].
    destruct (_ <=? _); [cbn [bind]; apply effect_same; auto|].
    pose proof (ws_word_grow W64 maxint64 _ _ _ _ Hat) as X. change (ws_write (KW W64) 1 (le (N.to_nat (wbytes W64)) maxint64) (w_stream st)) with (ws_u64 maxint64 (w_stream st)) in X.
    destruct (ws_u64 maxint64 (w_stream st)) as [s1| |]; cbn [bind]; [|reflexivity|exact Logic.I].
    eexists. split; [exact X|]. split; [|eexists; reflexivity].
    eapply wshape_in; [exact Ec|reflexivity|reflexivity|reflexivity|reflexivity|symmetry; exact Hid|reflexivity|].
    cbn [w_stream wf_arr_start]. rewrite (ws_at_pos _ _ _ _ X), Hpos, len_app, len_enc. cbn [wbytes]. lia.
  - unfold w_end_in. destruct (split_at wf_id h (w_chain st)) as [[[a f] b]|] eqn:Es; [|exact Logic.I].
    apply split_at_app in Es. destruct Es as (Ec & Hid & _).
    destruct (negb _); cbn [orb]; [cbn [bind]; apply effect_same; auto|].
    destruct (N.eqb_spec (wf_index f) i) as [Ei|]; cbn [negb]; [|cbn [bind]; apply effect_same; auto].
    assert (Hn : nth_error (w_chain st) (length a) = Some f) by (rewrite Ec; apply nth_len).
    assert (Hi : wf_index f <> ones) by (cbn in Hs; congruence). pose proof (Hix _ _ Hn Hi) as Hb.
    pose proof (ws_at_len _ _ _ _ Hat) as Hl.
    rewrite Hpos. rewrite sub64_8 by lia.
    destruct (patch_sized _ _ _ _ (wf_arr_start f) (len D - wf_arr_start f - 8) Hat Hb ltac:(lia)) as (s1 & s2 & s3 & P1 & P2 & P3 & P4).
    rewrite P1. cbn [thrown bind]. rewrite P2. cbn [bind]. rewrite <- Hpos, P3. cbn [thrown bind].
    eexists. split; [exact P4|]. split; [apply wshape_same; reflexivity|]. right. eexists. split; [right; exists (length a), f; auto|reflexivity].
  - unfold w_end_arr. destruct (split_at wf_id h (w_chain st)) as [[[a f] b]|] eqn:Es; [|exact Logic.I].
    apply split_at_app in Es. destruct Es as (Ec & Hid & _).
    destruct (negb _); [cbn [bind]; apply effect_same; auto|]. destruct (negb _); [cbn [bind]; apply effect_same; auto|].
    destruct b as [|c0 b]; [exact Logic.I|].
    assert (Hn : nth_error (w_chain st) (S (length a)) = Some c0) by (rewrite Ec; apply nth_after).
    destruct (end_write_sized _ _ _ _ (wf_start c0) Hat (Hst _ _ Hn)) as (s1 & E & Z). rewrite E. cbn [bind].
    eexists. split; [exact Z|]. split; [|right; eexists; split; [left; exists (length a), c0; auto|reflexivity]].
    eapply wshape_close; [exact Ec|reflexivity|reflexivity|reflexivity|reflexivity|left; reflexivity].
Qed.

(** The invariant is kept. *)
Lemma wids_step c st st' : wids st -> wshape c st st' -> wids st'.
Proof.
  intros (U & B) (Hn & S). split.
  - intros k l f g Hf Hg Hid.
    destruct (S k f Hf) as [(-> & _ & F1 & _)|(f0 & F1 & F2 & _)]; destruct (S l g Hg) as [(-> & _ & G1 & _)|(g0 & G1 & G2 & _)].
    + reflexivity.
    + apply B in G1. exfalso. lia.
    + apply B in F1. exfalso. lia.
    + eapply U; [exact F1|exact G1|congruence].
  - intros k f Hf. destruct (S k f Hf) as [(-> & _ & F1 & F2 & _)|(f0 & F1 & F2 & _)]; [lia|]. apply B in F1. lia.
Qed.
Lemma wfield_in st D fl lim p : winv st D fl lim -> wfield st p -> p + 8 <= len D.
Proof.
  intros (_ & _ & Hix & Hst) [(k & f & Hf & ->)|(k & f & Hf & Hi & ->)].
  - pose proof (Hst k f Hf). lia.
  - exact (Hix k f Hf Hi).
Qed.
Lemma effect_inv c st st' D fl lim : winv st D fl lim -> effect c st st' D fl lim ->
  exists D', winv st' D' fl lim /\ wshape c st st' /\ len D <= len D' /\
    (if is_end c then D' = D \/ exists p, wfield st p /\ p + 8 <= len D /\ D' = sized fl p D else exists new, D' = D ++ new).
Proof.
  intros I0 (D' & Hat' & Hsh & He). pose proof I0 as (Hat & Hids & Hix & Hst).
  assert (Hlen : len D <= len D').
  { destruct (is_end c); [destruct He as [->|(p & Hp & ->)]|destruct He as (new & ->)]; [lia| |rewrite len_app; lia].
    rewrite len_sized; [lia|]. exact (wfield_in _ _ _ _ _ I0 Hp). }
  exists D'. pose proof (ws_at_pos _ _ _ _ Hat) as P. pose proof (ws_at_pos _ _ _ _ Hat') as P'. split.
  - split; [exact Hat'|]. split; [eapply wids_step; eassumption|]. destruct Hsh as (_ & S). split.
    + intros k f' Hf' Hi. destruct (S k f' Hf') as [(_ & _ & _ & _ & _ & _ & X)|(f & Hf & _ & _ & X)]; [contradiction|].
      destruct X as [->|[([X|(X1 & X2)] & _)|(_ & X1 & X2)]].
      * pose proof (Hix k f Hf Hi). lia.
      * contradiction.
      * rewrite X2. rewrite X1 in Hi. pose proof (Hix k f Hf Hi). lia.
      * lia.
    + intros k f' Hf'. destruct (S (Datatypes.S k) f' Hf') as [(_ & _ & _ & _ & _ & X & _)|(f & Hf & _ & E & _)]; [lia|].
      pose proof (Hst k f Hf). lia.
  - split; [exact Hsh|]. split; [exact Hlen|]. destruct (is_end c); [|exact He]. destruct He as [He|(p & Hp & He)]; [left; exact He|].
    right. exists p. split; [exact Hp|]. split; [exact (wfield_in _ _ _ _ _ I0 Hp)|exact He].
Qed.
Lemma step_inv c st r st' D fl lim : winv st D fl lim -> sane c -> wstep c st = Done (r, st') ->
  exists D', winv st' D' fl lim /\ wshape c st st' /\ len D <= len D' /\
    (if is_end c then D' = D \/ exists p, wfield st p /\ p + 8 <= len D /\ D' = sized fl p D else exists new, D' = D ++ new).
Proof. intros I0 Hs E. apply effect_inv; [exact I0|]. pose proof (wstep_any c st D fl lim I0 Hs) as X. rewrite E in X. exact X. Qed.
Lemma open_inv s D fl lim : ws_at s D fl lim -> winv (w_open s) D fl lim.
Proof.
  intros H. split; [exact H|]. split; [split|split].
  - intros [|[|k]] [|[|l]] f g; cbn; intros Hf Hg; try discriminate; reflexivity.
  - intros [|[|k]] f; cbn; intros Hf; try discriminate. injection Hf as <-. reflexivity.
  - intros [|[|k]] f; cbn; intros Hf; try discriminate. injection Hf as <-. intros X. destruct X. reflexivity.
  - intros [|k] f; cbn; discriminate.
Qed.
Lemma hist_inv s D fl lim hist st : ws_at s D fl lim -> whist s hist st -> Forall (fun p => sane (fst p)) hist ->
  exists D', winv st D' fl lim.
Proof.
  intros H W. induction W as [|hist st c r st' W IH Hok E]; intros F.
  - exists D. apply open_inv. exact H.
  - apply Forall_app in F. destruct F as (F1 & F2). inversion F2; subst. destruct (IH F1) as (D1 & I1).
    destruct (step_inv c st r st' D1 fl lim I1 ltac:(assumption) E) as (D2 & I2 & _). eauto.
Qed.
Lemma cont_inv st l st' D fl lim : wcont st l st' -> winv st D fl lim -> Forall (fun p => sane (fst p)) l ->
  exists D', winv st' D' fl lim /\ len D <= len D'.
Proof.
  intros C. revert D. induction C as [|st c r st1 l st2 E C IH]; intros D I0 F; [exists D; split; [exact I0|lia]|].
  inversion F; subst. destruct (step_inv c st r st1 D fl lim I0 ltac:(assumption) E) as (D1 & I1 & _ & L1 & _).
  destruct (IH D1 I1 ltac:(assumption)) as (D2 & I2 & L2). exists D2. split; [exact I2|lia].
Qed.

(** ** An open section and its owner *)
Lemma wlive_nth c st : wlive c st -> exists k f, nth_error (w_chain st) k = Some f /\ wf_id f = c.
Proof.
  unfold wlive. intros H. apply in_map_iff in H. destruct H as (f & E & H). apply In_nth_error in H. destruct H as (k & H). eauto.
Qed.
Lemma nth_wlive k f st : nth_error (w_chain st) k = Some f -> wlive (wf_id f) st.
Proof. intros H. unfold wlive. apply in_map. eapply nth_error_In. exact H. Qed.
Lemma wlive_dec c st : wlive c st \/ ~ wlive c st.
Proof. unfold wlive. destruct (in_dec N.eq_dec c (map wf_id (w_chain st))); auto. Qed.
Definition wowns (h c start : N) (st : wstate) (n : nat) (f fc : wframe) : Prop :=
  nth_error (w_chain st) n = Some f /\ nth_error (w_chain st) (S n) = Some fc /\
  wf_id f = h /\ wf_id fc = c /\ wf_start fc = start.

Lemma wowns_step cl h c start st st' n f fc : wids st -> wshape cl st st' -> wowns h c start st n f fc -> wlive c st' ->
  exists f' fc', wowns h c start st' n f' fc' /\ (~ is_begin_in_w h cl -> f' = f).
Proof.
  intros (U & B) (Hn & S) (F & FC & I1 & I2 & I3) L.
  destruct (wlive_nth _ _ L) as (k & x & Hx & Ix).
  assert (Hk : k = Datatypes.S n /\ wf_start x = start).
  { destruct (S k x Hx) as [(-> & _ & X1 & _)|(x0 & X1 & X2 & X3 & _)].
    - apply B in FC. exfalso. lia.
    - assert (k = Datatypes.S n) by (eapply U; [exact X1|exact FC|congruence]). subst k.
      split; [reflexivity|]. rewrite X1 in FC. injection FC as ->. congruence. }
  destruct Hk as (-> & He).
  assert (Hlen : Nat.lt (Datatypes.S n) (length (w_chain st'))).
  { apply nth_error_Some. rewrite Hx. discriminate. }
  destruct (nth_error (w_chain st') n) as [y|] eqn:Hy.
  2:{ apply nth_error_None in Hy. exfalso. lia. }
  assert (Hlen2 : Nat.lt (Datatypes.S n) (length (w_chain st))).
  { apply nth_error_Some. rewrite FC. discriminate. }
  exists y, x. destruct (S n y Hy) as [(E & _)|(y0 & Y1 & Y2 & Y3 & Y4)].
  { exfalso. lia. }
  rewrite F in Y1. injection Y1 as <-. split.
  - repeat split; try assumption. congruence.
  - intros Hb. destruct Y4 as [E|[(_ & [E|E])|(E & _)]]; [exact E|exfalso; lia|exfalso; lia|]. rewrite I1 in E. contradiction.
Qed.
Lemma wgone_step cl c st st' : wshape cl st st' -> c < w_next st -> ~ wlive c st -> ~ wlive c st'.
Proof.
  intros (Hn & S) Hc Hl L. destruct (wlive_nth _ _ L) as (k & x & Hx & Ix).
  destruct (S k x Hx) as [(_ & _ & X1 & _)|(x0 & X1 & X2 & _)]; [lia|].
  apply Hl. rewrite <- Ix, X2. eapply nth_wlive. exact X1.
Qed.
Lemma wgone_cont st l st' c D fl lim : wcont st l st' -> winv st D fl lim -> Forall (fun p => sane (fst p)) l -> c < w_next st -> ~ wlive c st -> ~ wlive c st'.
Proof.
  intros H. revert D. induction H as [|st cl r st1 l st2 E H IH]; intros D I0 F Hc Hl; [exact Hl|]. inversion F; subst.
  destruct (step_inv cl st r st1 D fl lim I0 ltac:(assumption) E) as (D1 & I1 & S1 & _).
  refine (IH D1 I1 ltac:(assumption) _ _); [destruct S1; lia|]. eapply wgone_step; [exact S1|exact Hc|exact Hl].
Qed.
Lemma wowns_cont st l st' h c start n f fc D fl lim : wcont st l st' -> winv st D fl lim -> Forall (fun p => sane (fst p)) l ->
  wowns h c start st n f fc -> wlive c st' ->
  exists f' fc', wowns h c start st' n f' fc' /\ (no_begin_in_w h l -> f' = f).
Proof.
  intros H. revert D f fc. induction H as [|st cl r st1 l st2 E H IH]; intros D f fc I0 F O L.
  - exists f, fc. auto.
  - inversion F as [|x l' Fa Fb]; subst. destruct (step_inv cl st r st1 D fl lim I0 Fa E) as (D1 & I1 & S1 & _).
    destruct I0 as (_ & R & _). destruct (wlive_dec c st1) as [L1|L1].
    + destruct (wowns_step _ _ _ _ _ _ _ _ _ R S1 O L1) as (f1 & fc1 & O1 & K1).
      destruct (IH D1 f1 fc1 I1 Fb O1 L) as (f2 & fc2 & O2 & K2). exists f2, fc2. split; [exact O2|].
      intros N. inversion N as [|p l' N1 N2]; subst. rewrite (K2 N2). apply K1. destruct cl; cbn in *; try tauto.
    + exfalso. refine (wgone_cont _ _ _ c D1 fl lim H I1 Fb _ L1 L). destruct R as (_ & B), O as (_ & FC & _ & <- & _). destruct S1 as (Hn & _). apply B in FC. lia.
Qed.
Lemma wsplit_nth h l n f : nth_error l n = Some f -> wf_id f = h ->
  (forall k g, nth_error l k = Some g -> wf_id g = h -> k = n) ->
  split_at wf_id h l = Some (firstn n l, f, skipn (S n) l).
Proof.
  revert n; induction l as [|x l IH]; intros [|n]; cbn [nth_error]; try discriminate.
  - intros H I1 _. injection H as ->. cbn. rewrite I1, N.eqb_refl. reflexivity.
  - intros H I1 U. cbn [split_at]. destruct (N.eqb_spec (wf_id x) h) as [Ex|Ex].
    + exfalso. specialize (U O x eq_refl Ex). discriminate.
    + rewrite (IH n H I1). { reflexivity. }
      intros k g Hk Hg. specialize (U (S k) g Hk Hg). lia.
Qed.
Lemma wowns_split h c start st n f fc : wids st -> wowns h c start st n f fc ->
  exists a b, split_at wf_id h (w_chain st) = Some (a, f, fc :: b) /\ w_chain st = a ++ f :: fc :: b.
Proof.
  intros (U & B) (F & FC & I1 & I2 & I3).
  assert (E : split_at wf_id h (w_chain st) = Some (firstn n (w_chain st), f, skipn (S n) (w_chain st))).
  { apply wsplit_nth; [exact F|exact I1|]. intros k g Hk Hg. eapply U; [exact Hk|exact F|congruence]. }
  assert (E2 : exists b, skipn (S n) (w_chain st) = fc :: b).
  { clear -FC. revert FC. generalize (S n), (w_chain st). induction n0 as [|m IH]; intros [|y l]; cbn; try discriminate.
    - intros H; injection H as ->. eauto.
    - apply IH. }
  destruct E2 as (b & E2). rewrite E2 in E. exists (firstn n (w_chain st)), b. split; [exact E|].
  apply split_at_app in E. apply E.
Qed.
Lemma wgone_after a f' (c : wframe) b f st s1 nx : wids st -> w_chain st = a ++ f :: c :: b -> wf_id f' = wf_id f ->
  ~ wlive (wf_id c) (WSt s1 (a ++ [f']) nx).
Proof.
  intros (U & _) E I1 L. unfold wlive in L. cbn [w_chain] in L. apply in_map_iff in L. destruct L as (x & Ex & Hx).
  apply In_nth_error in Hx. destruct Hx as (k & Hk). rewrite E in U.
  pose proof (nth_after a b f c) as C.
  destruct (nth_short a (c :: b) f f' k x Hk) as [X|(-> & ->)].
  - specialize (U k (S (length a)) x c X C Ex). subst k.
    assert (Q : nth_error (a ++ [f']) (S (length a)) = None) by (apply nth_error_None; rewrite app_length; cbn; lia). congruence.
  - specialize (U (length a) (S (length a)) f c (nth_len a (c :: b) f) C ltac:(congruence)). lia.
Qed.
