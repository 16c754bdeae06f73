(** * SectionEndFacts: the chain of open sections under calls. *)
From Verif Require Import Base Bytes BytesFacts Values Streams FileSpec ReadSpec StreamFacts StreamProps Types Format
  EntityWriter EntityReader EntityWriterFacts EntityReaderFacts EntitySafety Sections SectionFacts Protocol SectionEndSpec.
Open Scope N_scope.

Lemma nth_mid {A} (a b : list A) f f' k x : nth_error (a ++ f' :: b) k = Some x ->
  nth_error (a ++ f :: b) k = Some x \/ (k = length a /\ x = f').
Proof.
  revert k; induction a as [|y a IH]; intros [|k]; cbn [app nth_error length]; intros H.
  - injection H as <-. right. auto.
  - left. exact H.
  - left. exact H.
  - destruct (IH k H) as [E|(-> & ->)]; auto.
Qed.
Lemma nth_last {A} (a : list A) f f' c k x : nth_error (a ++ [f'; c]) k = Some x ->
  nth_error (a ++ [f]) k = Some x \/ (k = length a /\ x = f') \/ (k = S (length a) /\ x = c).
Proof.
  revert k; induction a as [|y a IH]; intros [|k]; cbn [app nth_error length]; intros H.
  - injection H as <-. auto.
  - destruct k; [injection H as <-; auto|]. destruct k; discriminate H.
  - auto.
  - destruct (IH k H) as [E|[(-> & ->)|(-> & ->)]]; auto.
Qed.
Lemma nth_short {A} (a b : list A) f f' k x : nth_error (a ++ [f']) k = Some x ->
  nth_error (a ++ f :: b) k = Some x \/ (k = length a /\ x = f').
Proof.
  revert k; induction a as [|y a IH]; intros [|k]; cbn [app nth_error length]; intros H.
  - injection H as <-. auto.
  - destruct k; discriminate H.
  - auto.
  - destruct (IH k H) as [E|(-> & ->)]; auto.
Qed.
Lemma nth_len {A} (a b : list A) f : nth_error (a ++ f :: b) (length a) = Some f.
Proof. induction a; cbn; auto. Qed.

(** ** Reader: what one call does to the chain. *)
Definition robj (c : rcall) : N :=
  match c with
  | RRead h _ _ _ | RBegin h _ _ | REnd h _ | RBeginArr h _ _ _ | RBeginIn h _ _ _ | REndIn h _ _ | REndArr h _ => h
  end.
Definition is_begin_in (h : N) (c : rcall) : Prop := match c with RBeginIn h' _ _ _ => h' = h | _ => False end.

Definition rshape (c : rcall) (st st' : rstate) : Prop :=
  r_next st <= r_next st' /\
  forall k f', nth_error (r_chain st') k = Some f' ->
    (k = length (r_chain st) /\ rf_id f' = r_next st /\ r_next st' = r_next st + 1) \/
    (exists f, nth_error (r_chain st) k = Some f /\ rf_id f' = rf_id f /\ rf_end f' = rf_end f /\
       (f' = f \/ Nat.le (length (r_chain st')) (S k) \/ Nat.le (length (r_chain st)) (S k) \/ is_begin_in (rf_id f) c)).

Lemma rshape_same c st st' : r_chain st' = r_chain st -> r_next st' = r_next st -> rshape c st st'.
Proof. intros E1 E2. split; [lia|]. rewrite E1. intros k f' H. right. exists f'. auto. Qed.

Lemma rshape_mid c st st' a f f' b : r_chain st = a ++ f :: b -> r_chain st' = a ++ f' :: b -> r_next st' = r_next st ->
  rf_id f' = rf_id f -> rf_end f' = rf_end f -> b = [] \/ is_begin_in (rf_id f) c -> rshape c st st'.
Proof.
  intros E1 E2 E3 I1 I2 Hb. split; [lia|]. rewrite E1, E2. intros k x H.
  destruct (nth_mid a b f f' k x H) as [X|(-> & ->)].
  - right. exists x. auto.
  - right. exists f. split; [apply nth_len|]. split; [exact I1|]. split; [exact I2|].
    destruct Hb as [->|Hb]; [|auto]. right. left. rewrite app_length. cbn. lia.
Qed.
Lemma rshape_close c st st' a f f' b : r_chain st = a ++ f :: b -> r_chain st' = a ++ [f'] -> r_next st' = r_next st ->
  rf_id f' = rf_id f -> rf_end f' = rf_end f -> rshape c st st'.
Proof.
  intros E1 E2 E3 I1 I2. split; [lia|]. rewrite E1, E2. intros k x H.
  destruct (nth_short a b f f' k x H) as [X|(-> & ->)].
  - right. exists x. auto.
  - right. exists f. split; [apply nth_len|]. split; [exact I1|]. split; [exact I2|]. right. left. rewrite app_length. cbn. lia.
Qed.
Lemma rshape_open c st st' a f f' n : r_chain st = a ++ [f] -> r_chain st' = a ++ [f'; n] -> r_next st' = r_next st + 1 ->
  rf_id f' = rf_id f -> rf_end f' = rf_end f -> rf_id n = r_next st -> rshape c st st'.
Proof.
  intros E1 E2 E3 I1 I2 I3. split; [lia|]. rewrite E1, E2. intros k x H.
  destruct (nth_last a f f' n k x H) as [X|[(-> & ->)|(-> & ->)]].
  - right. exists x. auto.
  - right. exists f. split; [apply nth_len|]. split; [exact I1|]. split; [exact I2|]. right. right. left. rewrite app_length. cbn. lia.
  - left. split; [rewrite app_length; cbn; lia|]. auto.
Qed.

Lemma rstep_shape e c st r st' : rstep e c st = Done (r, st') -> rshape c st st'.
Proof.
  intros E. destruct c as [h t key v|h key nok|h arg|h key nok ix|h arg i opt|h arg i|h arg]; cbn [rstep] in E; unfold as_rbool in E.
  - unfold r_read in E. destruct (split_at rf_id h (r_chain st)) as [[[a f] b]|] eqn:Es; [|discriminate E].
    destruct (er_read e t key v (r_stream st)) as [[[ok v'] s1]| |]; cbn [bind] in E; [|discriminate|discriminate].
    injection E as <- <-. apply rshape_same; reflexivity.
  - unfold r_begin in E. destruct (split_at rf_id h (r_chain st)) as [[[a f] b]|] eqn:Es; [|discriminate E].
    apply split_at_app in Es. destruct Es as (Ec & Hid & _).
    destruct b as [|c0 b].
    2:{ cbn [bind] in E. injection E as <- <-. apply rshape_same; reflexivity. }
    destruct (begin_read e vt_subsection key (r_stream st)) as [[endp s1]| |] eqn:Eb; cbn [bind] in E; [|discriminate|discriminate].
    destruct (endp =? 0).
    { cbn [bind] in E. injection E as <- <-. apply rshape_same; reflexivity. }
    destruct (endp =? rs_pos s1).
    { cbn [bind] in E. injection E as <- <-. apply rshape_same; reflexivity. }
    cbn [bind] in E. injection E as <- <-. eapply rshape_open; [exact Ec|reflexivity|reflexivity|reflexivity|reflexivity|reflexivity].
  - unfold r_end in E. destruct (split_at rf_id h (r_chain st)) as [[[a f] b]|] eqn:Es; [|discriminate E].
    apply split_at_app in Es. destruct Es as (Ec & Hid & _).
    destruct (negb _).
    { cbn [bind] in E. injection E as <- <-. apply rshape_same; reflexivity. }
    destruct b as [|c0 b]; [discriminate E|].
    destruct (end_read (r_stream st) (rf_end c0)); cbn [bind] in E; injection E as <- <-.
    + eapply rshape_close; [exact Ec|reflexivity|reflexivity|reflexivity|reflexivity].
    + apply rshape_same; reflexivity.
  - unfold r_begin_arr in E. destruct (split_at rf_id h (r_chain st)) as [[[a f] b]|] eqn:Es; [|discriminate E].
    apply split_at_app in Es. destruct Es as (Ec & Hid & _).
    destruct b as [|c0 b].
    2:{ cbn [bind] in E. injection E as <- <-. apply rshape_same; reflexivity. }
    destruct (begin_read e vt_array_subsection key (r_stream st)) as [[endp s1]| |] eqn:Eb; cbn [bind] in E; [|discriminate|discriminate].
    destruct (endp =? 0).
    { cbn [bind] in E. injection E as <- <-. apply rshape_same; reflexivity. }
    destruct (endp =? rs_pos s1).
    { cbn [bind] in E. injection E as <- <-. apply rshape_same; reflexivity. }
    destruct (read_meta e (rf_size f) endp ix s1) as [[[[[ok p] n] ix'] s2]| |] eqn:Em; cbn [bind] in E; [|discriminate|discriminate].
    destruct ok; cbn [negb bind] in E; injection E as <- <-.
    + eapply rshape_open; [exact Ec|reflexivity|reflexivity|reflexivity|reflexivity|reflexivity].
    + eapply rshape_mid; [exact Ec|reflexivity|reflexivity|reflexivity|reflexivity|left; reflexivity].
  - unfold r_begin_in in E. destruct (split_at rf_id h (r_chain st)) as [[[a f] b]|] eqn:Es; [|discriminate E].
    apply split_at_app in Es. destruct Es as (Ec & Hid & _).
    destruct (negb _).
    { cbn [bind] in E. injection E as <- <-. apply rshape_same; reflexivity. }
    destruct (negb _).
    { cbn [bind] in E. injection E as <- <-. apply rshape_same; reflexivity. }
    destruct (_ <=? _).
    { cbn [bind] in E. injection E as <- <-. apply rshape_same; reflexivity. }
    destruct (rs_u64 (r_stream st)) as [[sz s1]| |] eqn:Ew; cbn [bind] in E; [|discriminate|discriminate].
    assert (Est : st' = RSt s1 (a ++ RF (rf_id f) (rf_end f) (rf_size f) i (add64 (rs_pos s1) sz) :: b) (r_next st)).
    { destruct opt; [|destruct (sz =? 0)]; cbn [bind] in E; injection E as _ <-; reflexivity. }
    clear E. subst st'. eapply rshape_mid; [exact Ec|reflexivity|reflexivity|reflexivity|reflexivity|]. right. cbn. symmetry. exact Hid.
  - unfold r_end_in in E. destruct (split_at rf_id h (r_chain st)) as [[[a f] b]|] eqn:Es; [|discriminate E].
    destruct (_ || _); cbn [bind] in E; injection E as <- <-; apply rshape_same; reflexivity.
  - unfold r_end_arr in E. destruct (split_at rf_id h (r_chain st)) as [[[a f] b]|] eqn:Es; [|discriminate E].
    apply split_at_app in Es. destruct Es as (Ec & Hid & _).
    destruct (negb _).
    { cbn [bind] in E. injection E as <- <-. apply rshape_same; reflexivity. }
    destruct (negb _).
    { cbn [bind] in E. injection E as <- <-. apply rshape_same; reflexivity. }
    destruct b as [|c0 b]; [discriminate E|].
    destruct (end_read (r_stream st) (rf_end c0)); cbn [bind] in E; injection E as <- <-.
    + eapply rshape_close; [exact Ec|reflexivity|reflexivity|reflexivity|reflexivity].
    + apply rshape_same; reflexivity.
Qed.

(** Identities are different and below the next one. *)
Definition rids (st : rstate) : Prop :=
  (forall k l f g, nth_error (r_chain st) k = Some f -> nth_error (r_chain st) l = Some g -> rf_id f = rf_id g -> k = l) /\
  (forall k f, nth_error (r_chain st) k = Some f -> rf_id f < r_next st).

Lemma rids_step c st st' : rids st -> rshape c st st' -> rids st'.
Proof.
  intros (U & B) (Hn & S). split.
  - intros k l f g Hf Hg Hid.
    destruct (S k f Hf) as [(-> & F1 & _)|(f0 & F1 & F2 & _)]; destruct (S l g Hg) as [(-> & G1 & _)|(g0 & G1 & G2 & _)].
    + reflexivity.
    + apply B in G1. exfalso. lia.
    + apply B in F1. exfalso. lia.
    + eapply U; [exact F1|exact G1|congruence].
  - intros k f Hf. destruct (S k f Hf) as [(-> & F1 & F2)|(f0 & F1 & F2 & _)]; [lia|]. apply B in F1. lia.
Qed.
Lemma rids_hist e s hist st : rhist e s hist st -> rids st.
Proof.
  induction 1 as [|hist st c r st' H IH E].
  - split.
    + intros [|[|k]] [|[|l]] f g; cbn; intros Hf Hg; try discriminate; reflexivity.
    + intros [|[|k]] f; cbn; intros Hf; try discriminate. injection Hf as <-. reflexivity.
  - eapply rids_step; [exact IH|]. eapply rstep_shape. exact E.
Qed.

Lemma live_nth c st : rlive c st -> exists k f, nth_error (r_chain st) k = Some f /\ rf_id f = c.
Proof.
  unfold rlive. intros H. apply in_map_iff in H. destruct H as (f & E & H). apply In_nth_error in H. destruct H as (k & H). eauto.
Qed.
Lemma nth_live k f st : nth_error (r_chain st) k = Some f -> rlive (rf_id f) st.
Proof. intros H. unfold rlive. apply in_map. eapply nth_error_In. exact H. Qed.

(** The object [c], with [h] as its owner, and its end. *)
Definition owns (h c endp : N) (st : rstate) (n : nat) (f fc : rframe) : Prop :=
  nth_error (r_chain st) n = Some f /\ nth_error (r_chain st) (S n) = Some fc /\
  rf_id f = h /\ rf_id fc = c /\ rf_end fc = endp.

Lemma owns_step cl h c endp st st' n f fc : rids st -> rshape cl st st' -> owns h c endp st n f fc -> rlive c st' ->
  exists f' fc', owns h c endp st' n f' fc' /\ (~ is_begin_in h cl -> f' = f).
Proof.
  intros (U & B) (Hn & S) (F & FC & I1 & I2 & I3) L.
  destruct (live_nth _ _ L) as (k & x & Hx & Ix).
  assert (Hk : k = Datatypes.S n /\ rf_end x = endp).
  { destruct (S k x Hx) as [(-> & X1 & _)|(x0 & X1 & X2 & X3 & _)].
    - apply B in FC. exfalso. lia.
    - assert (k = Datatypes.S n) by (eapply U; [exact X1|exact FC|congruence]). subst k.
      split; [reflexivity|]. rewrite X1 in FC. injection FC as ->. congruence. }
  destruct Hk as (-> & He).
  assert (Hlen : Nat.lt (Datatypes.S n) (length (r_chain st'))).
  { apply nth_error_Some. rewrite Hx. discriminate. }
  destruct (nth_error (r_chain st') n) as [y|] eqn:Hy.
  2:{ apply nth_error_None in Hy. exfalso. lia. }
  assert (Hlen2 : Nat.lt (Datatypes.S n) (length (r_chain st))).
  { apply nth_error_Some. rewrite FC. discriminate. }
  exists y, x. destruct (S n y Hy) as [(E & _)|(y0 & Y1 & Y2 & Y3 & Y4)].
  { exfalso. lia. }
  rewrite F in Y1. injection Y1 as <-. split.
  - repeat split; try assumption. congruence.
  - intros Hb. destruct Y4 as [E|[E|[E|E]]]; [exact E|exfalso; lia|exfalso; lia|]. rewrite I1 in E. contradiction.
Qed.

(** Once closed, closed for ever. *)
Lemma gone_step cl c st st' : rshape cl st st' -> c < r_next st -> ~ rlive c st -> ~ rlive c st'.
Proof.
  intros (Hn & S) Hc Hl L. destruct (live_nth _ _ L) as (k & x & Hx & Ix).
  destruct (S k x Hx) as [(_ & X1 & _)|(x0 & X1 & X2 & _)]; [lia|].
  apply Hl. rewrite <- Ix, X2. eapply nth_live. exact X1.
Qed.
Lemma gone_cont e st l st' c : rcont e st l st' -> c < r_next st -> ~ rlive c st -> ~ rlive c st'.
Proof.
  induction 1 as [|st cl r st1 l st2 E H IH]; [auto|]. intros Hc Hl. apply rstep_shape in E.
  apply IH; [destruct E; lia|]. eapply gone_step; [exact E|exact Hc|exact Hl].
Qed.
Lemma rlive_dec c st : rlive c st \/ ~ rlive c st.
Proof. unfold rlive. destruct (in_dec N.eq_dec c (map rf_id (r_chain st))); auto. Qed.

Lemma owns_cont e st l st' h c endp n f fc : rcont e st l st' -> rids st -> owns h c endp st n f fc -> rlive c st' ->
  rids st' /\ exists f' fc', owns h c endp st' n f' fc' /\ (no_begin_in h l -> f' = f).
Proof.
  intros H. revert f fc. induction H as [|st cl r st1 l st2 E H IH]; intros f fc R O L.
  - split; [exact R|]. exists f, fc. auto.
  - apply rstep_shape in E. pose proof (rids_step _ _ _ R E) as R1.
    destruct (rlive_dec c st1) as [L1|L1].
    + destruct (owns_step _ _ _ _ _ _ _ _ _ R E O L1) as (f1 & fc1 & O1 & K1).
      destruct (IH f1 fc1 R1 O1 L) as (R2 & f2 & fc2 & O2 & K2). split; [exact R2|]. exists f2, fc2. split; [exact O2|].
      intros N. inversion N as [|p l' N1 N2]; subst. rewrite (K2 N2). apply K1.
      destruct cl; cbn in *; try tauto. 
    + exfalso. refine (gone_cont _ _ _ _ c H _ L1 L). destruct R as (_ & B), O as (_ & FC & _ & <- & _). destruct E as (Hn & _). apply B in FC. lia.
Qed.

Lemma split_nth h l n f : nth_error l n = Some f -> rf_id f = h ->
  (forall k g, nth_error l k = Some g -> rf_id g = h -> k = n) ->
  split_at rf_id h l = Some (firstn n l, f, skipn (S n) l).
Proof.
  revert n; induction l as [|x l IH]; intros [|n]; cbn [nth_error]; try discriminate.
  - intros H I1 _. injection H as ->. cbn. rewrite I1, N.eqb_refl. reflexivity.
  - intros H I1 U. cbn [split_at]. destruct (N.eqb_spec (rf_id x) h) as [Ex|Ex].
    + exfalso. specialize (U O x eq_refl Ex). discriminate.
    + rewrite (IH n H I1). { reflexivity. }
      intros k g Hk Hg. specialize (U (S k) g Hk Hg). lia.
Qed.
Lemma owns_split h c endp st n f fc : rids st -> owns h c endp st n f fc ->
  exists a b, split_at rf_id h (r_chain st) = Some (a, f, fc :: b) /\ r_chain st = a ++ f :: fc :: b.
Proof.
  intros (U & B) (F & FC & I1 & I2 & I3).
  assert (E : split_at rf_id h (r_chain st) = Some (firstn n (r_chain st), f, skipn (S n) (r_chain st))).
  { apply split_nth; [exact F|exact I1|]. intros k g Hk Hg. eapply U; [exact Hk|exact F|congruence]. }
  assert (E2 : exists b, skipn (S n) (r_chain st) = fc :: b).
  { clear -FC. revert FC. generalize (S n), (r_chain st). induction n0 as [|m IH]; intros [|y l]; cbn; try discriminate.
    - intros H; injection H as ->. eauto.
    - apply IH. }
  destruct E2 as (b & E2). rewrite E2 in E. exists (firstn n (r_chain st)), b. split; [exact E|].
  apply split_at_app in E. apply E.
Qed.

(** ** The end of a block *)
Lemma num_header fl bs key vt rest : take 9 (header fl vt bs key ++ rest) = n2b vt :: num W64 fl bs.
Proof.
  unfold header. cbn [app]. rewrite <- app_assoc.
  change (n2b vt :: num W64 fl bs ++ (n2b (len key) :: key) ++ rest) with ((n2b vt :: num W64 fl bs) ++ (n2b (len key) :: key) ++ rest).
  rewrite take_app_exact; [reflexivity|]. rewrite len_cons, len_num. reflexivity.
Qed.

Lemma begin_read_end e vt key pre rest fl endp s1 :
  0 < len key -> len key <= 40 -> 0 < vt -> len (pre ++ rest) < 2 ^ 62 ->
  begin_read e vt key (RS (pre ++ rest) (len pre) fl) = Done (endp, s1) -> endp <> 0 ->
  exists size, size < two64 /\ take 9 rest = n2b vt :: num W64 fl size /\ endp = (len pre + 9 + size) mod two64.
Proof.
  intros K0 K1 V L E Z.
  assert (S : small_rs pre rest) by (unfold small_rs, lim62; rewrite len_app in L; exact L).
  pose proof (begin_read_gen e vt key pre rest fl K1 K0 V S) as W.
  change (rs_at pre rest fl) with (RS (pre ++ rest) (len pre) fl) in W. rewrite E in W. cbn [wp] in W.
  destruct W as (_ & [W|(bs & B1 & B2 & B3 & B4)]); [contradiction|].
  exists bs. split; [exact B1|]. split; [|exact B2].
  destruct B4 as [(r & -> & _)|(k' & _ & -> & _)].
  - apply num_header.
  - change (n2b vt :: num W64 fl bs ++ n2b (len key) :: k') with ((n2b vt :: num W64 fl bs) ++ n2b (len key) :: k').
    rewrite take_app_exact; [reflexivity|]. rewrite len_cons, len_num. reflexivity.
Qed.

Lemma r_begin_owns e h key nok st c ok st1 : rids st -> r_begin e h key nok st = Done (Some c, ok, st1) ->
  exists endp s1 n f fc, begin_read e vt_subsection key (r_stream st) = Done (endp, s1) /\ endp <> 0 /\
    rids st1 /\ owns h c endp st1 n f fc.
Proof.
  intros R E.
  assert (R1 : rids st1).
  { eapply rids_step; [exact R|]. apply (rstep_shape e (RBegin h key nok) st (RHandle (Some c) 0 ok)). cbn [rstep]. rewrite E. reflexivity. }
  unfold r_begin in E. destruct (split_at rf_id h (r_chain st)) as [[[a f] b]|] eqn:Es; [|discriminate E].
  apply split_at_app in Es. destruct Es as (Ec & Hid & _).
  destruct b as [|c0 b]; [|discriminate E].
  destruct (begin_read e vt_subsection key (r_stream st)) as [[endp s1]| |] eqn:Eb; cbn [bind] in E; [|discriminate|discriminate].
  destruct (N.eqb_spec endp 0) as [|Z]; [discriminate E|].
  destruct (endp =? rs_pos s1); [discriminate E|]. injection E as <- <- <-.
  exists endp, s1, (length a), f, (rf_new (r_next st) endp). split; [reflexivity|]. split; [exact Z|]. split; [exact R1|].
  unfold owns. cbn [r_chain]. split; [apply nth_len|]. split; [|auto].
  rewrite nth_error_app2 by lia. replace (S (length a) - length a)%nat with 1%nat by lia. reflexivity.
Qed.
Lemma r_begin_arr_owns e h key nok ix st c size ok ix' st1 : rids st -> r_begin_arr e h key nok ix st = Done (Some c, size, ok, ix', st1) ->
  exists endp s1 n f fc, begin_read e vt_array_subsection key (r_stream st) = Done (endp, s1) /\ endp <> 0 /\
    rids st1 /\ owns h c endp st1 n f fc.
Proof.
  intros R E.
  assert (R1 : rids st1).
  { eapply rids_step; [exact R|]. apply (rstep_shape e (RBeginArr h key nok ix) st (RHandle (Some c) size ok)). cbn [rstep]. rewrite E. reflexivity. }
  unfold r_begin_arr in E. destruct (split_at rf_id h (r_chain st)) as [[[a f] b]|] eqn:Es; [|discriminate E].
  apply split_at_app in Es. destruct Es as (Ec & Hid & _).
  destruct b as [|c0 b]; [|discriminate E].
  destruct (begin_read e vt_array_subsection key (r_stream st)) as [[endp s1]| |] eqn:Eb; cbn [bind] in E; [|discriminate|discriminate].
  destruct (N.eqb_spec endp 0) as [|Z]; [discriminate E|].
  destruct (endp =? rs_pos s1); [discriminate E|].
  destruct (read_meta e (rf_size f) endp ix s1) as [[[[[ok0 p] n] ix0] s2]| |] eqn:Em; cbn [bind] in E; [|discriminate|discriminate].
  destruct ok0; cbn [negb] in E; [|discriminate E]. injection E as <- <- <- <- <-.
  exists endp, s1, (length a), (RF (rf_id f) (rf_end f) n ones (rf_end_pos f)), (rf_new (r_next st) endp).
  split; [reflexivity|]. split; [exact Z|]. split; [exact R1|].
  unfold owns. cbn [r_chain]. split; [apply nth_len|]. split; [|auto].
  rewrite nth_error_app2 by lia. replace (S (length a) - length a)%nat with 1%nat by lia. reflexivity.
Qed.

Lemma gone_after a f' (c : rframe) b f st s1 nx : rids st -> r_chain st = a ++ f :: c :: b -> rf_id f' = rf_id f ->
  ~ rlive (rf_id c) (RSt s1 (a ++ [f']) nx).
Proof.
  intros (U & _) E I1 L. unfold rlive in L. cbn [r_chain] in L. apply in_map_iff in L. destruct L as (x & Ex & Hx).
  apply In_nth_error in Hx. destruct Hx as (k & Hk). rewrite E in U.
  assert (C : nth_error (a ++ f :: c :: b) (S (length a)) = Some c).
  { rewrite nth_error_app2 by lia. replace (S (length a) - length a)%nat with 1%nat by lia. reflexivity. }
  destruct (nth_short a (c :: b) f f' k x Hk) as [X|(-> & ->)].
  - specialize (U k (S (length a)) x c X C Ex). subst k. apply (f_equal (@Some rframe)) in Ex || idtac.
    assert (Q : nth_error (a ++ [f']) (S (length a)) = None) by (apply nth_error_None; rewrite app_length; cbn; lia).
    congruence.
  - specialize (U (length a) (S (length a)) f c (nth_len a (c :: b) f) C ltac:(congruence)). lia.
Qed.

Lemma r_end_closes h c endp st n f fc : rids st -> owns h c endp st n f fc ->
  closes_only_at endp c (r_end h (Some c) st) st.
Proof.
  intros R O. destruct (owns_split _ _ _ _ _ _ _ R O) as (a & b & Es & Ec). destruct O as (_ & _ & I1 & I2 & I3).
  unfold closes_only_at, r_end. rewrite Es. cbn [head_id hdl_eqb]. rewrite I2, N.eqb_refl. cbn [negb].
  unfold end_read. rewrite I3. split; intros H.
  - apply N.eqb_neq in H. rewrite H. reflexivity.
  - apply N.eqb_eq in H. rewrite H. eexists. split; [reflexivity|]. split; [reflexivity|].
    rewrite <- I2. eapply gone_after; [exact R|exact Ec|reflexivity].
Qed.
Lemma r_end_arr_closes h c endp st n f fc : rids st -> owns h c endp st n f fc -> add64 (rf_index f) 1 = rf_size f ->
  closes_only_at endp c (r_end_arr h (Some c) st) st.
Proof.
  intros R O A. destruct (owns_split _ _ _ _ _ _ _ R O) as (a & b & Es & Ec). destruct O as (_ & _ & I1 & I2 & I3).
  unfold closes_only_at, r_end_arr. rewrite Es. cbn [head_id hdl_eqb]. rewrite I2, N.eqb_refl. cbn [negb].
  apply N.eqb_eq in A. rewrite A. cbn [negb].
  unfold end_read. rewrite I3. split; intros H.
  - apply N.eqb_neq in H. rewrite H. reflexivity.
  - apply N.eqb_eq in H. rewrite H. eexists. split; [reflexivity|]. split; [reflexivity|].
    rewrite <- I2. eapply gone_after; [exact R|exact Ec|reflexivity].
Qed.
Lemma r_end_arr_refused h c endp st n f fc : rids st -> owns h c endp st n f fc -> rs_pos (r_stream st) <> endp ->
  r_end_arr h (Some c) st = Done (false, st).
Proof.
  intros R O H. destruct (owns_split _ _ _ _ _ _ _ R O) as (a & b & Es & Ec). destruct O as (_ & _ & I1 & I2 & I3).
  unfold r_end_arr. rewrite Es. cbn [head_id hdl_eqb]. rewrite I2, N.eqb_refl. cbn [negb].
  destruct (negb _); [reflexivity|]. unfold end_read. rewrite I3. apply N.eqb_neq in H. rewrite H. reflexivity.
Qed.

Lemma t_end_section e s hist st h key nok c ok st1 more st2 pre rest fl :
  rhist e s hist st -> r_stream st = RS (pre ++ rest) (len pre) fl -> len (pre ++ rest) < 2 ^ 62 ->
  0 < len key -> len key <= 40 -> r_begin e h key nok st = Done (Some c, ok, st1) ->
  rcont e st1 more st2 -> rlive c st2 ->
  exists size, size < two64 /\ take 9 rest = n2b vt_subsection :: num W64 fl size /\
    closes_only_at ((len pre + 9 + size) mod two64) c (r_end h (Some c) st2) st2.
Proof.
  intros H Hs L K0 K1 E C Lv. apply rids_hist in H.
  destruct (r_begin_owns _ _ _ _ _ _ _ _ H E) as (endp & s1 & n & f & fc & Eb & Z & R1 & O1).
  rewrite Hs in Eb. destruct (begin_read_end _ vt_subsection _ _ _ _ _ _ K0 K1 ltac:(reflexivity) L Eb Z) as (size & S1 & S2 & ->).
  exists size. split; [exact S1|]. split; [exact S2|].
  destruct (owns_cont _ _ _ _ _ _ _ _ _ _ C R1 O1 Lv) as (R2 & f2 & fc2 & O2 & _).
  eapply r_end_closes; [exact R2|exact O2].
Qed.
Lemma t_end_array e s hist st h key nok ix c cnt ok ix' st1 more st2 pre rest fl :
  rhist e s hist st -> r_stream st = RS (pre ++ rest) (len pre) fl -> len (pre ++ rest) < 2 ^ 62 ->
  0 < len key -> len key <= 40 -> r_begin_arr e h key nok ix st = Done (Some c, cnt, ok, ix', st1) ->
  rcont e st1 more st2 -> rlive c st2 ->
  exists size, size < two64 /\ take 9 rest = n2b vt_array_subsection :: num W64 fl size /\
    closes_only_at ((len pre + 9 + size) mod two64) c (r_end h (Some c) st2) st2 /\
    (rs_pos (r_stream st2) <> (len pre + 9 + size) mod two64 -> r_end_arr h (Some c) st2 = Done (false, st2)) /\
    (forall st3, r_end_arr h (Some c) st2 = Done (true, st3) -> r_stream st3 = r_stream st2 /\ ~ rlive c st3).
Proof.
  intros H Hs L K0 K1 E C Lv. apply rids_hist in H.
  destruct (r_begin_arr_owns _ _ _ _ _ _ _ _ _ _ _ H E) as (endp & s1 & n & f & fc & Eb & Z & R1 & O1).
  rewrite Hs in Eb. destruct (begin_read_end _ vt_array_subsection _ _ _ _ _ _ K0 K1 ltac:(reflexivity) L Eb Z) as (size & S1 & S2 & ->).
  exists size. split; [exact S1|]. split; [exact S2|].
  destruct (owns_cont _ _ _ _ _ _ _ _ _ _ C R1 O1 Lv) as (R2 & f2 & fc2 & O2 & _).
  split; [eapply r_end_closes; [exact R2|exact O2]|].
  split; [eapply r_end_arr_refused; [exact R2|exact O2]|].
  intros st3 E3.
  destruct (N.eq_dec (add64 (rf_index f2) 1) (rf_size f2)) as [A|A].
  - destruct (r_end_arr_closes _ _ _ _ _ _ _ R2 O2 A) as (X1 & X2).
    destruct (N.eq_dec (rs_pos (r_stream st2)) ((len pre + 9 + size) mod two64)) as [Q|Q].
    + destruct (X2 Q) as (st' & E' & X3). rewrite E' in E3. injection E3 as <-. exact X3.
    + rewrite (X1 Q) in E3. discriminate.
  - exfalso. destruct (owns_split _ _ _ _ _ _ _ R2 O2) as (a & b & Es & Ec). unfold r_end_arr in E3. rewrite Es in E3.
    apply N.eqb_neq in A. rewrite A in E3. destruct (negb _); discriminate E3.
Qed.

(** ** Elements of an array *)
Lemma t_end_element e s hist st h arr i opt has st1 more st2 pre rest fl :
  rhist e s hist st -> r_stream st = RS (pre ++ rest) (len pre) fl -> len (pre ++ rest) < 2 ^ 62 -> 8 <= len rest ->
  r_begin_in h (Some arr) i opt st = Done (true, has, st1) ->
  rcont e st1 more st2 -> no_begin_in h more -> rlive arr st2 ->
  exists size, size < two64 /\ take 8 rest = num W64 fl size /\ (opt = true -> has = negb (size =? 0)) /\
    forall arg j, r_end_in h arg j st2 =
      Done (hdl_eqb (Some arr) arg && (j =? i) && (rs_pos (r_stream st2) =? (len pre + 8 + size) mod two64), st2).
Proof.
  intros H Hs L L8 E C Nb Lv. apply rids_hist in H.
  assert (R1 : rids st1).
  { eapply rids_step; [exact H|]. apply (rstep_shape e (RBeginIn h (Some arr) i opt) st (RBool true)). cbn [rstep]. rewrite E. reflexivity. }
  unfold r_begin_in in E. destruct (split_at rf_id h (r_chain st)) as [[[a f] b]|] eqn:Es; [|discriminate E].
  apply split_at_app in Es. destruct Es as (Ec & Hid & _).
  destruct b as [|fc b]; [discriminate E|]. cbn [head_id hdl_eqb] in E.
  destruct (N.eqb_spec (rf_id fc) arr) as [Ha|]; cbn [negb] in E; [|discriminate E].
  destruct (N.eqb_spec (add64 (rf_index f) 1) i) as [Hi|]; cbn [negb] in E; [|discriminate E].
  destruct (rf_size f <=? i); [discriminate E|].
  assert (S : small_rs pre rest) by (unfold small_rs, lim62; rewrite len_app in L; exact L).
  pose proof (rs_word_gen W64 pre rest fl S) as W.
  change (rs_at pre rest fl) with (RS (pre ++ rest) (len pre) fl) in W. rewrite <- Hs in W.
  unfold rs_u64 in E. destruct (rs_word W64 (r_stream st)) as [[size s1]| |]; cbn [bind] in E; [|discriminate E|discriminate E].
  cbn [wp] in W. destruct W as (Wb & [(r & -> & ->)|(X & _)]); [|cbn [wbytes] in X; lia].
  change (256 ^ wbytes W64) with two64 in Wb.
  exists size. split; [exact Wb|].
  assert (T : take 8 (num W64 fl size ++ r) = num W64 fl size) by (apply take_app_exact; rewrite len_num; reflexivity).
  split; [exact T|].
  set (f1 := RF (rf_id f) (rf_end f) (rf_size f) i (add64 (rs_pos (rs_at (pre ++ num W64 fl size) r fl)) size)) in *.
  assert (Est : st1 = RSt (rs_at (pre ++ num W64 fl size) r fl) (a ++ f1 :: fc :: b) (r_next st) /\ (opt = true -> has = negb (size =? 0))).
  { destruct opt; [|destruct (size =? 0)]; injection E as E1 E2; subst; split; auto; discriminate. }
  destruct Est as (Est & Eh). split; [exact Eh|].
  assert (O1 : owns h arr (rf_end fc) st1 (length a) f1 fc).
  { rewrite Est. unfold owns. cbn [r_chain]. split; [apply nth_len|]. split; [|auto].
    rewrite nth_error_app2 by lia. replace (Datatypes.S (length a) - length a)%nat with 1%nat by lia. reflexivity. }
  destruct (owns_cont _ _ _ _ _ _ _ _ _ _ C R1 O1 Lv) as (R2 & f2 & fc2 & O2 & K). specialize (K Nb). subst f2.
  destruct (owns_split _ _ _ _ _ _ _ R2 O2) as (a2 & b2 & Es2 & Ec2). destruct O2 as (_ & _ & _ & I2 & _).
  intros arg j. unfold r_end_in. rewrite Es2. cbn [head_id]. rewrite I2.
  destruct (hdl_eqb (Some arr) arg); cbn [negb orb andb]; [|reflexivity].
  change (rf_index f1) with i. rewrite (N.eqb_sym i j). destruct (j =? i); cbn [negb andb]; [|reflexivity].
  change (rf_end_pos f1) with (add64 (rs_pos (rs_at (pre ++ num W64 fl size) r fl)) size).
  rewrite rs_at_pos, len_app, len_num. reflexivity.
Qed.
