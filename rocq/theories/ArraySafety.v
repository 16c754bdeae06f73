(** * Array readers on arbitrary streams. *)
From Verif Require Import Base Bytes BytesFacts Values Streams FileSpec ReadSpec StreamFacts StreamProps Types Format
  Accept EntityWriter EntityReader EntityWriterFacts PackFacts ArrayWriterFacts EntityReaderFacts EntitySafety.
Open Scope N_scope.

(** Outcome predicate that also allows undefined behaviour under [U]. *)
Definition wpu {A} (m : res A) (P : A -> Prop) (T U : Prop) : Prop :=
  match m with Done a => P a | Throw => T | Undef => U end.
Lemma wpu_bind {A B} (m : res A) (f : A -> res B) (P : B -> Prop) (T U : Prop) :
  wpu m (fun a => wpu (f a) P T U) T U -> wpu (bind m f) P T U.
Proof. destruct m; cbn; auto. Qed.
Lemma wpu_impl {A} (m : res A) (P Q : A -> Prop) (T T' U U' : Prop) :
  wpu m P T U -> (forall a, P a -> Q a) -> (T -> T') -> (U -> U') -> wpu m Q T' U'.
Proof. destruct m; cbn; auto. Qed.
Lemma wp_wpu {A} (m : res A) (P : A -> Prop) (T U : Prop) : wp m P T -> wpu m P T U.
Proof. destruct m; cbn; tauto. Qed.

Lemma words32_bytes fl n : forall img, len img = N.of_nat n * 4 ->
  element_bytes (KW W32) (N.of_nat n) fl img = flat_map (num W32 fl) (words32 n img) /\
  ix_ok (words32 n img) /\ length (words32 n img) = n.
Proof.
  unfold element_bytes, elements. rewrite Nnat.Nat2N.id. cbn [ksize wbytes].
  induction n as [|n IH]; intros img H; [repeat split; constructor|].
  cbn [chunks map flat_map words32 length scalar_of].
  destruct (IH (drop 4 img)) as (A & B & C); [rewrite len_drop; lia|].
  split; [rewrite A; reflexivity|]. split; [|rewrite C; reflexivity].
  constructor; [|exact B]. pose proof (of_le_bound (take 4 img)) as Hb. rewrite len_take in Hb.
  replace (N.min 4 (len img)) with 4 in Hb by lia. exact Hb.
Qed.

Lemma flags_land flags : flags < 65536 ->
  N.land flags 0xff = flags mod 256 /\
  negb (N.land flags 0x100 =? 0) = N.testbit flags 8 /\ negb (N.land flags 0x200 =? 0) = N.testbit flags 9.
Proof.
  intros H. split; [apply land_255|].
  change 0x100 with (N.shiftl 1 8). change 0x200 with (N.shiftl 1 9). rewrite !land_bit_test. auto.
Qed.

Definition some {A} (o : option A) : bool := match o with Some _ => true | None => false end.
Definition meta_ok (fl : bool) (per count : N) (ix : option (list N)) (mb : list byte) : Prop :=
  exists flags, flags < 65536 /\ per = flags mod 256 /\ N.testbit flags 8 = some ix /\ N.testbit flags 9 = false /\
    (match ix with Some l => ix_ok l | None => True end) /\
    mb = num W16 fl flags ++ num W64 fl count
         ++ (match ix with Some l => num W64 fl (len l) ++ flat_map (num W32 fl) l | None => [] end).

Lemma within_pos pre post fl p r : within pre post fl (rs_at p r fl) -> len pre <= len p /\ len p + len r = len pre + len post.
Proof. intros (a & b & -> & E). apply rs_at_inj in E. destruct E as (-> & ->). rewrite !len_app. lia. Qed.

Lemma word_upper w fl v pre post p r :
  (post = num w fl v ++ r /\ p = pre ++ num w fl v) \/ (len post < wbytes w /\ p = pre ++ post /\ r = []) ->
  len p <= len pre + wbytes w.
Proof. intros [(-> & ->)|(H & -> & ->)]; rewrite len_app, ?len_num; lia. Qed.

Lemma read_meta_gen e c0 bend dix pre post fl :
  small_rs pre post -> e_lim e < lim62 ->
  wp (read_meta e c0 bend dix (rs_at pre post fl)) (fun res => let '(ok, per, count, ix, s') := res in
    exists p r, s' = rs_at p r fl /\ within pre post fl (rs_at p r fl) /\ some ix = some dix /\
    (ok = true -> count < two64 /\ exists mb, meta_ok fl per count ix mb /\ post = mb ++ r /\ p = pre ++ mb)) True.
Proof.
  intros Hs Hlim. unfold read_meta. rewrite rs_at_pos. apply wp_bind.
  eapply wp_impl; [apply (rs_word_w W16); exact Hs| |tauto].
  intros [flags s1] (Hf & p1 & r1 & -> & Hw1 & H1). change (256 ^ wbytes W16) with 65536 in Hf.
  pose proof (within_small _ _ _ _ _ Hw1 Hs) as Hs1.
  destruct (flags_land flags Hf) as (F1 & F2 & F3). rewrite F1, F2, F3.
  destruct (N.testbit flags 9) eqn:E9.
  { cbn [wp]. exists p1, r1. repeat split; try assumption; discriminate. }
  apply wp_bind. eapply wp_impl; [apply (rs_word_w W64); exact Hs1| |tauto].
  intros [count s2] (Hc & p2 & r2 & -> & Hw2 & H2). change (256 ^ wbytes W64) with two64 in Hc.
  pose proof (within_small _ _ _ _ _ Hw2 Hs1) as Hs2.
  pose proof (within_step _ _ _ _ _ _ Hw1 Hw2) as Hw12.
  pose proof (within_pos _ _ _ _ _ Hw1) as P1. pose proof (within_pos _ _ _ _ _ Hw2) as P2.
  pose proof (word_upper _ _ _ _ _ _ _ H1) as U1. pose proof (word_upper _ _ _ _ _ _ _ H2) as U2.
  cbn [wbytes] in H1, H2, U1, U2. unfold small_rs, lim62 in *.
  assert (Hfull : len pre + 10 <= len p2 -> post = num W16 fl flags ++ num W64 fl count ++ r2 /\
     p2 = pre ++ num W16 fl flags ++ num W64 fl count).
  { intros Hp2. destruct H1 as [(-> & ->)|(Hx & -> & ->)].
    - destruct H2 as [(-> & ->)|(Hx & -> & ->)].
      + rewrite <- !app_assoc. auto.
      + exfalso. rewrite !len_app, len_num in *. cbn [wbytes] in *. lia.
    - exfalso. rewrite !len_app, ?len_nil in *. lia. }
  destruct (N.testbit flags 8) eqn:E8.
  - destruct dix as [l|]; [|cbn [wp]; exists p2, r2; repeat split; try assumption; discriminate].
    apply wp_bind. eapply wp_impl; [apply (rs_word_w W64); exact Hs2| |tauto].
    intros [icount s3] (Hic & p3 & r3 & -> & Hw3 & H3). change (256 ^ wbytes W64) with two64 in Hic.
    pose proof (within_small _ _ _ _ _ Hw3 Hs2) as Hs3.
    pose proof (within_step _ _ _ _ _ _ Hw12 Hw3) as Hw13.
    pose proof (within_pos _ _ _ _ _ Hw3) as P3. pose proof (word_upper _ _ _ _ _ _ _ H3) as U3. cbn [wbytes] in U3.
    match goal with |- context [if ?c then _ else _] => destruct c end.
    { cbn [wp]. exists p3, r3. repeat split; try assumption; discriminate. }
    apply wp_bind. apply resize_wp; [|tauto]. intros Hal l1 _ Hl1.
    apply wp_bind. eapply wp_impl; [apply rs_read_w; [exact Hs3| |]| |tauto].
    { rewrite len_flat_le4. cbn [ksize wbytes]. lia. } { rewrite len_flat_le4. unfold lim62. lia. }
    intros [[got img] s4] (Hli & p4 & r4 & -> & Hw4 & H4). rewrite len_flat_le4 in Hli. cbn [ksize wbytes] in H4.
    pose proof (within_step _ _ _ _ _ _ Hw13 Hw4) as Hw14.
    pose proof (within_pos _ _ _ _ _ Hw4) as P4.
    cbn [wp]. exists p4, r4. split; [reflexivity|]. split; [exact Hw14|]. split; [reflexivity|].
    rewrite rs_at_pos. intros Hpos. apply N.eqb_eq in Hpos.
    rewrite (mul64_small icount 4) in Hpos by (unfold two64; lia).
    rewrite (add64_small 8) in Hpos by (unfold two64; lia).
    rewrite (add64_small (len pre) 10) in Hpos by (unfold two64; lia).
    rewrite add64_small in Hpos by (unfold two64; lia).
    destruct H4 as [(img' & E4 & -> & Hl4 & _ & Ht)|(Hx & _ & -> & ->)].
    2:{ exfalso. rewrite len_app in Hpos. lia. }
    rewrite take_all in Ht by lia. subst img'.
    assert (Himg : N.of_nat (N.to_nat icount) = icount) by lia.
    destruct (words32_bytes fl (N.to_nat icount) img) as (W1 & W2 & W3); [lia|]. rewrite Himg in W1.
    rewrite W1 in *.
    assert (Hlw : len (words32 (N.to_nat icount) img) = icount) by (unfold len; rewrite W3; lia).
    rewrite len_app, len_flat_num, Hlw in Hpos. cbn [wbytes] in Hpos.
    destruct H3 as [(-> & ->)|(Hy & -> & ->)].
    2:{ exfalso. destruct (flat_map (num W32 fl) (words32 (N.to_nat icount) img)) eqn:Ef; [|discriminate E4].
        apply (f_equal (@len byte)) in Ef. rewrite len_flat_num, Hlw, len_nil in Ef. cbn [wbytes] in Ef.
        rewrite len_app in Hpos. cbn [wbytes] in Hy. lia. }
    rewrite len_app, len_num in Hpos. cbn [wbytes] in Hpos.
    destruct Hfull as (Hpost & Hp2); [lia|].
    split; [exact Hc|].
    eexists. split; [exists flags; split; [exact Hf|]; split; [reflexivity|]; split; [exact E8|]; split; [exact E9|]; split; [exact W2|reflexivity]|].
    rewrite Hlw. rewrite Hpost, Hp2, E4. rewrite <- !app_assoc. auto.
  - destruct dix as [l|]; cbn [wp]; exists p2, r2; (split; [reflexivity|]); (split; [exact Hw12|]); (split; [reflexivity|]).
    { discriminate. }
    rewrite rs_at_pos. intros Hpos. apply N.eqb_eq in Hpos. rewrite add64_small in Hpos by (unfold two64; lia).
    destruct Hfull as (Hpost & Hp2); [lia|]. split; [exact Hc|].
    eexists. split; [exists flags; split; [exact Hf|]; split; [reflexivity|]; split; [exact E8|]; split; [exact E9|]; split; [exact I|reflexivity]|].
    rewrite app_nil_r, <- app_assoc. auto.
Qed.

(** ** Items *)
Lemma pods_of_ok k n m : forall img, len img = N.of_nat m * (n * ksize k) ->
  Forall (shape_ok (ShPod k n)) (pods_of m (n * ksize k) img) /\
  flat_map the_image (pods_of m (n * ksize k) img) = img /\ len (pods_of m (n * ksize k) img) = N.of_nat m.
Proof.
  induction m as [|m IH]; intros img H.
  - apply (len_0 img) in H. subst. repeat split; constructor.
  - cbn [pods_of flat_map the_image].
    destruct (IH (drop (n * ksize k) img)) as (A & B & C); [rewrite len_drop; lia|].
    split; [|split].
    + constructor; [cbn; rewrite len_take; lia|exact A].
    + rewrite B. apply take_drop.
    + rewrite len_cons, C. lia.
Qed.

Lemma read_strings_gen e bend : forall l pre post fl,
  small_rs pre post -> e_lim e < lim62 ->
  wp (read_strings e bend l (rs_at pre post fl)) (fun res => let '(ok, out, s') := res in
    exists p r, s' = rs_at p r fl /\ within pre post fl (rs_at p r fl) /\
    (ok = true -> len out = len l /\ Forall (fun s => len s < two64) out /\
       exists ps, post = concat ps ++ r /\ p = pre ++ concat ps /\
         Forall2 (string_carries (match r with [] => true | _ => false end) fl) ps out)) True.
Proof.
  induction l as [|d l IH]; intros pre post fl Hs Hlim.
  - cbn [read_strings wp]. exists pre, post. split; [reflexivity|]. split; [apply within_self|].
    intros _. split; [reflexivity|]. split; [constructor|]. exists []. cbn [concat app]. rewrite app_nil_r. auto.
  - rewrite read_strings_step. apply wp_bind.
    eapply wp_impl; [apply string_step_gen; assumption| |tauto].
    intros [[ok d2] s2] (p2 & r2 & -> & Hw2 & H2). pose proof (within_small _ _ _ _ _ Hw2 Hs) as Hs2.
    destruct ok; cbn [negb]; [|cbn [wp]; exists p2, r2; repeat split; try assumption; discriminate].
    apply wp_bind. eapply wp_impl; [apply IH; assumption| |tauto].
    intros [[ok l2] s3] (p3 & r3 & -> & Hw3 & H3). cbn [wp]. exists p3, r3. split; [reflexivity|].
    split; [eapply within_step; eassumption|]. intros ->.
    destruct (H3 eq_refl) as (A & B & ps & C & D & E). destruct (H2 eq_refl) as (F & G).
    split; [rewrite !len_cons; lia|]. split; [constructor; [unfold lim62, two64 in *; lia|exact B]|].
    destruct G as [(-> & ->)|(G1 & -> & -> & ->)].
    + exists (string_bytes fl d2 :: ps). cbn [concat]. rewrite C, D, <- !app_assoc.
      split; [reflexivity|]. split; [reflexivity|]. constructor; [left; reflexivity|exact E].
    + exists (post :: ps). cbn [concat]. destruct (concat ps) eqn:Ec; [|discriminate C]. cbn [app] in C. subst r3.
      rewrite D, !app_nil_r. split; [reflexivity|]. split; [reflexivity|].
      constructor; [right; auto|exact E].
Qed.

Lemma unpack_loop_gen n : forall i vec, (i + n <= 8 * length vec)%nat ->
  unpack_loop n (N.of_nat i) vec = Done (map (bit_at vec) (seq i n)).
Proof.
  induction n as [|n IH]; intros i vec H; [reflexivity|].
  cbn [unpack_loop seq map].
  destruct (N.ltb_spec (N.shiftr (N.of_nat i) 3) (len vec)) as [_|X].
  2:{ rewrite N.shiftr_div_pow2 in X. change (2^3) with 8 in X.
      assert (N.of_nat i / 8 < len vec) by (apply N.div_lt_upper_bound; unfold len; lia). lia. }
  replace (N.of_nat i + 1) with (N.of_nat (S i)) by lia.
  rewrite IH by lia. cbn [bind]. rewrite shiftr3, land7, land_bit_test. reflexivity.
Qed.

(** Body of an array. *)
Definition body_carries (eos fl : bool) (h : shape) (body : list byte) (items : list val) : Prop :=
  Forall (shape_ok h) items /\
  match h with
  | ShPod k n => body = element_bytes k (len items * n) fl (flat_map the_image items)
  | ShBool => len body = (len items + 7) / 8 /\ map the_bool items = map (bit_at body) (seq 0 (length items))
  | ShString => exists ps, body = concat ps /\ Forall2 (string_carries eos fl) ps (map the_string items)
  end.

Definition multi (h : shape) : Prop := match h with ShPod _ n => n <> 1 | _ => False end.
Definition wordy (h : shape) : Prop := match h with ShPod (KW _) _ => True | ShPod _ n => n = 1 | _ => True end.
Definition h_small (h : shape) : Prop := match h with ShPod k n => n * ksize k <= 128 | _ => True end.
Definition e_small (e : renv) : Prop := e_lim e < 2^60.

Lemma map_the_string_VS l : map the_string (map VS l) = l.
Proof. rewrite map_map. apply map_id. Qed.
Lemma map_the_bool_VB l : map the_bool (map VB l) = l.
Proof. rewrite map_map. apply map_id. Qed.

Lemma len_pods h k n l : h = ShPod k n -> Forall (shape_ok h) l -> len (pods_image l) = len l * n * ksize k.
Proof. intros -> H. apply len_flat_image. exact H. Qed.

(** A count that is not a multiple of the component count is never accepted. *)
Lemma rs_words_odd w count dest pre post fl :
  small_rs pre post -> count < two64 -> len dest < count * wbytes w -> count * wbytes w < two64 - lim62 ->
  wpu (rs_words w count dest (rs_at pre post fl)) (fun r => let '(n, d, s') := r in
     n < count /\ within pre post fl s') False True.
Proof.
  intros Hs Hc Hd Hbig. unfold small_rs, lim62, two64 in *.
  assert (Hraw : forall c, c = count * wbytes w -> wpu (rs_raw c dest (rs_at pre post fl)) (fun r => let '(got, d, s') := r in
      got < c /\ within pre post fl s') False True).
  { intros c ->. unfold rs_raw. rewrite rs_at_size, rs_at_pos. rewrite add64_small by (unfold two64; lia).
    destruct (N.ltb_spec (len pre + len post) (len pre + count * wbytes w)) as [Hsh|Hfull].
    - rewrite sub64_small by (unfold two64; lia).
      match goal with |- context [if ?c then _ else _] => destruct c end; cbn [wpu]; [|exact I].
      split; [lia|]. exists post, []. split; [rewrite app_nil_r; reflexivity|].
      unfold rs_at. cbn [rs_data rs_flip]. rewrite app_nil_r. f_equal. rewrite len_app. lia.
    - destruct ((len pre + count * wbytes w <=? len pre + len post) && (count * wbytes w <=? len dest)) eqn:E; cbn [wpu]; [|exact I].
      lia. }
  assert (Hdiv : forall got, got < count * wbytes w -> got / wbytes w < count).
  { intros got Hg. apply N.div_lt_upper_bound; [destruct w; discriminate|lia]. }
  unfold rs_words. destruct w.
  1:{ specialize (Hraw count ltac:(cbn [wbytes]; lia)). exact Hraw. }
  all: apply wpu_bind; rewrite mul64_small by (unfold two64; lia);
    (eapply wpu_impl; [apply Hraw; reflexivity| |tauto|tauto]);
    intros [[got d] s'] (Hg & Hw);
    specialize (Hdiv got Hg); cbn zeta;
    destruct (rs_flip _); cbn [wpu]; [match goal with |- context [if ?c then _ else _] => destruct c end; cbn [wpu]|];
    auto.
Qed.

Lemma read_items_gen e h bend per count dest pre post fl :
  small_rs pre post -> e_small e -> h_ok h -> h_small h -> wordy h -> Forall (shape_ok h) dest -> count < two64 -> bend <= len pre + len post ->
  wpu (read_items e h bend per count dest (rs_at pre post fl)) (fun res => let '(ok, items, s') := res in
    exists p r, s' = rs_at p r fl /\ within pre post fl (rs_at p r fl) /\
    (ok = true -> len p = bend -> count = h_count h items /\ (match h with ShPod k _ => per = ksize k | _ => True end) /\
       exists body, post = body ++ r /\ p = pre ++ body /\
         body_carries (match r with [] => true | _ => false end) fl h body items)) True (multi h).
Proof.
  intros Hs He Hh Hsm Hwordy Hd Hc Hbend. unfold e_small in He.
  assert (Hlim : e_lim e < lim62) by (unfold lim62; lia).
  destruct h as [| |k n]; cbn [read_items multi].
  - apply wp_wpu. rewrite rs_at_pos. set (packed := add64 count 7 / 8).
    destruct (N.ltb_spec (sub64 bend (len pre)) packed) as [Hb|Hb].
    { cbn [wp]. exists pre, post. split; [reflexivity|]. split; [apply within_self|discriminate]. }
    destruct (N.ltb_spec (e_lim e) ((count + 7) / 8)) as [X|Hsmall]; [cbn; exact I|]. cbn [bind].
    assert (Hc61 : count < 2^63).
    { pose proof (N.div_mod (count + 7) 8 ltac:(lia)) as D1. pose proof (N.mod_lt (count + 7) 8 ltac:(lia)) as D2. lia. }
    assert (Hpk : packed = (count + 7) / 8) by (unfold packed; rewrite add64_small by (unfold two64; lia); reflexivity).
    rewrite Hpk in *. set (pk := (count + 7) / 8) in *.
    apply wp_bind. apply resize_wp; [|tauto]. intros Hal v1 _ Hv1.
    apply wp_bind. eapply wp_impl; [apply rs_read_w; [exact Hs| |]| |tauto].
    { cbn [ksize wbytes]. lia. } { unfold lim62 in *. lia. }
    intros [[got vec1] s1] (Hlv & p1 & r1 & -> & Hw1 & H1). cbn [ksize wbytes] in H1. rewrite N.mul_1_r in H1.
    assert (Hcnt : (0 + N.to_nat count <= 8 * length vec1)%nat).
    { pose proof (N.div_mod (count + 7) 8 ltac:(lia)) as D1. pose proof (N.mod_lt (count + 7) 8 ltac:(lia)) as D2.
      fold pk in D1. unfold len in *. lia. }
    rewrite (unpack_loop_gen (N.to_nat count) 0 vec1 Hcnt : unpack_loop (N.to_nat count) 0 vec1 = _).
    cbn [bind wp]. exists p1, r1. split; [reflexivity|]. split; [exact Hw1|]. intros _ Hend.
    assert (Hcl : len (map VB (map (bit_at vec1) (seq 0 (N.to_nat count)))) = count).
    { rewrite !len_map. unfold len. rewrite seq_length. lia. }
    cbn [h_count]. split; [symmetry; exact Hcl|]. split; [exact I|].
    destruct H1 as [(img & -> & -> & Hli & _ & Ht)|(Hsh & _ & -> & ->)].
    2:{ exfalso. (* a short read: the block end lies before the bits *)
        rewrite len_app in Hend. unfold small_rs, lim62 in Hs.
        rewrite sub64_small in Hb by (unfold two64; lia). lia. }
    rewrite element_bytes_W8 in * by exact Hli. rewrite take_all in Ht by lia. subst img.
    exists vec1. split; [reflexivity|]. split; [reflexivity|].
    split; [apply Forall_map, Forall_forall; intros; exact I|].
    rewrite Hcl. split; [exact Hli|]. rewrite map_the_bool_VB. rewrite !map_length, seq_length. reflexivity.
  - apply wp_wpu. rewrite rs_at_pos.
    match goal with |- context [if ?c then _ else _] => destruct c end.
    { cbn [wp]. exists pre, post. split; [reflexivity|]. split; [apply within_self|discriminate]. }
    apply wp_bind. apply resize_wp; [|tauto]. intros Hal d1 _ Hd1.
    apply wp_bind. eapply wp_impl; [apply read_strings_gen; assumption| |tauto].
    intros [[ok l] s1] (p1 & r1 & -> & Hw1 & H1). cbn [wp]. exists p1, r1. split; [reflexivity|]. split; [exact Hw1|].
    intros Hok _. destruct (H1 Hok) as (A & B & ps & C & D & E).
    cbn [h_count]. rewrite len_map. rewrite len_map in A. split; [lia|]. split; [exact I|].
    exists (concat ps). split; [exact C|]. split; [exact D|]. split.
    + apply Forall_map. exact B.
    + exists ps. rewrite map_the_string_VS. auto.
  - rewrite rs_at_pos. cbn [h_ok] in Hh. pose proof (ksize_pos k) as Hk.
    destruct (N.eqb_spec (ksize k) per) as [<-|Hne]; cbn [negb].
    2:{ cbn [wpu]. exists pre, post. split; [reflexivity|]. split; [apply within_self|discriminate]. }
    match goal with |- context [if ?c then _ else _] => destruct c end.
    { cbn [wpu]. exists pre, post. split; [reflexivity|]. split; [apply within_self|discriminate]. }
    apply wpu_bind.
    eapply wpu_impl; [apply wp_wpu with (U := False), resize_wp with (T := True); [|tauto]| |tauto|tauto].
    { intros Hal d1 Ed Hd1.
      instantiate (1 := fun d1 => count / n * (n * ksize k) <= e_lim e /\ len d1 = count / n /\ Forall (shape_ok (ShPod k n)) d1).
      split; [exact Hal|]. split; [exact Hd1|]. eapply resize_forall; [exact Ed| |exact Hd]. cbn. apply len_rep. }
    intros d1 (Hal & Hd1 & Hf1).
    pose proof (len_pods _ k n d1 eq_refl Hf1) as Hlp. rewrite Hd1 in Hlp.
    pose proof (N.div_mod count n ltac:(lia)) as D1. pose proof (N.mod_lt count n ltac:(lia)) as D2.
    destruct (N.eq_dec (count mod n) 0) as [Hm|Hm].
    + assert (Hcn : count = count / n * n) by lia.
      apply wpu_bind. eapply wpu_impl; [apply wp_wpu with (U := False), rs_read_w; [exact Hs| |]| |tauto|tauto].
      { rewrite Hlp. rewrite Hcn at 1. lia. } { rewrite Hlp. unfold lim62 in *. lia. }
      intros [[got img] s1] (Hli & p1 & r1 & -> & Hw1 & H1). rewrite Hlp in Hli.
      cbn [wpu]. exists p1, r1. split; [reflexivity|]. split; [exact Hw1|]. intros Hg _. apply N.eqb_eq in Hg. subst got.
      destruct H1 as [(img' & -> & -> & Hl' & _ & Ht)|(_ & ? & _)]; [|lia].
      rewrite take_all in Ht by lia. subst img'.
      destruct (pods_of_ok k n (N.to_nat (count / n)) img) as (A & B & C); [lia|].
      rewrite Nnat.N2Nat.id in C. cbn [h_count]. rewrite C. split; [exact Hcn|]. split; [reflexivity|].
      exists (element_bytes k count fl img). split; [reflexivity|]. split; [reflexivity|].
      split; [exact A|]. rewrite C, B, <- Hcn. reflexivity.
    + assert (Hn1 : n <> 1) by (intros ->; rewrite N.mod_1_r in Hm; contradiction).
      destruct k as [w| |]; cbn [wordy] in Hwordy; try contradiction. cbn [rs_read ksize] in *.
      apply wpu_bind. eapply wpu_impl; [apply rs_words_odd; [exact Hs|exact Hc| |]| |tauto|tauto].
      { rewrite Hlp. nia. }
      { unfold lim62, two64. unfold h_small in Hsm. cbn [ksize] in Hsm. change (2^64) with 18446744073709551616.
        assert (count * wbytes w <= count / n * (n * wbytes w) + 128); [|lia].
        rewrite D1 at 1. nia. }
      intros [[got img] s1] (Hg & Hw1).
      assert (HH : exists p1 r1, s1 = rs_at p1 r1 fl) by (destruct Hw1 as (a & b & _ & ->); eauto).
      destruct HH as (p1 & r1 & ->). cbn [wpu]. exists p1, r1. split; [reflexivity|]. split; [exact Hw1|].
      intros Hq. apply N.eqb_eq in Hq. lia.
Qed.

(** ** Arrays *)
Lemma read_array_gen e vt h key empty_ok dest ix pre post fl :
  len key <= 40 -> 0 < len key -> 0 < vt -> small_rs pre post -> e_small e ->
  h_ok h -> h_small h -> wordy h -> Forall (shape_ok h) dest ->
  wpu (read_array e vt h key empty_ok dest ix (rs_at pre post fl)) (fun res => let '(st, items, ix', s') := res in
    within pre post fl s' /\
    match st with
    | SFail => True
    | SEmpty => empty_ok = true /\ consumed fl pre post s' (fun eos bs => null_large eos fl vt key bs)
    | SOk => some ix' = some ix /\
             consumed fl pre post s' (fun eos bs => exists p, array_carries eos fl h p items ix' /\
                 bs = large_block fl vt key p)
    end) True (multi h).
Proof.
  intros Hk Hk0 Hvt Hs He Hh Hsm Hwordy Hd. unfold read_array. apply wpu_bind.
  eapply wpu_impl; [apply wp_wpu with (U := False), begin_read_gen; assumption| |tauto|tauto].
  intros [bend s1] (Hw & H1).
  destruct (N.eqb_spec bend 0) as [->|Hne0]; [cbn [wpu]; auto|].
  destruct H1 as [?|H1]; [contradiction|].
  destruct (N.eqb_spec bend (rs_pos s1)) as [Hpe|Hpe].
  { cbn [wpu]. split; [exact Hw|]. unfold end_read_empty, end_read. rewrite <- Hpe, N.eqb_refl.
    destruct empty_ok; [|exact I]. split; [reflexivity|]. eapply begun_empty; eauto. }
  assert (HH : exists p1 r1, s1 = rs_at p1 r1 fl) by (destruct Hw as (a & b & _ & ->); eauto).
  destruct HH as (p1 & r1 & ->). pose proof (within_small _ _ _ _ _ Hw Hs) as Hs1. rewrite rs_at_pos in Hpe.
  apply wpu_bind.
  eapply wpu_impl; [apply wp_wpu with (U := False), read_meta_gen; [exact Hs1|unfold e_small, lim62 in *; lia]| |tauto|tauto].
  intros [[[[ok per] count] ix1] s2] (p2 & r2 & -> & Hw2 & Hix & H2).
  pose proof (within_step _ _ _ _ _ _ Hw Hw2) as Hw12.
  destruct ok; cbn [negb]; [|cbn [wpu]; auto].
  destruct (H2 eq_refl) as (Hc & mb & Hmb & Er1 & Ep2). clear H2.
  pose proof (within_small _ _ _ _ _ Hw2 Hs1) as Hs2. pose proof (within_pos _ _ _ _ _ Hw12) as P12.
  assert (Hbend : bend <= len p2 + len r2).
  { destruct H1 as (bs & _ & _ & Hle & _). lia. }
  apply wpu_bind.
  eapply wpu_impl; [apply read_items_gen; assumption| |tauto|tauto].
  intros [[ok2 items] s3] (p3 & r3 & -> & Hw3 & H3).
  pose proof (within_step _ _ _ _ _ _ Hw12 Hw3) as Hw13.
  destruct ok2; cbn [negb]; [|cbn [wpu]; auto].
  unfold end_read. rewrite rs_at_pos.
  destruct (N.eqb_spec (len p3) bend) as [Hend|Hend]; cbn [wpu]; [|auto].
  split; [exact Hw13|]. split; [exact Hix|].
  destruct (H3 eq_refl Hend) as (Hcnt & Hper & body & Er2 & Ep3 & Hbody).
  destruct H1 as (bs & Hbs & Ebend & _ & [(rest & E1 & E2)|(k' & Hlk & E1 & E2)]).
  2:{ exfalso. apply rs_at_inj in E2. destruct E2 as (-> & ->).
      destruct Hmb as (flags & _ & _ & _ & _ & _ & ->).
      apply (f_equal (@len byte)) in Er1. rewrite !len_app, !len_num, len_nil in Er1. cbn [wbytes] in Er1. lia. }
  apply rs_at_inj in E2. destruct E2 as (-> & ->). subst post.
  pose proof (within_step _ _ _ _ _ _ Hw2 Hw3) as Hw23.
  destruct (at_full fl vt bs key pre rest p3 r3 Hs Hbs Hw23) as (payload & Er & Eb & Ep3'); [congruence|].
  exists (large_block fl vt key payload), r3. split; [rewrite <- Eb, <- app_assoc, <- Er; reflexivity|].
  split; [subst p3; rewrite Ep3'; reflexivity|].
  exists payload. split; [|reflexivity].
  assert (Epay : payload = mb ++ body).
  { apply (app_inv_tail r3). rewrite <- Er, Er1, Er2, app_assoc. reflexivity. }
  destruct Hmb as (flags & Hf & -> & F8 & F9 & Hixok & Emb). destruct Hbody as (Hitems & Hbody).
  exists flags, body. split; [exact Hf|]. split; [destruct ix1; exact F8|]. split; [exact F9|]. split; [exact Hitems|].
  split; [exact Hixok|]. split.
  - destruct h as [| |k n]; [exact Hbody|exact Hbody|]. split; [exact Hper|exact Hbody].
  - rewrite Epay, Emb, Hcnt. rewrite <- !app_assoc. destruct h; reflexivity.
Qed.
