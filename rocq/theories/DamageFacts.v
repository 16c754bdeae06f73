(** * When a read throws or goes out of bounds. Proofs. *)
From Verif Require Import Base Bytes BytesFacts Values Streams FileSpec ReadSpec StreamFacts StreamProps Types Format
  Accept EntityWriter EntityReader EntityWriterFacts PackFacts ArrayWriterFacts EntityReaderFacts EntitySafety ArraySafety ReadTotal Items ItemSpec EntityProps EntityTheorems Damage.
Open Scope N_scope.

Lemma rs_word_end w pre fl : small_rs pre [] -> rs_word w (rs_at pre [] fl) = Done (0, rs_at pre [] fl).
Proof.
  intros Hs. unfold small_rs, lim62 in Hs. rewrite len_nil in Hs.
  unfold rs_word, rs_read1, rs_read, rs_words, rs_raw. rewrite rs_at_size, rs_at_pos, len_nil.
  assert (A : forall n, 0 < n -> n <= 8 -> (len pre + 0 <? add64 (len pre) n) = true).
  { intros n H1 H2. rewrite add64_small by (unfold two64; lia). apply N.ltb_lt. lia. }
  assert (B : forall n, (len pre + sub64 (len pre + 0) (len pre) <=? len pre + 0) && (sub64 (len pre + 0) (len pre) <=? n) = true).
  { intros n. rewrite sub64_small by (unfold two64; lia). lia. }
  assert (Z : sub64 (len pre + 0) (len pre) = 0) by (rewrite sub64_small by (unfold two64; lia); lia).
  assert (P : len pre + 0 = len pre) by lia.
  destruct w; cbn [ksize wbytes]; rewrite ?N.mul_1_r; change (mul64 1 2) with 2; change (mul64 1 4) with 4; change (mul64 1 8) with 8;
    rewrite A by lia; rewrite ?len_rep, B, Z; cbn [bind]; rewrite ?take_0, ?drop_0; cbn [app]; unfold rs_at; cbn [rs_data rs_flip rs_pos]; rewrite P;
    destruct fl; cbn [bind]; try reflexivity; vm_compute; reflexivity.
Qed.

Definition short (e : renv) (total : N) : Prop := e_lim e < 4 * total.

Lemma string_step_throw e bend d pre post fl : small_rs pre post -> e_lim e < lim62 -> bend <= len pre + len post ->
  wp (string_step e bend d (rs_at pre post fl)) (fun _ => True) (short e (len pre + len post) \/ (bend < len pre + 8 /\ post <> [])).
Proof.
  intros Hs Hlim Hb. unfold short. destruct post as [|x post].
  { unfold string_step, rs_u64. rewrite rs_word_end by exact Hs. cbn [bind]. rewrite rs_at_pos.
    destruct (N.ltb_spec (sub64 bend (len pre)) 0) as [X|_]; [lia|]. apply wp_bind. apply resize_wp; [|lia].
    intros _ d1 _ _. destruct (N.ltb_spec 0 0); [lia|]. exact I. }
  set (post' := x :: post) in *. assert (Hne : post' <> []) by discriminate. clearbody post'. clear x post.
  unfold string_step. apply wp_bind.
  eapply wp_impl; [apply (rs_word_w W64); exact Hs| |tauto].
  intros [size s1] (Hsz & p1 & r1 & -> & Hw1 & H1). change (256 ^ wbytes W64) with two64 in Hsz.
  pose proof (within_small _ _ _ _ _ Hw1 Hs) as Hs1. rewrite rs_at_pos. pose proof (word_upper _ _ _ _ _ _ _ H1) as U1. cbn [wbytes] in U1.
  destruct (N.ltb_spec (sub64 bend (len p1)) size) as [Hb1|Hb1]; [exact I|].
  apply wp_bind. apply resize_wp.
  2:{ rewrite N.mul_1_r. intros Hal. destruct (N.le_gt_cases (len p1) bend) as [X|X]; [left|right; split; [lia|exact Hne]].
      unfold small_rs, lim62 in *. rewrite sub64_small in Hb1 by (unfold two64; lia). lia. }
  intros Hal d1 _ Hd1. rewrite N.mul_1_r in Hal.
  destruct (N.ltb_spec 0 size) as [Hpos|Hz].
  - apply wp_bind. eapply wp_impl; [apply rs_read_w; [exact Hs1| |]| |tauto].
    { cbn [ksize wbytes]. lia. } { lia. }
    intros [[got d2] s2] _. destruct (got =? size); exact I.
  - cbn [bind]. destruct (size =? size); exact I.
Qed.

Lemma read_strings_throw e bend : forall l pre post fl, small_rs pre post -> e_lim e < lim62 -> bend <= len pre + len post ->
  wp (read_strings e bend l (rs_at pre post fl)) (fun _ => True)
    (short e (len pre + len post) \/ exists ss rest, post = flat_map (string_bytes fl) ss ++ rest /\ (length ss < length l)%nat /\
       bend < len pre + len (flat_map (string_bytes fl) ss) + 8 /\ rest <> []).
Proof.
  induction l as [|d l IH]; intros pre post fl Hs Hlim Hb; [exact I|].
  rewrite read_strings_step. apply wp_bind.
  pose proof (string_step_throw e bend d pre post fl Hs Hlim Hb) as Q1.
  pose proof (string_step_gen e bend d pre post fl Hs Hlim) as Q2.
  destruct (string_step e bend d (rs_at pre post fl)) as [[[ok d2] s2]| |]; cbn [wp] in *; [|
    destruct Q1 as [X|[X Y]]; [left; exact X|right; exists [], post; cbn [flat_map app length]; rewrite len_nil; repeat split; try assumption; lia]|contradiction].
  destruct Q2 as (p2 & r2 & -> & Hw2 & H2). destruct ok; cbn [negb]; [|exact I].
  pose proof (within_small _ _ _ _ _ Hw2 Hs) as Hs2. pose proof (within_pos _ _ _ _ _ Hw2) as P2.
  apply wp_bind. eapply wp_impl; [apply IH; [exact Hs2|exact Hlim|lia]|intros [[? ?] ?] _; exact I|].
  intros [X|(ss & rest & E & L & B & NE)]; [left; unfold short in *; lia|right].
  destruct (H2 eq_refl) as (_ & [(E1 & E2)|(_ & _ & _ & Hr)]).
  - exists (d2 :: ss), rest. cbn [flat_map length]. rewrite <- app_assoc. split; [congruence|]. split; [lia|]. split; [|exact NE].
    rewrite E2, !len_app in B. rewrite len_app. lia.
  - exfalso. rewrite Hr in E. symmetry in E. apply app_eq_nil in E. tauto.
Qed.

(** ** Arrays *)
Definition fixed {A} (ix : option A) : N := if some ix then 18 else 10.
Lemma read_meta_end e c0 bend dix pre fl : small_rs pre [] -> exists per count ix s', read_meta e c0 bend dix (rs_at pre [] fl) = Done (false, per, count, ix, s').
Proof.
  intros Hs. unfold read_meta, rs_u16, rs_u64. rewrite !rs_word_end by exact Hs. cbn [bind]. rewrite rs_word_end by exact Hs. cbn [bind].
  change (N.land 0 0x200 =? 0) with true. change (N.land 0 0x100 =? 0) with true. cbn [negb]. destruct dix; [eauto|].
  rewrite rs_at_pos. unfold small_rs, lim62 in Hs. rewrite len_nil in Hs. rewrite add64_small by (unfold two64; lia).
  replace (len pre =? len pre + 10) with false by (symmetry; apply N.eqb_neq; lia). eauto.
Qed.
Lemma read_meta_throw e c0 bend dix pre post fl : small_rs pre post -> e_lim e < lim62 -> bend <= len pre + len post ->
  wp (read_meta e c0 bend dix (rs_at pre post fl)) (fun res => let '(ok, per, count, ix, s') := res in
    ok = true -> bend < len pre + fixed dix \/ rs_pos s' <= bend)
   (short e (len pre + len post) \/ bend < len pre + fixed dix).
Proof.
  intros Hs Hlim Hb. unfold read_meta. rewrite rs_at_pos. apply wp_bind.
  eapply wp_impl; [apply (rs_word_w W16); exact Hs| |tauto].
  intros [flags s1] (Hf & p1 & r1 & -> & Hw1 & H1). change (256 ^ wbytes W16) with 65536 in Hf.
  pose proof (within_small _ _ _ _ _ Hw1 Hs) as Hs1.
  destruct (flags_land flags Hf) as (F1 & F2 & F3). rewrite F1, F2, F3.
  destruct (N.testbit flags 9) eqn:E9; [cbn [wp]; discriminate|].
  apply wp_bind. eapply wp_impl; [apply (rs_word_w W64); exact Hs1| |tauto].
  intros [count s2] (Hc & p2 & r2 & -> & Hw2 & H2). change (256 ^ wbytes W64) with two64 in Hc.
  pose proof (within_small _ _ _ _ _ Hw2 Hs1) as Hs2.
  pose proof (within_step _ _ _ _ _ _ Hw1 Hw2) as Hw12.
  pose proof (within_pos _ _ _ _ _ Hw1) as P1. pose proof (within_pos _ _ _ _ _ Hw2) as P2.
  pose proof (word_upper _ _ _ _ _ _ _ H1) as U1. pose proof (word_upper _ _ _ _ _ _ _ H2) as U2.
  cbn [wbytes] in H1, H2, U1, U2. unfold small_rs, lim62 in *. unfold fixed.
  destruct (N.testbit flags 8) eqn:E8.
  - destruct dix as [l|]; [|cbn [wp]; discriminate]. cbn [some].
    apply wp_bind. eapply wp_impl; [apply (rs_word_w W64); exact Hs2| |tauto].
    intros [icount s3] (Hic & p3 & r3 & -> & Hw3 & H3). change (256 ^ wbytes W64) with two64 in Hic.
    pose proof (within_small _ _ _ _ _ Hw3 Hs2) as Hs3.
    pose proof (within_pos _ _ _ _ _ Hw3) as P3. pose proof (word_upper _ _ _ _ _ _ _ H3) as U3. cbn [wbytes] in U3.
    unfold small_rs, lim62 in *. rewrite rs_at_pos.
    destruct (N.ltb_spec (sub64 bend (len p3) / 4) icount) as [X|X]; [cbn [wp]; discriminate|].
    assert (D : bend < len pre + 18 \/ (len p3 + 4 * icount <= bend)).
    { destruct (N.le_gt_cases (len p3) bend) as [Y|Y]; [right|left; lia]. rewrite sub64_small in X by (unfold two64; lia).
      pose proof (N.mul_div_le (bend - len p3) 4 ltac:(lia)). lia. }
    apply wp_bind. apply resize_wp; [|intros Hal; unfold short; destruct D as [D|D]; [right; exact D|left; lia]].
    intros Hal l1 _ Hl1.
    apply wp_bind. eapply wp_impl; [apply rs_read_w; [exact Hs3| |]| |tauto].
    { rewrite len_flat_le4. cbn [ksize wbytes]. lia. } { rewrite len_flat_le4. unfold lim62. lia. }
    intros [[got img] s4] (Hli & p4 & r4 & -> & Hw4 & H4). cbn [wp]. rewrite rs_at_pos. intros Hpos.
    apply N.eqb_eq in Hpos. destruct D as [D|D]; [left; exact D|right].
    rewrite mul64_small in Hpos by (unfold two64; lia). rewrite !add64_small in Hpos by (rewrite ?add64_small; unfold two64; lia).
    destruct H4 as [(im & _ & -> & Hl4 & _)|(HS & _ & -> & _)].
    + rewrite len_app, len_element_bytes by exact Hl4. cbn [ksize wbytes]. lia.
    + cbn [ksize wbytes] in HS. rewrite len_app. lia.
  - destruct dix as [l|]; cbn [wp some]; [discriminate|]. rewrite rs_at_pos. intros Hpos. lia.
Qed.

Lemma read_items_throw e h bend per count dest pre post fl :
  small_rs pre post -> e_small e -> h_ok h -> h_small h -> wordy h -> Forall (shape_ok h) dest -> count < two64 -> bend <= len pre + len post ->
  wpu (read_items e h bend per count dest (rs_at pre post fl)) (fun _ => True)
   (short e (len pre + len post) \/ bend < len pre \/ (h = ShBool /\ two64 - 7 <= count) \/
      (h = ShString /\ exists ss rest, post = flat_map (string_bytes fl) ss ++ rest /\ len ss < count /\
         bend < len pre + len (flat_map (string_bytes fl) ss) + 8))
   (exists k n, h = ShPod k n /\ count mod n <> 0).
Proof.
  intros Hs He Hh Hsm Hwordy Hd Hc Hbend. unfold e_small in He.
  assert (Hlim : e_lim e < lim62) by (unfold lim62; lia).
  destruct (N.lt_ge_cases bend (len pre)) as [Hcr|Hcr].
  { (* the metadata goes beyond the block: any outcome but out-of-bounds access *)
    assert (Q := read_items_gen e h bend per count dest pre post fl Hs He Hh Hsm Hwordy Hd Hc Hbend).
    destruct h as [| |k n].
    - eapply wpu_impl; [exact Q|auto|auto|intros []].
    - eapply wpu_impl; [exact Q|auto|auto|intros []].
    - destruct (N.eq_dec (count mod n) 0) as [Hm|Hm]; [|eapply wpu_impl; [exact Q|auto|auto|eauto]].
      cbn [read_items]. rewrite rs_at_pos. cbn [h_ok] in Hh. destruct (negb _); [exact I|].
      match goal with |- context [if ?c then _ else _] => destruct c end; [exact I|]. apply wpu_bind.
      eapply wpu_impl; [apply wp_wpu with (U := False), resize_wp with (T := True); [|tauto]| |tauto|tauto].
      { intros Hal d1 Ed Hd1.
        instantiate (1 := fun d1 => count / n * (n * ksize k) <= e_lim e /\ len d1 = count / n /\ Forall (shape_ok (ShPod k n)) d1).
        split; [exact Hal|]. split; [exact Hd1|]. eapply resize_forall; [exact Ed| |exact Hd]. cbn. apply len_rep. }
      intros d1 (Hal & Hd1 & Hf1).
      pose proof (len_pods _ k n d1 eq_refl Hf1) as Hlp. rewrite Hd1 in Hlp.
      pose proof (N.div_mod count n ltac:(lia)) as D1.
      assert (Hcn : count = count / n * n) by lia.
      apply wpu_bind. eapply wpu_impl; [apply wp_wpu with (U := False), rs_read_w; [exact Hs| |]| |tauto|tauto].
      { rewrite Hlp. rewrite Hcn at 1. lia. } { rewrite Hlp. unfold lim62 in *. lia. }
      intros [[got img] s1] _. exact I. }
  unfold small_rs, lim62 in Hs.
  assert (Hsub : sub64 bend (len pre) = bend - len pre) by (apply sub64_small; unfold two64; lia).
  destruct h as [| |k n]; cbn [read_items].
  - apply wp_wpu. rewrite rs_at_pos, Hsub. set (packed := add64 count 7 / 8).
    destruct (N.ltb_spec (bend - len pre) packed) as [Hb|Hb]; [exact I|].
    destruct (N.ltb_spec (e_lim e) ((count + 7) / 8)) as [X|Hsmall].
    { cbn [bind wp]. destruct (N.le_gt_cases (two64 - 7) count) as [Y|Y]; [auto|left].
      unfold packed in Hb. rewrite add64_small in Hb by (unfold two64 in *; lia). unfold short. lia. }
    cbn [bind].
    assert (Hc61 : count < 2^63).
    { pose proof (N.div_mod (count + 7) 8 ltac:(lia)) as D1. pose proof (N.mod_lt (count + 7) 8 ltac:(lia)) as D2. lia. }
    assert (Hpk : packed = (count + 7) / 8) by (unfold packed; rewrite add64_small by (unfold two64; lia); reflexivity).
    rewrite Hpk in *. set (pk := (count + 7) / 8) in *.
    apply wp_bind. apply resize_wp; [|lia]. intros Hal v1 _ Hv1.
    apply wp_bind. eapply wp_impl; [apply rs_read_w; [exact Hs| |]| |tauto].
    { cbn [ksize wbytes]. lia. } { unfold lim62 in *. lia. }
    intros [[got vec1] s1] (Hlv & p1 & r1 & -> & Hw1 & H1).
    assert (Hcnt : (0 + N.to_nat count <= 8 * length vec1)%nat).
    { pose proof (N.div_mod (count + 7) 8 ltac:(lia)) as D1. pose proof (N.mod_lt (count + 7) 8 ltac:(lia)) as D2.
      fold pk in D1. unfold len in *. lia. }
    rewrite (unpack_loop_gen (N.to_nat count) 0 vec1 Hcnt : unpack_loop (N.to_nat count) 0 vec1 = _). exact I.
  - apply wp_wpu. rewrite rs_at_pos, Hsub.
    destruct (N.ltb_spec ((bend - len pre) / 8) count) as [X|X]; [exact I|].
    pose proof (N.mul_div_le (bend - len pre) 8 ltac:(lia)) as D.
    apply wp_bind. apply resize_wp; [|unfold sizeof_string, short; intros; left; lia]. intros Hal d1 _ Hd1.
    apply wp_bind. eapply wp_impl; [apply read_strings_throw; [exact Hs|exact Hlim|exact Hbend]|intros [[? ?] ?] _; exact I|].
    intros [Y|(ss & rest & E & L & B & _)]; [left; exact Y|right; right; right]. split; [reflexivity|].
    exists ss, rest. split; [exact E|]. split; [|exact B]. rewrite map_length in L. unfold len in *. lia.
  - rewrite rs_at_pos, Hsub. cbn [h_ok] in Hh. pose proof (ksize_pos k) as Hk.
    destruct (N.eqb_spec (ksize k) per) as [<-|Hne]; cbn [negb]; [|exact I].
    destruct (N.ltb_spec ((bend - len pre) / ksize k) count) as [X|X]; [exact I|].
    pose proof (N.mul_div_le (bend - len pre) (ksize k) ltac:(lia)) as D.
    pose proof (N.div_mod count n ltac:(lia)) as D1. pose proof (N.mod_lt count n ltac:(lia)) as D2.
    apply wpu_bind.
    eapply wpu_impl; [apply wp_wpu with (U := False), resize_wp with (T := short e (len pre + len post))| |tauto|tauto].
    { intros Hal d1 Ed Hd1.
      instantiate (1 := fun d1 => count / n * (n * ksize k) <= e_lim e /\ len d1 = count / n /\ Forall (shape_ok (ShPod k n)) d1).
      split; [exact Hal|]. split; [exact Hd1|]. eapply resize_forall; [exact Ed| |exact Hd]. cbn. apply len_rep. }
    { unfold short. intros Hal. assert (count / n * (n * ksize k) <= count * ksize k) by nia. nia. }
    intros d1 (Hal & Hd1 & Hf1).
    pose proof (len_pods _ k n d1 eq_refl Hf1) as Hlp. rewrite Hd1 in Hlp.
    destruct (N.eq_dec (count mod n) 0) as [Hm|Hm].
    + assert (Hcn : count = count / n * n) by lia.
      apply wpu_bind. eapply wpu_impl; [apply wp_wpu with (U := False), rs_read_w; [exact Hs| |]| |tauto|tauto].
      { rewrite Hlp. rewrite Hcn at 1. lia. } { rewrite Hlp. unfold lim62 in *. lia. }
      intros [[got img] s1] _. exact I.
    + destruct k as [w| |]; cbn [wordy] in Hwordy; try (subst n; rewrite N.mod_1_r in Hm; contradiction). cbn [rs_read ksize] in *.
      apply wpu_bind. eapply wpu_impl; [apply rs_words_odd; [exact Hs|exact Hc| |]| |tauto|eauto].
      { rewrite Hlp. nia. }
      { unfold lim62, two64. unfold h_small in Hsm. cbn [ksize] in Hsm. change (2^64) with 18446744073709551616.
        assert (count * wbytes w <= count / n * (n * wbytes w) + 128); [|lia].
        rewrite D1 at 1. nia. }
      intros [[got img] s1] _. exact I.
Qed.

Lemma large_header_of fl vt key bs rest post : bs < two64 -> post = header fl vt bs key ++ rest -> large_header fl vt key bs post rest.
Proof. intros H ->. split; [exact H|]. unfold header. cbn [app]. rewrite <- !app_assoc. reflexivity. Qed.

(** What the throw and out-of-bounds outcomes of an array read tell. *)
Definition array_size_damage fl pos t ix key bs : Prop :=
  meta_damage fl pos t ix key bs \/ (t = TBool /\ bools_damage fl key bs) \/ (t = TString /\ strings_damage fl pos key bs).
Lemma read_array_throw e t key empty_ok dest ix pre post fl :
  len key <= 40 -> 0 < len key -> small_rs pre post -> e_small e -> Forall (shape_ok (dshape t)) dest ->
  wpu (read_array e (vt_array t) (dshape t) key empty_ok dest ix (rs_at pre post fl)) (fun _ => True)
   (short e (len pre + len post) \/ array_size_damage fl (len pre) t (some ix) key post) (count_damage fl t key post).
Proof.
  intros Hk Hk0 Hs He Hd. pose proof (vt_array_pos t) as Hvt. pose proof (dshape_ok t) as Hh. pose proof (dshape_small t) as Hsm. pose proof (dshape_wordy t) as Hwd.
  assert (Hlim : e_lim e < lim62) by (unfold e_small, lim62 in *; lia).
  unfold read_array. apply wpu_bind.
  eapply wpu_impl; [apply wp_wpu with (U := False), begin_read_gen; assumption| |tauto|tauto].
  intros [bend s1] (Hw & H1).
  destruct (N.eqb_spec bend 0) as [->|Hne0]; [exact I|].
  destruct H1 as [?|H1]; [contradiction|].
  destruct (N.eqb_spec bend (rs_pos s1)) as [Hpe|Hpe]; [exact I|].
  destruct H1 as (bs & Hbs & Ebend & Hle & [(rest & E1 & ->)|(k' & Hlk & E1 & ->)]).
  2:{ destruct (read_meta_end e 0 bend ix (pre ++ post) fl) as (per & count & ix1 & s' & ->); [|exact I].
      unfold small_rs in *. rewrite len_app, len_nil. lia. }
  set (H0 := header fl (vt_array t) bs key) in *.
  assert (LH : len H0 = 10 + len key) by apply len_header.
  pose proof (large_header_of _ _ _ _ _ _ Hbs E1) as LHd.
  assert (Hs1 : small_rs (pre ++ H0) rest) by (subst post; apply small_rs_shift; exact Hs).
  assert (Ltot : len (pre ++ H0) + len rest = len pre + len post) by (subst post; rewrite !len_app; lia).
  assert (Bend : block_end (len pre) bs = bend) by (rewrite Ebend; unfold block_end, add64, two64; reflexivity).
  assert (Pst : payload_start (len pre) key = len (pre ++ H0)) by (unfold payload_start; rewrite len_app; lia).
  assert (MD : bend < len (pre ++ H0) + fixed ix -> array_size_damage fl (len pre) t (some ix) key post).
  { intros X. left. exists bs, rest. split; [exact LHd|]. rewrite Bend, Pst. exact X. }
  apply wpu_bind.
  pose proof (read_meta_throw e 0 bend ix (pre ++ H0) rest fl Hs1 Hlim ltac:(lia)) as Q1.
  pose proof (read_meta_gen e 0 bend ix (pre ++ H0) rest fl Hs1 Hlim) as Q2.
  destruct (read_meta e 0 bend ix (rs_at (pre ++ H0) rest fl)) as [[[[[ok per] count] ix1] s2]| |]; cbn [wp wpu] in *; [| |contradiction].
  2:{ destruct Q1 as [X|X]; [left; unfold short in *; lia|right; auto]. }
  destruct ok; cbn [negb]; [|exact I].
  destruct Q2 as (p2 & r2 & -> & Hw2 & Hix & H2). specialize (Q1 eq_refl). rewrite rs_at_pos in Q1.
  destruct (H2 eq_refl) as (Hc & mb & Hmb & Er1 & Ep2). clear H2.
  destruct Hmb as (flags & Hf & _ & _ & _ & _ & Emb). change (mb = meta_fields fl flags count ix1) in Emb. subst mb.
  pose proof (within_small _ _ _ _ _ Hw2 Hs1) as Hs2.
  assert (Lp2 : len p2 = payload_start (len pre) key + len (meta_fields fl flags count ix1)) by (rewrite Ep2, Pst, !len_app; lia).
  assert (Lt2 : len p2 + len r2 = len pre + len post) by (apply within_pos in Hw2; lia).
  apply wpu_bind. eapply wpu_impl; [apply read_items_throw; try assumption; lia| | |].
  - intros [[ok2 items] s3] _. destruct ok2; cbn [negb]; [|exact I]. destruct (end_read s3 bend); exact I.
  - intros [X|[X|[(X & Y)|(X & ss & rest2 & Y1 & Y2 & Y3)]]].
    + left. unfold short in *. lia.
    + right. apply MD. destruct Q1 as [Q1|Q1]; [exact Q1|lia].
    + right. right. left. split; [destruct t; try discriminate; reflexivity|]. destruct t; try discriminate X.
      exists bs, r2, flags, count, ix1. split; [rewrite <- Er1; exact LHd|]. split; [exact Y|exact Hc].
    + right. right. right. split; [destruct t; try discriminate; reflexivity|]. destruct t; try discriminate X.
      exists bs, rest2, flags, count, ix1, ss. cbv zeta. split; [rewrite <- Y1, <- Er1; exact LHd|]. split; [split; [exact Y2|exact Hc]|].
      rewrite Bend. lia.
  - intros (k & n & X & Y). exists k, n, bs, r2, flags, count, ix1. split; [exact X|]. split; [rewrite <- Er1; exact LHd|]. split; [exact Hc|exact Y].
Qed.

Lemma read_string_throw e key empty_ok dest pre post fl :
  len key <= 40 -> 0 < len key -> small_rs pre post -> e_lim e < lim62 ->
  wp (read_string e (vt_single TString) key empty_ok dest (rs_at pre post fl)) (fun _ => True)
   (short e (len pre + len post) \/ string_damage fl (len pre) key post).
Proof.
  intros Hk Hk0 Hs Hlim. rewrite read_string_step. apply wp_bind.
  eapply wp_impl; [apply begin_read_gen; try assumption; reflexivity| |tauto].
  intros [bend s1] (Hw & H1).
  destruct (N.eqb_spec bend 0) as [->|Hne0]; [exact I|].
  destruct H1 as [?|H1]; [contradiction|].
  destruct (N.eqb_spec (rs_pos s1) bend) as [Hpe|Hpe]; [exact I|].
  assert (HH : exists p1 r1, s1 = rs_at p1 r1 fl) by (destruct Hw as (a & b & _ & ->); eauto).
  destruct HH as (p1 & r1 & ->). pose proof (within_small _ _ _ _ _ Hw Hs) as Hs1. pose proof (within_pos _ _ _ _ _ Hw) as P1.
  destruct H1 as (bs & Hbs & Ebend & Hle & H1).
  apply wp_bind. eapply wp_impl; [apply string_step_throw; [exact Hs1|exact Hlim|lia]| |].
  - intros [[ok d] s3] _. destruct ok; cbn [negb]; [|exact I]. destruct (end_read s3 bend); exact I.
  - intros [X|(X & Y)]; [left; unfold short in *; lia|right].
    destruct H1 as [(rest & E1 & E2)|(k' & _ & _ & E2)]; apply rs_at_inj in E2; destruct E2 as (-> & ->); [|congruence].
    exists bs, rest. split; [apply (large_header_of _ _ _ _ _ _ Hbs E1)|]. rewrite len_app, len_header in X.
    change (block_end (len pre) bs) with (add64 (len pre + 9) bs). unfold payload_start. rewrite <- Ebend. lia.
Qed.

Lemma er_read_plain_throw e t key dest pre post fl :
  len key <= 40 -> 0 < len key -> small_rs pre post -> e_small e -> cval_ok t dest ->
  wpu (er_read_plain e t key dest (rs_at pre post fl)) (fun _ => True)
    (short e (len pre + len post) \/ size_damage fl (len pre) t dest key post) (is_array dest /\ count_damage fl t key post).
Proof.
  intros Hk Hk0 Hs He Hd. assert (Hlim : e_lim e < lim62) by (unfold e_small, lim62 in *; lia).
  assert (S : forall eo v, val_ok t v -> ~ is_array dest -> wpu (read_single e (vt_single t) (dshape t) key eo v (rs_at pre post fl)) (fun _ => True)
     (short e (len pre + len post) \/ size_damage fl (len pre) t dest key post) (is_array dest /\ count_damage fl t key post)).
  { intros eo v Hv Na. pose proof (read_single_gen e t key eo v pre post fl Hk Hk0 Hs Hlim Hv) as Q.
    destruct (dshape t) eqn:Es.
    - assert (t <> TString) by (destruct t; discriminate). eapply wpu_impl; [apply wp_wpu with (U := False); exact Q|auto|tauto|tauto].
    - assert (t = TString) by (destruct t; discriminate || reflexivity). subst t. cbn [read_single]. apply wpu_bind.
      eapply wpu_impl; [apply wp_wpu with (U := False), read_string_throw; assumption| | |tauto].
      + intros [[st b] s1] _. exact I.
      + intros [X|X]; [left; exact X|right; left]. auto.
    - assert (t <> TString) by (destruct t; discriminate). eapply wpu_impl; [apply wp_wpu with (U := False); exact Q|auto|tauto|tauto]. }
  assert (A : forall eo l ix, Forall (shape_ok (dshape t)) l -> is_array dest -> some ix = indexed (cval_ctype dest) ->
     wpu (read_array e (vt_array t) (dshape t) key eo l ix (rs_at pre post fl)) (fun _ => True)
     (short e (len pre + len post) \/ size_damage fl (len pre) t dest key post) (is_array dest /\ count_damage fl t key post)).
  { intros eo l ix Hl Ar Hx. eapply wpu_impl; [apply read_array_throw; assumption|auto| |tauto].
    intros [X|X]; [left; exact X|right; right]. split; [exact Ar|]. rewrite <- Hx. exact X. }
  destruct dest as [v|o|l|o|l ix|o]; cbn [er_read_plain cval_ok] in *; apply wpu_bind.
  - eapply wpu_impl; [apply S; [exact Hd|tauto]| |auto|auto]. intros [[st v1] s'] _. exact I.
  - eapply wpu_impl; [apply S; [apply val_default_ok|tauto]| |auto|auto]. intros [[st v1] s'] _. exact I.
  - eapply wpu_impl; [apply A; [apply Hd|exact I|reflexivity]| |auto|auto]. intros [[[st l1] ix1] s'] _. exact I.
  - eapply wpu_impl; [apply A; [constructor|exact I|reflexivity]| |auto|auto]. intros [[[st l1] ix1] s'] _. exact I.
  - eapply wpu_impl; [apply A; [apply Hd|exact I|reflexivity]| |auto|auto]. intros [[[st l1] ix1] s'] _. exact I.
  - eapply wpu_impl; [apply A; [constructor|exact I|reflexivity]| |auto|auto]. intros [[[st l1] ix1] s'] _. exact I.
Qed.

Lemma er_read_throw e t key dest pre post fl :
  len key <= 40 -> 0 < len key -> small_rs pre post -> e_small e -> cval_ok t dest ->
  wpu (er_read e t key dest (rs_at pre post fl)) (fun _ => True)
    (short e (len pre + len post) \/ size_damage fl (len pre) t dest key post) (is_array dest /\ count_damage fl t key post).
Proof.
  intros Hk Hk0 Hs He Hd.
  assert (G : forall t', dshape t' = dshape t -> vt_array t' = vt_array t -> t' <> TString -> t' <> TBool ->
    wpu (er_read_override e t' key dest (rs_at pre post fl)) (fun _ => True)
    (short e (len pre + len post) \/ size_damage fl (len pre) t dest key post) (is_array dest /\ count_damage fl t key post)).
  { intros t' E1 E2 N1 N2. unfold er_read_override. apply wpu_bind.
    eapply wpu_impl; [apply er_read_plain_throw; try assumption; apply cval_default_ok| | |].
    - intros [[ok v] s'] _. destruct ok; exact I.
    - intros [X|[(_ & X & _)|(X & [Y|[(Y & _)|(Y & _)]])]]; [left; exact X|contradiction| |contradiction|contradiction].
      right. right. split; [destruct dest; exact X|]. left. unfold meta_damage in *. rewrite E2 in Y. rewrite cval_default_ctype in Y. exact Y.
    - intros (X & Y). split; [destruct dest; exact X|]. unfold count_damage in *. rewrite E1, E2 in Y. exact Y. }
  unfold er_read. destruct t; try (apply er_read_plain_throw; assumption); apply G; try reflexivity; discriminate.
Qed.

Lemma t_inside_exact e t key dest data pos fl :
  pos <= len data -> len data < 2^62 -> e_lim e < 2^60 -> 0 < len key -> len key <= 40 -> cval_ok t dest ->
  (er_read e t key dest (RS data pos fl) = Throw -> e_lim e < 4 * len data \/ size_damage fl pos t dest key (drop pos data)) /\
  (er_read e t key dest (RS data pos fl) = Undef -> is_array dest /\ count_damage fl t key (drop pos data)).
Proof.
  intros Hp Hs He Hk0 Hk Hd. rewrite rs_split by exact Hp.
  assert (Hl : len (take pos data) = pos) by (rewrite len_take; lia).
  assert (Hl2 : len (drop pos data) = len data - pos) by apply len_drop.
  pose proof (er_read_throw e t key dest (take pos data) (drop pos data) fl Hk Hk0 ltac:(unfold small_rs, lim62; lia) ltac:(exact He) Hd) as Q.
  unfold short in Q. rewrite Hl, Hl2 in Q. replace (pos + (len data - pos)) with (len data) in Q by lia.
  destruct (er_read e t key dest _) as [[[ok v] s']| |]; cbn [wpu] in Q; split; try discriminate; auto.
Qed.

Lemma t_reader_total e t key dest data pos fl :
  pos <= len data -> len data < 2^62 -> e_lim e < 2^60 -> 0 < len key -> len key <= 40 -> cval_ok t dest ->
  match er_read e t key dest (RS data pos fl) with
  | Done (ok, v, s') =>
      cval_ctype v = cval_ctype dest /\
      exists n, pos + n <= len data /\ s' = RS data (pos + n) fl /\
        (ok = true -> exists w, accepts (pos + n =? len data) fl t key (take n (drop pos data)) w /\ v = delivered t dest w)
  | Throw => (is_array dest \/ t = TString) /\ (e_lim e < 4 * len data \/ size_damage fl pos t dest key (drop pos data))
  | Undef => (is_array dest /\ multi_component t) /\ count_damage fl t key (drop pos data)
  end.
Proof.
  intros H1 H2 H3 H4 H5 H6. pose proof (t_inside e t key dest data pos fl H1 H2 H3 H4 H5 H6) as A.
  destruct (t_inside_exact e t key dest data pos fl H1 H2 H3 H4 H5 H6) as [B C].
  destruct (er_read e t key dest (RS data pos fl)) as [[[ok v] s']| |]; [exact A|split; [exact A|exact (B eq_refl)]|].
  split; [exact A|]. apply (C eq_refl).
Qed.
