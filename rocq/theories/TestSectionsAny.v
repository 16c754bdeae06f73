(** * Reading objects of the class section_object from arbitrary bytes. Proofs. *)
From Verif Require Import Base Bytes BytesFacts Values Streams FileSpec ReadSpec StreamFacts StreamProps Types Format
  Accept EntityWriter EntityReader EntityWriterFacts PackFacts ArrayWriterFacts EntityReaderFacts EntitySafety ArraySafety
  ReadTotal Items ItemSpec ReadValid Sections Documents Keys Classes Table EntityGen EntitySpec EntityFacts
  ReadAnySpec Damage DamageFacts ReadAny PartsAnySpec PartsAny TestSections TestSectionsSpec TestSectionsFacts TestSectionsAnySpec.
Local Open Scope N_scope.

Section Data.
Context (f : fsize) (e : renv) (D : list byte) (fl : bool) (P0 : N) (He : e_small e).
Notation here := (here D P0).

Lemma keys_named : name_ok k_name /\ name_ok k_transform /\ name_ok k_sub /\ name_ok k_vec /\ name_ok k_arr.
Proof. repeat split; vm_compute; congruence. Qed.

Lemma name_read p r l h st : here p r -> st_at p r fl l h st ->
  wpu (r_read e h TString k_name (COpt None) st) (fun q => let '(ok, v, st') := q in
    cval_ok TString v /\ cval_ctype v = CtOpt /\ exists p' r', within p r fl (rs_at p' r' fl) /\ st_at p' r' fl l h st' /\
    (ok = true -> r' = [] \/ 21 + len r' <= len r))
    (e_lim e < 4 * len D \/ name_damaged fl D P0) False.
Proof.
  intros Hs Hst. destruct keys_named as (K & _). pose proof (r_read_any e D fl P0 He p r l h TString k_name (COpt None) st K Hs Hst Logic.I Logic.I) as A.
  assert (B : forall ok v st', r_read e h TString k_name (COpt None) st = Done (ok, v, st') -> ok = true ->
    forall p' r', r_stream st' = rs_at p' r' fl -> r' = [] \/ 21 + len r' <= len r).
  { intros ok v st' E Ok p' r' Es. unfold r_read in E. destruct (st_split _ _ _ _ _ _ Hst) as (a & g & d & _ & _ & _ & X). rewrite X in E.
    destruct K as (K0 & K1).
    pose proof (er_read_gen e TString k_name (COpt None) p r fl K1 K0 (here_small _ _ _ _ Hs) He Logic.I) as G. rewrite (proj1 Hst) in E.
    destruct (er_read e TString k_name (COpt None) (rs_at p r fl)) as [[[ok1 v1] s1]| |]; cbn [bind] in E; try discriminate. injection E as -> -> <-.
    cbn [wpu] in G. destruct G as (_ & _ & G). destruct (G Ok) as (bs & rest & -> & -> & w & Aw & _). cbn [r_stream] in Es. apply rs_at_inj in Es. destruct Es as (<- & <-).
    assert (Y : rest = [] \/ 21 <= len bs).
    { assert (Nl : forall (eos : bool) b, null_large eos fl (vt_single TString) k_name b -> (eos = true -> rest = []) -> rest = [] \/ 21 <= len b).
      { intros eos b [->|(H & _)] Hr; [right; rewrite len_large_block; vm_compute; discriminate|left; auto]. }
      assert (Hr : (match rest with [] => true | _ => false end) = true -> rest = []) by (destruct rest; [auto|discriminate]).
      assert (K11 : len k_name = 11) by reflexivity.
      assert (Sg : forall (v : val) b, single_accepts (match rest with [] => true | _ => false end) fl TString k_name b (Some v) -> 21 <= len b).
      { intros x b (pl & _ & ->). cbn [dshape]. rewrite len_large_block, K11. lia. }
      assert (Ar : forall a b, array_accepts (match rest with [] => true | _ => false end) fl TString k_name b a -> rest = [] \/ 21 <= len b).
      { intros [[items ix]|] b; [|].
        - intros (pl & _ & ->). right. rewrite len_large_block, K11. lia.
        - intros [->|(H & _)]; [right; rewrite len_large_block, K11; lia|left; auto]. }
      destruct w as [x|[x|]|x|x|x y|x]; cbn [accepts] in Aw; [right; eapply Sg; exact Aw|right; eapply Sg; exact Aw| |eapply Ar; exact Aw..].
      cbn [single_accepts dshape] in Aw. apply (Nl _ _ Aw Hr). }
    rewrite len_app. destruct Y as [->|Y]; [left; reflexivity|right; lia]. }
  destruct (r_read e h TString k_name (COpt None) st) as [[[ok v] st']| |]; cbn [wpu] in *.
  - destruct A as ((p' & r' & W & S) & V & Ct). split; [exact V|]. split; [exact Ct|]. exists p', r'. split; [exact W|]. split; [exact S|].
    intros Ok. apply (B ok v st' eq_refl Ok p' r' (proj1 S)).
  - destruct A as (n & t & c & (-> & -> & ->) & _ & [A|(q & A1 & A2)]); [left; exact A|right]. exists q. auto.
  - destruct A as (n & t & c & q & (-> & -> & ->) & (A & _) & _). exact A.
Qed.
Lemma transform_read p r l h st x : here p r -> st_at p r fl l h st -> val_ok (TMat D4 f) (VP x) ->
  wpu (r_read e h (TMat D4 f) k_transform (CV (VP x)) st) (fun q => let '(ok, v, st') := q in
    cval_ok (TMat D4 f) v /\ cval_ctype v = CtNone /\ exists p' r', within p r fl (rs_at p' r' fl) /\ st_at p' r' fl l h st' /\
    (ok = true -> obj_least f - 21 + len r' <= len r))
    False False.
Proof.
  intros Hs Hst Hx. destruct keys_named as (_ & K & _). pose proof (r_read_any e D fl P0 He p r l h (TMat D4 f) k_transform (CV (VP x)) st K Hs Hst Hx Logic.I) as A.
  assert (B : forall ok v st', r_read e h (TMat D4 f) k_transform (CV (VP x)) st = Done (ok, v, st') -> ok = true ->
    forall p' r', r_stream st' = rs_at p' r' fl -> obj_least f - 21 + len r' <= len r).
  { intros ok v st' E Ok p' r' Es. unfold r_read in E. destruct (st_split _ _ _ _ _ _ Hst) as (a & g & d & _ & _ & _ & X). rewrite X in E.
    destruct K as (K0 & K1).
    pose proof (er_read_gen e (TMat D4 f) k_transform (CV (VP x)) p r fl K1 K0 (here_small _ _ _ _ Hs) He Hx) as G. rewrite (proj1 Hst) in E.
    destruct (er_read e (TMat D4 f) k_transform (CV (VP x)) (rs_at p r fl)) as [[[ok1 v1] s1]| |]; cbn [bind] in E; try discriminate. injection E as -> -> <-.
    cbn [wpu] in G. destruct G as (_ & Ct & G). destruct (G Ok) as (bs & rest & -> & -> & w & Aw & Ew). cbn [r_stream] in Es. apply rs_at_inj in Es. destruct Es as (<- & <-).
    assert (Ev : v = w) by (rewrite Ew; reflexivity). subst v. destruct w as [y| | | | |]; cbn in Ct; try discriminate. cbn [accepts] in Aw.
    destruct Aw as (pl & Sc & ->). cbn [dshape] in *. rewrite len_app. rewrite len_small_block.
    assert (K16 : len k_transform = 16) by reflexivity. rewrite K16. unfold single_carries in Sc. destruct y as [b|img|s]; try contradiction. destruct Sc as (L & ->).
    rewrite (len_element_bytes _ _ _ _ L). unfold obj_least. destruct f; cbn; lia. }
  destruct (r_read e h (TMat D4 f) k_transform (CV (VP x)) st) as [[[ok v] st']| |]; cbn [wpu] in *.
  - destruct A as ((p' & r' & W & S) & V & Ct). split; [exact V|]. split; [exact Ct|]. exists p', r'. split; [exact W|]. split; [exact S|].
    intros Ok. apply (B ok v st' eq_refl Ok p' r' (proj1 S)).
  - destruct A as (n & t & c & (-> & -> & ->) & [A|A] & _); [exact A|discriminate].
  - destruct A as (n & t & c & q & (-> & -> & ->) & (A & _) & _). exact A.
Qed.

Definition ix_fine (ix : option (list N)) : Prop := match ix with Some l => ix_ok l | None => True end.
Lemma arr_begin p r l h key null ix st : key = k_vec \/ key = k_arr -> (ix <> None -> key = k_arr) -> ix_fine ix -> here p r -> st_at p r fl l h st ->
  wpu (r_begin_arr e h key null ix st) (fun q => let '(c, count, ok, ix', st') := q in
    match c with
    | Some hc => ok = true /\ ix_fine ix' /\ (e_lim e < 8 * count -> too_many (e_lim e) fl D P0) /\ onward p r fl (l ++ [h]) hc st'
    | None => onward p r fl l h st'
    end)
    (e_lim e < 4 * len D \/ array_cut fl D P0) False.
Proof.
  intros Hkey Hixk Hixf Hs Hst. destruct keys_named as (_ & _ & _ & Kv & Ka).
  assert (Hn : name_ok key) by (destruct Hkey; subst; assumption). destruct Hn as (Hk0 & Hk).
  pose proof (r_begin_arr_ix e D fl P0 He p r l h key true ix st (conj Hk0 Hk) Hs Hst) as X.
  assert (Y : r_begin_arr e h key null ix st = Throw -> r_begin_arr e h key true ix st = Throw).
  { unfold r_begin_arr. destruct (split_at rf_id h (r_chain st)) as [[[a g] [|]]|]; try discriminate.
    destruct (begin_read e vt_array_subsection key (r_stream st)) as [[endp s1]| |]; cbn [bind]; try discriminate; [|auto].
    destruct (endp =? 0); try discriminate. destruct (endp =? rs_pos s1); try discriminate. auto. }
  assert (Q : wpu (r_begin_arr e h key null ix st) (fun q => let '(c, count, ok, ix', st') := q in
    match c with
    | Some hc => ok = true /\ ix_fine ix' /\ (e_lim e < 8 * count -> too_many (e_lim e) fl D P0) /\ onward p r fl (l ++ [h]) hc st'
    | None => onward p r fl l h st'
    end) True False).
  2:{ destruct (r_begin_arr e h key null ix st) as [q| |]; cbn [wpu] in *; [exact Q| |exact Q].
      rewrite (Y eq_refl) in X. cbn [wpu] in X. destruct X as (n & (-> & Hix) & [A|(q & size & rest & A & B & C)]); [left; exact A|right].
      exists q, size, rest. rewrite <- (Hixk Hix). auto. }
  clear X Y. unfold r_begin_arr. destruct (st_split _ _ _ _ _ _ Hst) as (a & g & d & Hc & Ha & Hf & ->).
  destruct d as [|g' d]; [|cbn [wpu]; apply onward_self; exact Hst].
  rewrite (proj1 Hst). apply wpu_bind. eapply wpu_impl; [apply wp_wpu with (U := False), begin_read_gen; try assumption; try reflexivity; apply Hs| |tauto|tauto].
  intros [endp s1] (Hw & H1). pose proof Hw as (x & y & Exy & ->).
  assert (W : within p r fl (rs_at (p ++ x) y fl)) by exact Hw.
  destruct (N.eqb_spec endp 0) as [->|Hne]; [|destruct (endp =? rs_pos _)]; cbn [wpu].
  - exists (p ++ x), y. split; [exact W|eapply st_move; exact Hst].
  - exists (p ++ x), y. split; [exact W|eapply st_move; exact Hst].
  - assert (Hlim : e_lim e < lim62) by (unfold e_small, lim62 in *; lia).
    assert (Hs1 : small_rs (p ++ x) y) by (eapply within_small; [exact W|apply Hs]).
    pose proof (read_meta_gen e (rf_size g) endp ix (p ++ x) y fl Hs1 Hlim) as G.
    apply wpu_bind. apply wpu_impl with (P := fun res => let '(ok, per, count, ix1, s') := res in
      exists p' r', s' = rs_at p' r' fl /\ within (p ++ x) y fl (rs_at p' r' fl) /\
        (ok = true -> ix_fine ix1 /\ (e_lim e < 8 * count -> too_many (e_lim e) fl D P0)))
      (T := True) (U := False); [| |tauto|tauto].
    { destruct (read_meta e (rf_size g) endp ix (rs_at (p ++ x) y fl)) as [[[[[ok per] count] ix1] s2]| |] eqn:Em; cbn [wp wpu] in *; [|exact Logic.I|exact G].
      destruct G as (p2 & r2 & -> & W2 & Hsome & Hok). exists p2, r2. split; [reflexivity|]. split; [exact W2|].
      intros Eok. destruct (Hok Eok) as (_ & mb & (flags & Hfl & _ & _ & _ & Hix & Emb) & Ey & _). split; [exact Hix|]. intros Hbig.
      destruct H1 as [?|(bs & Hbs & _ & _ & H1)]; [contradiction|].
      destruct Hs as (Hs & HD & HP). assert (HL : len D = len p + len r) by (rewrite <- HD; apply len_app).
      assert (HR : drop (len p) D = r) by (rewrite <- HD; apply drop_len_app).
      destruct H1 as [(rest & E1 & E2)|(k' & Hlk & E1 & E2)]; apply rs_at_inj in E2; destruct E2 as (E2 & E3).
      2:{ exfalso. subst y. destruct (read_meta_end e (rf_size g) endp ix (p ++ x) fl Hs1) as (per0 & count0 & ix0 & s' & Xm). congruence. }
      rewrite <- E3, Ey, Emb in E1. exists key, (len p), bs, flags, count, ((match ix1 with Some l0 => num W64 fl (len l0) ++ flat_map (num W32 fl) l0 | None => [] end) ++ r2).
      split; [exact Hkey|]. split; [lia|]. split; [|exact Hbig]. rewrite HR. rewrite <- !app_assoc in E1. exact (large_header_of _ _ _ _ _ _ Hbs E1). }
    intros [[[[ok per] count] ix1] s2] (p2 & r2 & -> & W2 & Hok). assert (W3 := within_step _ _ _ _ _ _ W W2).
    destruct ok; cbn [negb wpu].
    + destruct (Hok eq_refl) as (A1 & A2). split; [reflexivity|]. split; [exact A1|]. split; [exact A2|]. exists p2, r2. split; [exact W3|]. eapply st_child; try eassumption; reflexivity.
    + exists p2, r2. split; [exact W3|]. eapply st_frames; [exact Hst|].
      unfold ids. rewrite Hc, !map_app. reflexivity.
Qed.

(** ** Objects *)
Definition stops : Prop := e_lim e < 4 * len D \/ name_damaged fl D P0 \/ array_cut fl D P0 \/ too_many (e_lim e) fl D P0.
Definition reads_obj (d : nat) : Prop := forall p r l h st, here p r -> st_at p r fl l h st -> len r < obj_least f * N.of_nat d ->
  wpu (read f d e h st) (fun q => let '(ok, o, st') := q in onward p r fl l h st' /\ obj_ok f o /\ (depth o <= d)%nat) stops False.
Lemma new_ok : obj_ok f (new_obj f).
Proof. split; [exact Logic.I|]. split; [destruct f; vm_compute; reflexivity|]. repeat split. Qed.
Lemma loop_any d : reads_obj d -> forall left p r l h hc i st, here p r -> st_at p r fl (l ++ [h]) hc st -> len r < obj_least f * N.of_nat d ->
  wpu (loop (read f d e) h hc left i st) (fun q => let '(ok, v, st') := q in onward p r fl (l ++ [h]) hc st' /\ objs_ok f v /\ (depth_v v <= d)%nat) stops False.
Proof.
  intros IH. induction left as [|m IHm]; intros p r l h hc i st Hs Hst Hr; cbn [loop].
  - cbn [wpu]. split; [apply onward_self; exact Hst|]. split; [exact Logic.I|cbn; lia].
  - apply wpu_bind. eapply wpu_impl; [eapply (r_begin_in_any D fl P0); [exact Hs|exact Hst]| |tauto|tauto].
    intros [[ok has] st1] (p1 & r1 & W1 & S1). cbn [snd] in S1.
    destruct ok; cbn [negb]. 2:{ cbn [wpu]. split; [exists p1, r1; auto|]. split; [exact Logic.I|cbn; lia]. }
    pose proof (within_pos _ _ _ _ _ W1) as L1.
    apply wpu_bind. apply wpu_impl with (P := fun q => let '(ok2, x, st2) := q in onward p r fl (l ++ [h]) hc st2 /\ match x with ONull => True | OSome o => obj_ok f o /\ (depth o <= d)%nat end)
      (T := stops) (U := False); [| |tauto|tauto].
    { destruct has; [|cbn [wpu]; split; [exists p1, r1; auto|exact Logic.I]]. apply wpu_bind.
      eapply wpu_impl; [apply (IH p1 r1 (l ++ [h]) hc st1 (within_here _ _ _ _ _ _ _ W1 Hs) S1); lia| |tauto|tauto].
      intros [[ok2 o] st2] ((p2 & r2 & W2 & S2) & O). cbn [wpu]. split; [|exact O]. exists p2, r2. split; [eapply within_step; eassumption|exact S2]. }
    intros [[ok2 x] st2] ((p2 & r2 & W2 & S2) & Ox).
    assert (V1 : objs_ok f (VCons x VNil) /\ (depth_v (VCons x VNil) <= d)%nat).
    { destruct x; cbn [objs_ok depth_v]; [repeat split; lia|destruct Ox; repeat split; [assumption|lia]]. }
    destruct ok2; cbn [negb]. 2:{ cbn [wpu]. split; [exists p2, r2; auto|exact V1]. }
    apply wpu_bind. eapply wpu_impl; [eapply r_end_in_any; exact S2| |tauto|tauto].
    intros [ok3 st3] E3. cbn [snd] in E3. subst st3.
    destruct ok3; cbn [negb]. 2:{ cbn [wpu]. split; [exists p2, r2; auto|exact V1]. }
    pose proof (within_pos _ _ _ _ _ W2) as L2.
    apply wpu_bind. fold (loop (read f d e) h hc). eapply wpu_impl; [apply (IHm p2 r2 l h hc (i + 1) st2 (within_here _ _ _ _ _ _ _ W2 Hs) S2); lia| |tauto|tauto].
    intros [[ok4 v] st4] ((p4 & r4 & W4 & S4) & V & Dv). cbn [wpu]. split; [exists p4, r4; split; [eapply within_step; eassumption|exact S4]|].
    destruct x; cbn [objs_ok depth_v]; [repeat split; [exact V|lia]|destruct Ox; repeat split; [assumption|exact V|lia]].
Qed.
Lemma text_ok v : cval_ok TString v -> cval_ctype v = CtOpt -> match opt_text v with Some s => val_ok TString (VS s) | None => True end.
Proof. intros V C. destruct v as [|[x|]| | | |]; try discriminate; [|exact Logic.I]. destruct x; try contradiction. exact V. Qed.
Lemma pod_ok v : cval_ok (TMat D4 f) v -> cval_ctype v = CtNone -> val_ok (TMat D4 f) (VP (pod v)).
Proof. intros V C. destruct v as [x| | | | |]; try discriminate. destruct x; try contradiction. exact V. Qed.
Lemma read_any d : reads_obj d.
Proof.
  induction d as [|d IH]; intros p r l h st Hs Hst Hr; [lia|]. rewrite read_eq.
  apply wpu_bind. eapply wpu_impl; [apply name_read; [exact Hs|exact Hst]| |unfold stops; tauto|tauto].
  intros [[ok n] st1] (Vn & Cn & p1 & r1 & W1 & S1 & B1).
  destruct ok; cbn [negb]. 2:{ cbn [wpu]. split; [exists p1, r1; auto|]. split; [exact new_ok|cbn; lia]. }
  specialize (B1 eq_refl). pose proof (within_here _ _ _ _ _ _ _ W1 Hs) as H1.
  apply wpu_bind. eapply wpu_impl; [apply transform_read; [exact H1|exact S1|destruct f; vm_compute; reflexivity]| |tauto|tauto].
  intros [[ok t] st2] (Vt & Ct & p2 & r2 & W2 & S2 & B2).
  pose proof (text_ok n Vn Cn) as N1. pose proof (pod_ok t Vt Ct) as T1. set (nm := opt_text n) in *. set (tr := pod t) in *.
  pose proof (within_step _ _ _ _ _ _ W1 W2) as W02. pose proof (within_here _ _ _ _ _ _ _ W2 H1) as H2.
  assert (Ok0 : forall sub vec arr, match sub with ONull => True | OSome x => obj_ok f x /\ (depth x <= d)%nat end -> objs_ok f vec /\ (depth_v vec <= d)%nat ->
    match arr with ANone => True | ASome ix v => ix_ok ix /\ objs_ok f v /\ (depth_v v <= d)%nat end ->
    obj_ok f (SObj nm tr sub vec arr) /\ (depth (SObj nm tr sub vec arr) <= S d)%nat).
  { intros sub vec arr X1 X2 X3. cbn [obj_ok depth]. split.
    - split; [exact N1|]. split; [exact T1|]. split; [destruct sub; tauto|]. split; [apply X2|]. destruct arr; tauto.
    - apply le_n_S. apply Nat.max_lub; [destruct sub; [lia|apply X1]|]. apply Nat.max_lub; [apply X2|]. destruct arr; [lia|apply X3]. }
  assert (Vnil : objs_ok f VNil /\ (depth_v VNil <= d)%nat) by (split; [exact Logic.I|cbn; lia]).
  destruct ok; cbn [negb]. 2:{ cbn [wpu]. split; [exists p2, r2; auto|]. apply Ok0; [exact Logic.I|exact Vnil|exact Logic.I]. }
  specialize (B2 eq_refl).
  assert (Hr2 : len r2 < obj_least f * N.of_nat d).
  { unfold obj_least in *. destruct B1 as [->|B1]; [rewrite len_nil in B2; destruct f; lia|]. destruct f; lia. }
  destruct keys_named as (_ & _ & Ks & _ & _).
  apply wpu_bind. eapply wpu_impl; [eapply r_begin_any; [exact Ks|exact H2|exact S2]| |tauto|tauto].
  intros [[c ok3] st3] Hc.
  assert (O3 : exists p3 r3, within p2 r2 fl (rs_at p3 r3 fl) /\ (match c with Some hc => st_at p3 r3 fl (l ++ [h]) hc st3 | None => st_at p3 r3 fl l h st3 end)).
  { destruct c; destruct Hc as (_ & p3 & r3 & W & S); exists p3, r3; auto. }
  clear Hc. destruct O3 as (p3 & r3 & W3 & S3).
  pose proof (within_step _ _ _ _ _ _ W02 W3) as W03. pose proof (within_here _ _ _ _ _ _ _ W3 H2) as H3.
  pose proof (within_pos _ _ _ _ _ W3) as L3.
  destruct ok3; cbn [negb]. 2:{ cbn [wpu]. split; [exists p3, r3; split; [exact W03|destruct c; [eapply st_up; exact S3|exact S3]]|]. apply Ok0; [exact Logic.I|exact Vnil|exact Logic.I]. }
  apply wpu_bind. apply wpu_impl with (P := fun q => let '(ok4, sub, st4) := q in onward p3 r3 fl l h st4 /\ match sub with ONull => True | OSome x => obj_ok f x /\ (depth x <= d)%nat end)
    (T := stops) (U := False); [| |tauto|tauto].
  { destruct c as [hc|]; [|cbn [wpu]; split; [apply onward_self; exact S3|exact Logic.I]].
    apply wpu_bind. eapply wpu_impl; [apply (IH p3 r3 (l ++ [h]) hc st3 H3 S3); lia| |tauto|tauto].
    intros [[ok x] q1] ((p4 & r4 & W4 & S4) & O).
    destruct ok; cbn [negb]. 2:{ cbn [wpu]. split; [exists p4, r4; split; [exact W4|eapply st_up; exact S4]|exact O]. }
    apply wpu_bind. eapply wpu_impl; [eapply r_end_any; exact S4| |tauto|tauto].
    intros [ok5 q3] (p5 & r5 & W5 & S5). cbn [wpu snd] in *. split; [|exact O]. exists p5, r5. split; [eapply within_step; eassumption|exact S5]. }
  intros [[ok4 sub] st4] ((p4 & r4 & W4 & S4) & Osub).
  pose proof (within_step _ _ _ _ _ _ W03 W4) as W04. pose proof (within_here _ _ _ _ _ _ _ W4 H3) as H4. pose proof (within_pos _ _ _ _ _ W4) as L4.
  destruct ok4; cbn [negb]. 2:{ cbn [wpu]. split; [exists p4, r4; auto|]. apply Ok0; [exact Osub|exact Vnil|exact Logic.I]. }
  apply wpu_bind. eapply wpu_impl; [apply arr_begin; [left; reflexivity|tauto|exact Logic.I|exact H4|exact S4]| |unfold stops; tauto|tauto].
  intros [[[[c5 size] ok5] ix5] st5] Hc5.
  assert (O5 : exists p5 r5, within p4 r4 fl (rs_at p5 r5 fl) /\ (match c5 with Some hc => st_at p5 r5 fl (l ++ [h]) hc st5 /\ (e_lim e < 8 * size -> too_many (e_lim e) fl D P0) | None => st_at p5 r5 fl l h st5 end)).
  { destruct c5; [destruct Hc5 as (_ & _ & Z & p5 & r5 & W & S)|destruct Hc5 as (p5 & r5 & W & S)]; exists p5, r5; auto. }
  clear Hc5. destruct O5 as (p5 & r5 & W5 & S5).
  pose proof (within_step _ _ _ _ _ _ W04 W5) as W05. pose proof (within_here _ _ _ _ _ _ _ W5 H4) as H5. pose proof (within_pos _ _ _ _ _ W5) as L5.
  destruct ok5; cbn [negb]. 2:{ cbn [wpu]. split; [exists p5, r5; split; [exact W05|destruct c5; [eapply st_up; apply S5|exact S5]]|]. apply Ok0; [exact Osub|exact Vnil|exact Logic.I]. }
  apply wpu_bind. apply wpu_impl with (P := fun q => let '(ok6, vec, st6) := q in onward p5 r5 fl l h st6 /\ objs_ok f vec /\ (depth_v vec <= d)%nat)
    (T := stops) (U := False); [| |tauto|tauto].
  { destruct c5 as [hc|]; [|cbn [wpu]; split; [apply onward_self; exact S5|exact Vnil]]. destruct S5 as (S5 & Z).
    destruct (N.ltb_spec (e_lim e) (8 * size)) as [Hbig|_]; [cbn [wpu]; unfold stops; auto|].
    apply wpu_bind. eapply wpu_impl; [apply (loop_any d IH _ p5 r5 l h hc 0 st5 H5 S5); lia| |tauto|tauto].
    intros [[ok v] q1] ((p6 & r6 & W6 & S6) & O).
    destruct ok; cbn [negb]. 2:{ cbn [wpu]. split; [exists p6, r6; split; [exact W6|eapply st_up; exact S6]|exact O]. }
    apply wpu_bind. eapply wpu_impl; [eapply r_end_arr_any; exact S6| |tauto|tauto].
    intros [ok7 q3] (p7 & r7 & W7 & S7). cbn [wpu snd] in *. split; [|exact O]. exists p7, r7. split; [eapply within_step; eassumption|exact S7]. }
  intros [[ok6 vec] st6] ((p6 & r6 & W6 & S6) & Ovec).
  pose proof (within_step _ _ _ _ _ _ W05 W6) as W06. pose proof (within_here _ _ _ _ _ _ _ W6 H5) as H6. pose proof (within_pos _ _ _ _ _ W6) as L6.
  destruct ok6; cbn [negb]. 2:{ cbn [wpu]. split; [exists p6, r6; auto|]. apply Ok0; [exact Osub|exact Ovec|exact Logic.I]. }
  apply wpu_bind. eapply wpu_impl; [apply arr_begin; [right; reflexivity|reflexivity|constructor|exact H6|exact S6]| |unfold stops; tauto|tauto].
  intros [[[[c7 size7] ok7] ix7] st7] Hc7. destruct c7 as [hc|].
  2:{ destruct Hc7 as (p7 & r7 & W7 & S7).
      destruct ok7; cbn [negb wpu]; (split; [exists p7, r7; split; [eapply within_step; eassumption|exact S7]|]); (apply Ok0; [exact Osub|exact Ovec|]); [exact Logic.I|split; [constructor|exact Vnil]]. }
  destruct Hc7 as (-> & Hix & Z & p7 & r7 & W7 & S7). cbn [negb].
  pose proof (within_step _ _ _ _ _ _ W06 W7) as W07. pose proof (within_here _ _ _ _ _ _ _ W7 H6) as H7. pose proof (within_pos _ _ _ _ _ W7) as L7.
  destruct (N.ltb_spec (e_lim e) (8 * size7)) as [Hbig|_]; [cbn [wpu]; unfold stops; auto|]. cbv zeta.
  assert (Hix' : ix_ok (match ix7 with Some l0 => l0 | None => [] end)) by (destruct ix7; [exact Hix|constructor]).
  apply wpu_bind. eapply wpu_impl; [apply (loop_any d IH _ p7 r7 l h hc 0 st7 H7 S7); lia| |tauto|tauto].
  intros [[ok v] q1] ((p8 & r8 & W8 & S8) & O). pose proof (within_step _ _ _ _ _ _ W07 W8) as W08.
  destruct ok; cbn [negb]. 2:{ cbn [wpu]. split; [exists p8, r8; split; [exact W08|eapply st_up; exact S8]|]. apply Ok0; [exact Osub|exact Ovec|split; [exact Hix'|exact O]]. }
  apply wpu_bind. eapply wpu_impl; [eapply r_end_arr_any; exact S8| |tauto|tauto].
  intros [ok9 q3] (p9 & r9 & W9 & S9). cbn [wpu snd] in *. split; [exists p9, r9; split; [eapply within_step; eassumption|exact S9]|].
  apply Ok0; [exact Osub|exact Ovec|split; [exact Hix'|exact O]].
Qed.
End Data.

Lemma t_sections_any : forall f e d data pos flip, len data < 2^62 -> e_lim e < 2^60 -> pos <= len data ->
  len data - pos < obj_least f * N.of_nat d ->
  match read f d e 0 (r_open (RS data pos flip)) with
  | Done (ok, o, st) => obj_ok f o /\ rs_data (r_stream st) = data /\ rs_flip (r_stream st) = flip /\ pos <= rs_pos (r_stream st) <= len data
  | Throw => e_lim e < 4 * len data \/ name_damaged flip data pos \/ array_cut flip data pos \/ too_many (e_lim e) flip data pos
  | Undef => False
  end.
Proof.
  intros f e d D pos fl Hl He Hp Hd.
  assert (E : RS D pos fl = rs_at (take pos D) (drop pos D) fl).
  { unfold rs_at. rewrite take_drop, len_take. rewrite N.min_l by exact Hp. reflexivity. }
  assert (Hs : here D pos (take pos D) (drop pos D)).
  { split; [unfold small_rs, lim62; rewrite len_take, len_drop; lia|]. split; [apply take_drop|]. rewrite len_take. lia. }
  assert (Hst : st_at (take pos D) (drop pos D) fl [] 0 (r_open (RS D pos fl))).
  { split; [exact E|]. split; [exists []; reflexivity|]. cbn. split; constructor; try constructor; auto; lia. }
  assert (Hd' : len (drop pos D) < obj_least f * N.of_nat d) by (rewrite len_drop; exact Hd).
  pose proof (read_any f e D fl pos He d (take pos D) (drop pos D) [] 0 (r_open (RS D pos fl)) Hs Hst Hd') as H.
  destruct (read f d e 0 _) as [[[ok y] st]| |]; cbn [wpu] in H; try exact H.
  destruct H as ((p & r & (a & b & E1 & E2) & (S & _)) & Hy & _). split; [exact Hy|]. rewrite S, E2. unfold rs_at. cbn [rs_data rs_flip rs_pos].
  rewrite <- app_assoc, <- E1, take_drop. split; [reflexivity|]. split; [reflexivity|].
  assert (L : len (drop pos D) = len a + len b) by (rewrite E1; apply len_app). rewrite len_drop in L. rewrite len_app, len_take. lia.
Qed.
