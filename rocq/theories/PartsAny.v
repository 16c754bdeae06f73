(** * Reading programs on arbitrary bytes. Proofs. *)
From Verif Require Import Base Bytes BytesFacts Values Streams FileSpec ReadSpec StreamFacts StreamProps Types Format
  Accept EntityWriter EntityReader EntityWriterFacts PackFacts ArrayWriterFacts EntityReaderFacts EntitySafety ArraySafety
  ReadTotal Items ItemSpec ReadValid Sections Documents Keys Classes Table EntityGen EntitySpec EntityFacts
  ReadAnySpec Damage DamageFacts ReadAny Parts PartsSpec PartsFacts PartsAnySpec.
Local Open Scope N_scope.

Section Data.
Context (U : forall t, umap_impl (key t)) (e : renv) (D : list byte) (fl : bool) (P0 : N) (He : e_small e).
Notation here := (here D P0).
Definition stops (C : calls) (X : list byte -> Prop) : Prop := refused (e_lim e) D fl P0 C \/ index_refused (e_lim e) D fl P0 X.
Notation over C := (overrun D fl P0 C).
Lemma stops_sub (C C' : calls) (X X' : list byte -> Prop) : (forall n t c, C n t c -> C' n t c) -> (forall n, X n -> X' n) -> stops C X -> stops C' X'.
Proof.
  intros H1 H2 [H|(n & A & B)]; [left; revert H; apply throws_sub; exact H1|right]. exists n. auto.
Qed.
Lemma stops_refused (C C' : calls) (X : list byte -> Prop) : (forall n t c, C n t c -> C' n t c) -> refused (e_lim e) D fl P0 C -> stops C' X.
Proof. intros H1 H. left. revert H. apply throws_sub. exact H1. Qed.

Lemma r_begin_arr_ix p r l h key no ix st : name_ok key -> here p r -> st_at p r fl l h st ->
  wpu (r_begin_arr e h key no ix st) (fun q => let '(c, _, ok, ix', st') := q in
    match c with Some hc => (ix = None <-> ix' = None) /\ onward p r fl (l ++ [h]) hc st' | None => onward p r fl l h st' end)
    (index_refused (e_lim e) D fl P0 (fun n => n = key /\ ix <> None)) False.
Proof.
  intros (Hk0 & Hk) Hs Hst. unfold r_begin_arr. destruct (st_split _ _ _ _ _ _ Hst) as (a & f & d & Hc & Ha & Hf & ->).
  destruct d as [|g d]; [|cbn [wpu]; apply onward_self; exact Hst].
  rewrite (proj1 Hst). apply wpu_bind. eapply wpu_impl; [apply wp_wpu with (U := False), begin_read_gen; try assumption; try reflexivity; apply Hs| |tauto|tauto].
  intros [endp s1] (Hw & H1). pose proof Hw as (x & y & Exy & ->).
  assert (W : within p r fl (rs_at (p ++ x) y fl)) by exact Hw.
  destruct (N.eqb_spec endp 0) as [->|Hne]; [|destruct (endp =? rs_pos _)]; cbn [wpu].
  - exists (p ++ x), y. split; [exact W|eapply st_move; exact Hst].
  - exists (p ++ x), y. split; [exact W|eapply st_move; exact Hst].
  - assert (Hlim : e_lim e < lim62) by (unfold e_small, lim62 in *; lia).
    assert (Hs1 : small_rs (p ++ x) y) by (eapply within_small; [exact W|apply Hs]).
    pose proof (read_meta_gen e (rf_size f) endp ix (p ++ x) y fl Hs1 Hlim) as G.
    assert (NT : read_meta e (rf_size f) endp ix (rs_at (p ++ x) y fl) = Throw -> index_refused (e_lim e) D fl P0 (fun n => n = key /\ ix <> None)).
    { intros Et. assert (Hix : ix <> None) by (intros ->; exact (meta_no_index e (rf_size f) endp _ _ fl Hs1 Et)).
      exists key. split; [auto|]. destruct H1 as [?|(bs & Hbs & Ebend & Hle & H1)]; [contradiction|].
      destruct Hs as (Hs & HD & HP). assert (HL : len D = len p + len r) by (rewrite <- HD; apply len_app).
      assert (HR : drop (len p) D = r) by (rewrite <- HD; apply drop_len_app).
      destruct H1 as [(rest & E1 & E2)|(k' & Hlk & E1 & E2)]; apply rs_at_inj in E2; destruct E2 as (E2 & E3).
      2:{ exfalso. subst y. destruct (read_meta_end e (rf_size f) endp ix (p ++ x) fl Hs1) as (per & count & ix1 & s' & X). congruence. }
      subst y. rewrite E2 in Et, Hs1. set (H0 := header fl vt_array_subsection bs key) in *.
      assert (LH : len H0 = 10 + len key) by apply len_header.
      assert (Ltot : len (p ++ H0) + len rest = len p + len r) by (rewrite E1, !len_app; lia).
      pose proof (read_meta_throw e (rf_size f) endp ix (p ++ H0) rest fl Hs1 Hlim ltac:(lia)) as Q. rewrite Et in Q. cbn [wp] in Q.
      destruct Q as [Q|Q]; [left; unfold short in Q; lia|right].
      exists (len p), bs, rest. split; [lia|]. split; [rewrite HR; exact (large_header_of _ _ _ _ _ _ Hbs E1)|].
      rewrite len_app, LH in Q. unfold fixed in Q. destruct ix; [cbn [some] in Q|congruence].
      assert (Bend : block_end (len p) bs = endp) by (rewrite Ebend; unfold block_end, add64, two64; reflexivity).
      rewrite Bend. unfold payload_start. lia. }
    apply wpu_bind. apply wpu_impl with (P := fun res => let '(ok, per, count, ix1, s') := res in
      exists p' r', s' = rs_at p' r' fl /\ within (p ++ x) y fl (rs_at p' r' fl) /\ (ix = None <-> ix1 = None))
      (T := index_refused (e_lim e) D fl P0 (fun n => n = key /\ ix <> None)) (U := False); [| |tauto|tauto].
    { destruct (read_meta _ _ _ _ _) as [[[[[ok per] count] ix1] s2]| |]; cbn [wp wpu] in *; [|exact (NT eq_refl)|exact G].
      destruct G as (p2 & r2 & -> & W2 & Hsome & _). exists p2, r2. split; [reflexivity|]. split; [exact W2|].
      destruct ix, ix1; try discriminate Hsome; split; congruence. }
    intros [[[[ok per] count] ix1] s2] (p2 & r2 & -> & W2 & Hsame). assert (W3 := within_step _ _ _ _ _ _ W W2).
    destruct ok; cbn [negb wpu].
    + split; [exact Hsame|]. exists p2, r2. split; [exact W3|]. eapply st_child; try eassumption; reflexivity.
    + exists p2, r2. split; [exact W3|]. eapply st_frames; [exact Hst|].
      unfold ids. rewrite Hc, !map_app. reflexivity.
Qed.

Lemma found_weaker : (forall p q, part_found true p q -> part_found false p q) /\ (forall l q, parts_found true l q -> parts_found false l q) /\
  (forall l q, pelems_found true l q -> pelems_found false l q).
Proof.
  apply part_parts_ind; cbn [part_found parts_found pelems_found].
  - auto.
  - auto.
  - intros key body IH q [H|(b & -> & H)]; [auto|right]. eauto.
  - auto.
  - intros key ix elems IH q [H|(ix' & b & -> & Hx & H)]; [auto|right]. exists ix', b. auto.
  - auto.
  - auto.
  - intros p IHp r IHr q (p' & r' & -> & H1 & [(X & _)|H2]); [discriminate|]. exists p', r'. auto.
  - auto.
  - intros b IHb r IHr q [(X & _)|(b' & r' & -> & H1 & [(X & _)|H2])]; try discriminate. right. exists b', r'.
    split; [reflexivity|]. split; [|right; auto]. destruct H1 as [H1|H1]; auto.
Qed.
Lemma parts_any_ok ok l q : parts_found true l q -> parts_found ok l q.
Proof. destruct ok; [auto|apply found_weaker]. Qed.
Lemma part_any_ok ok l q : part_found true l q -> part_found ok l q.
Proof. destruct ok; [auto|apply found_weaker]. Qed.

Definition part_any (x : part) : Prop := part_reader x -> forall p r l h st, here p r -> st_at p r fl l h st ->
  wpu (read_part U e h x st) (fun q => let '(ok, y, st') := q in onward p r fl l h st' /\ part_found ok x y) (stops (part_asks x) (part_indexes x)) (over (part_asks x)).
Definition parts_any (x : parts) : Prop := parts_reader x -> forall p r l h st, here p r -> st_at p r fl l h st ->
  wpu (read_parts U e h x st) (fun q => let '(ok, y, st') := q in onward p r fl l h st' /\ parts_found ok x y) (stops (parts_ask x) (parts_index x)) (over (parts_ask x)).
Definition pelems_any (x : pelems) : Prop := pelems_reader x -> forall p r l h hc i st, here p r -> st_at p r fl (l ++ [h]) hc st ->
  wpu (read_pelems U e h hc i x st) (fun q => let '(ok, y, st') := q in onward p r fl (l ++ [h]) hc st' /\ pelems_found ok x y)
    (stops (pelems_ask x) (pelems_index x)) (over (pelems_ask x)).
Ltac sub := first [tauto | apply stops_sub; cbn [part_asks parts_ask pelems_ask part_indexes parts_index pelems_index]; tauto
  | apply undefs_sub; cbn [part_asks parts_ask pelems_ask]; tauto].

Lemma index_stops (C : calls) (X Y : list byte -> Prop) : (forall n, X n -> Y n) -> index_refused (e_lim e) D fl P0 X -> stops C Y.
Proof. intros H (n & A & B). right. exists n. auto. Qed.

Lemma any_all : (forall x, part_any x) /\ (forall x, parts_any x) /\ (forall x, pelems_any x).
Proof.
  apply part_parts_ind.
  - intros [t key v] (Hn & Hv & Hr) p r l h st Hs Hst. cbn [i_key i_type i_val] in *. cbn [read_part i_key i_type i_val].
    apply wpu_bind. eapply wpu_impl; [eapply (r_read_any e D fl P0 He); [exact Hn|exact Hs|exact Hst|exact Hv|exact Hr]| | |].
    + intros [[ok v'] st1] (O & V & Cc). cbn [wpu]. split; [exact O|]. exists v'. auto.
    + apply stops_refused. unfold only. cbn. tauto.
    + apply undefs_sub. unfold only. cbn. tauto.
  - intros s x (Hn & Hx & Hd) p r l h st Hs Hst. cbn [read_part]. apply wpu_bind.
    eapply wpu_impl; [exact (proj1 (any_both e D fl P0 He U) s Hn p r l h st x Hs Hst Hx Hd)| | |].
    + intros [[ok y] st1] (O & Hy & _). cbn [wpu]. split; [exact O|]. exists y. auto.
    + apply stops_refused. cbn. tauto.
    + apply undefs_sub. cbn. tauto.
  - intros key body IH (Hn & Hb) p r l h st Hs Hst. rewrite read_sec_eq.
    apply wpu_bind. eapply wpu_impl; [eapply r_begin_any; [exact Hn|exact Hs|exact Hst]| |tauto|tauto].
    intros [[c ok] st1] Hc. destruct c as [hc|].
    2:{ destruct Hc as (_ & O). cbn [wpu]. split; [exact O|]. left. reflexivity. }
    destruct Hc as (_ & (p1 & r1 & W1 & S1)).
    apply wpu_bind. eapply wpu_impl; [apply (IH Hb p1 r1 (l ++ [h]) hc st1 (within_here _ _ _ _ _ _ _ W1 Hs) S1)| |sub|sub].
    intros [[ok2 y] st2] ((p2 & r2 & W2 & S2) & Hy). assert (W := within_step _ _ _ _ _ _ W1 W2).
    destruct ok2; cbn [negb].
    2:{ cbn [wpu]. split; [exists p2, r2; split; [exact W|eapply st_up; exact S2]|]. right. eauto. }
    apply wpu_bind. eapply wpu_impl; [eapply r_end_any; exact S2| |tauto|tauto].
    intros [ok3 st3] (p3 & r3 & W3 & S3). cbn [wpu snd] in *. split; [exists p3, r3; split; [eapply within_step; eassumption|exact S3]|].
    right. exists y. split; [reflexivity|apply parts_any_ok; exact Hy].
  - intros key Hn p r l h st Hs Hst. cbn [read_part].
    apply wpu_bind. eapply wpu_impl; [eapply r_begin_any; [exact Hn|exact Hs|exact Hst]| |tauto|tauto].
    intros [[c ok] st1] Hc. cbn [wpu]. split; [|reflexivity]. destruct c; destruct Hc as (_ & O); [eapply onward_up; exact O|exact O].
  - intros key ix elems IH (Hn & Hb) p r l h st Hs Hst. rewrite read_parr_eq.
    apply wpu_bind. eapply wpu_impl; [eapply r_begin_arr_ix; [exact Hn|exact Hs|exact Hst]| | |tauto].
    2:{ apply index_stops. cbn [part_indexes]. intros n (-> & X). left. split; [reflexivity|]. destruct ix; congruence. }
    intros [[[[c count] ok] ix'] st1] Hc. destruct c as [hc|].
    2:{ cbn [wpu]. split; [exact Hc|]. left. reflexivity. }
    destruct Hc as (Hix & (p1 & r1 & W1 & S1)).
    destruct (negb (count =? pelen elems)); [cbn [wpu]; split; [exists p1, r1; split; [exact W1|eapply st_up; exact S1]|left; reflexivity]|].
    apply wpu_bind. eapply wpu_impl; [apply (IH Hb p1 r1 l h hc 0 st1 (within_here _ _ _ _ _ _ _ W1 Hs) S1)| |sub|sub].
    intros [[ok2 y] st2] ((p2 & r2 & W2 & S2) & Hy). assert (W := within_step _ _ _ _ _ _ W1 W2).
    assert (Hix' : ix = None <-> ix' = None) by (rewrite <- Hix; destruct ix; split; congruence).
    destruct ok2; cbn [negb].
    2:{ cbn [wpu]. split; [exists p2, r2; split; [exact W|eapply st_up; exact S2]|]. right. exists ix', y. auto. }
    apply wpu_bind. eapply wpu_impl; [eapply r_end_arr_any; exact S2| |tauto|tauto].
    intros [ok3 st3] (p3 & r3 & W3 & S3). cbn [wpu snd] in *. split; [exists p3, r3; split; [eapply within_step; eassumption|exact S3]|].
    right. exists ix', y. split; [reflexivity|]. split; [exact Hix'|]. destruct ok3; [exact Hy|apply found_weaker; exact Hy].
  - intros key Hn p r l h st Hs Hst. cbn [read_part].
    apply wpu_bind. eapply wpu_impl; [eapply r_begin_arr_ix; [exact Hn|exact Hs|exact Hst]| | |tauto].
    2:{ intros (n & (_ & X) & _). congruence. }
    intros [[[[c count] ok] ix'] st1] Hc. cbn [wpu]. split; [|reflexivity]. destruct c; [destruct Hc as (_ & O); eapply onward_up; exact O|exact Hc].
  - intros _ p r l h st Hs Hst. cbn [read_parts wpu]. split; [apply onward_self; exact Hst|reflexivity].
  - intros x IHx y IHy (Hx & Hy) p r l h st Hs Hst. rewrite read_cons_eq.
    apply wpu_bind. eapply wpu_impl; [apply (IHx Hx p r l h st Hs Hst)| |sub|sub].
    intros [[ok x'] st1] ((p1 & r1 & W1 & S1) & Fx).
    destruct ok; cbn [negb]. 2:{ cbn [wpu]. split; [exists p1, r1; auto|]. exists x', PNil. auto. }
    apply wpu_bind. eapply wpu_impl; [apply (IHy Hy p1 r1 l h st1 (within_here _ _ _ _ _ _ _ W1 Hs) S1)| |sub|sub].
    intros [[ok2 y'] st2] ((p2 & r2 & W2 & S2) & Fy). cbn [wpu]. split; [exists p2, r2; split; [eapply within_step; eassumption|exact S2]|].
    exists x', y'. split; [reflexivity|]. split; [apply part_any_ok; exact Fx|auto].
  - intros _ p r l h hc i st Hs Hst. cbn [read_pelems wpu]. split; [apply onward_self; exact Hst|reflexivity].
  - intros b IHb y IHy (Hb & Hy) p r l h hc i st Hs Hst. rewrite read_pelem_eq.
    apply wpu_bind. eapply wpu_impl; [eapply r_begin_in_any; [exact Hs|exact Hst]| |tauto|tauto].
    intros [[ok has] st1] (p1 & r1 & W1 & S1). cbn [snd] in S1.
    destruct ok; cbn [negb]. 2:{ cbn [wpu]. split; [exists p1, r1; auto|]. left. auto. }
    apply wpu_bind. apply wpu_impl with (P := fun q => let '(ok2, b', st2) := q in onward p r fl (l ++ [h]) hc st2 /\ (b' = PNil \/ parts_found ok2 b b'))
      (T := stops (parts_ask b) (parts_index b)) (U := over (parts_ask b)); [| |sub|sub].
    { destruct has; [|cbn [wpu]; split; [exists p1, r1; auto|auto]].
      eapply wpu_impl; [apply (IHb Hb p1 r1 (l ++ [h]) hc st1 (within_here _ _ _ _ _ _ _ W1 Hs) S1)| |tauto|tauto].
      intros [[ok2 b'] st2] ((p2 & r2 & W2 & S2) & F2). split; [|auto]. exists p2, r2. split; [eapply within_step; eassumption|exact S2]. }
    intros [[ok2 b'] st2] ((p2 & r2 & W2 & S2) & Fb).
    destruct ok2; cbn [negb]. 2:{ cbn [wpu]. split; [exists p2, r2; auto|]. right. exists b', PENil. auto. }
    apply wpu_bind. eapply wpu_impl; [eapply r_end_in_any; exact S2| |tauto|tauto].
    intros [ok3 st3] E3. cbn [snd] in E3. subst st3.
    destruct ok3; cbn [negb].
    2:{ cbn [wpu]. split; [exists p2, r2; auto|]. right. exists b', PENil. split; [reflexivity|]. split; [|auto].
        destruct Fb as [Fb|Fb]; [auto|right; apply found_weaker; exact Fb]. }
    apply wpu_bind. eapply wpu_impl; [apply (IHy Hy p2 r2 l h hc (i + 1) st2 (within_here _ _ _ _ _ _ _ W2 Hs) S2)| |sub|sub].
    intros [[ok4 y'] st4] ((p4 & r4 & W4 & S4) & F4). cbn [wpu]. split; [exists p4, r4; split; [eapply within_step; eassumption|exact S4]|].
    right. exists b', y'. split; [reflexivity|]. split; [|auto].
    destruct Fb as [Fb|Fb]; [auto|right; apply parts_any_ok; exact Fb].
Qed.
End Data.

Lemma t_parts_any : forall U x e data pos flip, parts_reader x -> len data < 2^62 -> e_lim e < 2^60 -> pos <= len data ->
  match read_parts U e 0 x (r_open (RS data pos flip)) with
  | Done (ok, y, st) => parts_found ok x y /\ rs_data (r_stream st) = data /\ rs_flip (r_stream st) = flip /\ pos <= rs_pos (r_stream st) <= len data
  | Throw => refused (e_lim e) data flip pos (parts_ask x) \/ index_refused (e_lim e) data flip pos (parts_index x)
  | Undef => overrun data flip pos (parts_ask x)
  end.
Proof.
  intros U x e D pos fl Hx Hl He Hp.
  assert (E : RS D pos fl = rs_at (take pos D) (drop pos D) fl).
  { unfold rs_at. rewrite take_drop, len_take. rewrite N.min_l by exact Hp. reflexivity. }
  pose proof (proj1 (proj2 (any_all U e D fl pos He)) x Hx (take pos D) (drop pos D) [] 0 (r_open (RS D pos fl))) as H.
  assert (Hs : here D pos (take pos D) (drop pos D)).
  { split; [unfold small_rs, lim62; rewrite len_take, len_drop; lia|]. split; [apply take_drop|]. rewrite len_take. lia. }
  assert (Hst : st_at (take pos D) (drop pos D) fl [] 0 (r_open (RS D pos fl))).
  { split; [exact E|]. split; [exists []; reflexivity|]. cbn. split; constructor; try constructor; auto; lia. }
  specialize (H Hs Hst). destruct (read_parts _ _ _ _ _) as [[[ok y] st]| |]; cbn [wpu] in H; try exact H.
  destruct H as ((p & r & (a & b & E1 & E2) & (S & _)) & Hy). split; [exact Hy|]. rewrite S, E2. unfold rs_at. cbn [rs_data rs_flip rs_pos].
  rewrite <- app_assoc, <- E1, take_drop. split; [reflexivity|]. split; [reflexivity|].
  assert (L : len (drop pos D) = len a + len b) by (rewrite E1; apply len_app). rewrite len_drop in L. rewrite len_app, len_take. lia.
Qed.
