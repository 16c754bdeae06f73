(** * Changing the definition of a class while data of the old definition exists. Theorems. *)
From Verif Require Import Base Bytes BytesFacts Values Streams FileSpec ReadSpec StreamFacts StreamProps Types Format
  Accept EntityWriter EntityReader EntityWriterFacts PackFacts ArrayWriterFacts EntityReaderFacts EntitySafety ArraySafety
  ReadTotal Items ItemSpec EntityProps EntityKeys EntityTheorems Sections Documents DocSpec SectionFacts SectionReadFacts SectionTheorems CodecFacts
  Keys KeySpec KeyFacts Containers ValueEqSpec Graph GraphSpec Classes Table TableSpec TableFacts TableCodec
  IndexedVector IndexedVectorSpec IndexedVectorFacts DynTypes Varying VaryingSpec VaryingCodec EntityGen EntitySpec EntityFacts EntityCodec
  TruncSpec Truncation EntityTrunc PartsSpec PartsFacts EvolveSpec EvolveItem EvolveFacts EvolveTable EvolveProofs.
Local Open Scope N_scope.

(** ** From a fresh stream *)
Lemma decides_open {T V} W (R : V -> renv -> N -> rstate -> res (bool * T * rstate)) b b2 (A : T -> Prop) init lim fl (good : V -> Prop) :
  writes W (fun fl => b fl ++ b2 fl) -> (forall d, good d -> decides (R d) b A) -> room init lim (len (b fl ++ b2 fl)) ->
  exists s0 st, fresh init lim fl = Done s0 /\ W 0 (w_open s0) = Done (true, st) /\
    forall e d pre post, good d -> 4 * ws_pos (w_stream st) <= e_lim e -> len pre + ws_pos (w_stream st) + len post < 2^62 ->
      let bs := pre ++ ws_data (w_stream st) ++ post in
      exists ok y st', R d e 0 (r_open (RS bs (len pre) fl)) = Done (ok, y, st') /\
        (ok = true <-> exists z, A z) /\ (ok = true -> A y /\ r_stream st' = RS bs (len pre + len (b fl)) fl).
Proof.
  intros HW HR Hroom. destruct (writes_open W _ init lim fl HW Hroom) as (s0 & st & E0 & E & Hd & Hp).
  exists s0, st. split; [auto|]. split; [auto|]. intros e d pre post Gd Hal Hs. rewrite Hd, Hp in *. rewrite len_app in Hal, Hs.
  cbn zeta. rewrite <- app_assoc. set (s := RS (pre ++ b fl ++ b2 fl ++ post) (len pre) fl).
  destruct (HR d Gd e 0 [] (rf_new 0 (rs_size s)) (r_open s) pre (b2 fl ++ post) fl (rready_open s) eq_refl) as (ok & y & st' & E' & P); [lia|unfold lim62; rewrite len_app; lia|].
  exists ok, y, st'. split; [exact E'|]. destruct ok.
  - destruct P as (Py & S' & _). split; [split; eauto|]. intros _. split; [exact Py|]. rewrite S'. unfold rs_at. f_equal; [rewrite <- app_assoc; reflexivity|rewrite len_app; reflexivity].
  - split; [|discriminate]. split; [discriminate|]. intros (z & Z). destruct (P z Z).
Qed.

Lemma t_changed U s s' (c : s_change s s') x init lim fl : s_sound s -> s_sound s' -> s_keyed s' -> s_ok s x -> s_fits s x ->
  room init lim (len (nodes_bytes fl (s_doc s x))) ->
  exists s0 st, fresh init lim fl = Done s0 /\ m_write (smf U s) 0 x (w_open s0) = Done (true, st) /\
    forall e old pre post, s_ok s' old -> s_dest s' old ->
      4 * ws_pos (w_stream st) <= e_lim e -> len pre + ws_pos (w_stream st) + len post < 2^62 ->
      let bs := pre ++ ws_data (w_stream st) ++ post in
      exists ok y st', m_read (smf U s') e 0 old (r_open (RS bs (len pre) fl)) = Done (ok, y, st') /\
        (ok = true <-> exists z, s_ok s' z /\ s_as c x z) /\
        (ok = true -> s_ok s' y /\ s_as c x y /\ r_stream st' = RS bs (len pre + ws_pos (w_stream st)) fl).
Proof.
  intros S S' Kd Ox Fx Hr.
  destruct (decides_open (fun h st => m_write (smf U s) h x st) (fun d e h st => m_read (smf U s') e h d st)
    (fun fl => nodes_bytes fl (s_doc s x)) (fun _ => []) (fun y => s_ok s' y /\ s_as c x y) init lim fl (fun d => s_ok s' d /\ s_dest s' d)) as (s0 & st & A & B & C).
  - intros h above f st0 c0 fl0 lim0 H1 H2 H3. cbv beta in *. rewrite app_nil_r in *. exact (proj1 (writes_both U) s x S Ox Fx h above f st0 c0 fl0 lim0 H1 H2 H3).
  - intros d [Od Dd]. apply (proj1 (decides_both U) s s' c d x S S' Kd Od Dd Ox Fx).
  - rewrite app_nil_r. exact Hr.
  - exists s0, st. split; [exact A|]. split; [exact B|]. intros e old pre post Oo Do Hal Hs.
    destruct (C e old pre post (conj Oo Do) Hal Hs) as (ok & y & st' & E & Q1 & Q2). exists ok, y, st'. split; [exact E|]. split; [exact Q1|].
    intros H. destruct (Q2 H) as ([Q3 Q4] & Q5). split; [exact Q3|]. split; [exact Q4|]. cbn zeta in Q5. rewrite Q5. f_equal. f_equal.
    destruct (writes_open _ _ init lim fl (proj1 (writes_both U) s x S Ox Fx) Hr) as (s0' & st1 & E0 & E1 & _ & Hp).
    rewrite A in E0. injection E0 as <-. rewrite B in E1. injection E1 as <-. symmetry. exact Hp.
Qed.

(** ** Variables added behind the others *)
Lemma app_sound fs more : f_sound (f_app fs more) <-> f_sound fs /\ f_sound more.
Proof. induction fs; cbn [f_app f_sound]; tauto. Qed.
Lemma app_keyed fs more : f_keyed (f_app fs more) <-> f_keyed fs /\ f_keyed more.
Proof. induction fs; cbn [f_app f_keyed]; tauto. Qed.
Lemma join_ok fs more x y : f_ok (f_app fs more) (f_join fs more x y) <-> f_ok fs x /\ f_ok more y.
Proof.
  induction fs as [|n t c r IH|n s r IH|n s r IH]; [cbn; tauto|..]; cbn [fty] in x; destruct x as [a x]; specialize (IH x); cbn [f_app f_join f_ok fst snd]; tauto.
Qed.
Lemma join_fits fs more x y : f_fits (f_app fs more) (f_join fs more x y) <-> f_fits fs x /\ f_fits more y.
Proof.
  induction fs as [|n t c r IH|n s r IH|n s r IH]; [cbn; tauto|..]; cbn [fty] in x; destruct x as [a x]; specialize (IH x); cbn [f_app f_join f_fits fst snd]; tauto.
Qed.
Lemma join_dest fs more x y : f_dest (f_app fs more) (f_join fs more x y) <-> f_dest fs x /\ f_dest more y.
Proof.
  induction fs as [|n t c r IH|n s r IH|n s r IH]; [cbn; tauto|..]; cbn [fty] in x; destruct x as [a x]; specialize (IH x); cbn [f_app f_join f_dest fst snd]; tauto.
Qed.
Lemma join_split fs more (z : fty (f_app fs more)) : exists x y, z = f_join fs more x y.
Proof.
  induction fs as [|n t c r IH|n s r IH|n s r IH]; [exists tt, z; reflexivity|..]; cbn [f_app fty] in z; destruct z as [a z]; destruct (IH z) as (x & y & ->);
    exists (a, x), y; reflexivity.
Qed.
Lemma join_bytes fl fs more x y : nodes_bytes fl (f_doc (f_app fs more) (f_join fs more x y)) = nodes_bytes fl (f_doc fs x) ++ nodes_bytes fl (f_doc more y).
Proof.
  induction fs as [|n t c r IH|n s r IH|n s r IH]; [reflexivity|..]; cbn [fty] in x; destruct x as [a x]; specialize (IH x);
    cbn [f_app f_join f_doc fst snd nodes_bytes]; rewrite IH, app_assoc; reflexivity.
Qed.

Lemma t_dropped U fs more fs' (c : f_change fs fs') x x2 init lim fl : f_sound (f_app fs more) -> f_sound fs' -> f_keyed fs' ->
  f_ok (f_app fs more) (f_join fs more x x2) -> f_fits (f_app fs more) (f_join fs more x x2) ->
  room init lim (len (nodes_bytes fl (f_doc (f_app fs more) (f_join fs more x x2)))) ->
  exists s0 st, fresh init lim fl = Done s0 /\ m_write (smf U (SEntity (f_app fs more))) 0 (f_join fs more x x2) (w_open s0) = Done (true, st) /\
    forall e old pre post, f_ok fs' old -> f_dest fs' old ->
      4 * ws_pos (w_stream st) <= e_lim e -> len pre + ws_pos (w_stream st) + len post < 2^62 ->
      exists ok y st', m_read (smf U (SEntity fs')) e 0 old (r_open (RS (pre ++ ws_data (w_stream st) ++ post) (len pre) fl)) = Done (ok, y, st') /\
        (ok = true <-> exists z, f_ok fs' z /\ f_as c x z) /\
        (ok = true -> f_ok fs' y /\ f_as c x y).
Proof.
  intros S S' Kd Ox Fx Hr. pose proof (proj1 (writes_both U) (SEntity (f_app fs more)) (f_join fs more x x2) S Ox Fx) as HW.
  apply app_sound in S. apply join_ok in Ox. apply join_fits in Fx.
  destruct (decides_open (fun h st => m_write (smf U (SEntity (f_app fs more))) h (f_join fs more x x2) st) (fun d e h st => m_read (smf U (SEntity fs')) e h d st)
    (fun fl => nodes_bytes fl (f_doc fs x)) (fun fl => nodes_bytes fl (f_doc more x2)) (fun y => f_ok fs' y /\ f_as c x y) init lim fl (fun d => f_ok fs' d /\ f_dest fs' d)) as (s0 & st & A & B & C).
  - intros h above f st0 c0 fl0 lim0 H1 H2 H3. cbv beta in *. rewrite <- join_bytes in *. exact (HW h above f st0 c0 fl0 lim0 H1 H2 H3).
  - intros d [Od Dd]. exact (proj2 (decides_both U) fs fs' c d x (proj1 S) S' Kd Od Dd (proj1 Ox) (proj1 Fx)).
  - rewrite <- join_bytes. exact Hr.
  - exists s0, st. split; [exact A|]. split; [exact B|]. intros e old pre post Oo Do Hal Hs.
    destruct (C e old pre post (conj Oo Do) Hal Hs) as (ok & y & st' & E & Q1 & Q2). exists ok, y, st'. split; [exact E|]. split; [exact Q1|].
    intros H. apply (Q2 H).
Qed.

Section I.
Context (I : forall t, umap_impl (key t)).
Notation smf := (smf I).
Notation fmf := (fmf I).

Lemma read_join fs more x y e h st : m_read (fmf (f_app fs more)) e h (f_join fs more x y) st =
  do q <- m_read (fmf fs) e h x st; let '(ok, v, st1) := q in
  if (ok : bool) then (do q <- m_read (fmf more) e h y st1; let '(ok2, f, st2) := q in Done (ok2, f_join fs more v f, st2)) else Done (false, f_join fs more v y, st1).
Proof.
  revert e h st. induction fs as [|n t c r IH|n s r IH|n s r IH]; intros e h st.
  - cbn [f_app f_join]. change (m_read (fmf FNil) e h x st) with (Done (true, tt, st)). cbn [bind].
    destruct (m_read (fmf more) e h y st) as [[[ok v] st1]| |]; reflexivity.
  - cbn [fty] in x. destruct x as [a x]. cbn [f_app f_join fst snd]. rewrite !base_read.
    destruct (r_read e h t n a st) as [[[ok v] st1]| |]; cbn [bind]; try reflexivity. destruct ok; cbn [bind]; [|reflexivity].
    rewrite IH. destruct (m_read (fmf r) e h x st1) as [[[ok v1] st2]| |]; cbn [bind]; try reflexivity. destruct ok; cbn [bind]; [|reflexivity].
    destruct (m_read (fmf more) e h y st2) as [[[ok v2] st3]| |]; reflexivity.
  - cbn [fty] in x. destruct x as [a x]. cbn [f_app f_join fst snd]. rewrite !class_read.
    match goal with |- context [bind ?t _] => destruct t as [[[ok v] st1]| |] end; cbn [bind]; try reflexivity. destruct ok; cbn [bind]; [|reflexivity].
    rewrite IH. destruct (m_read (fmf r) e h x st1) as [[[ok v1] st2]| |]; cbn [bind]; try reflexivity. destruct ok; cbn [bind]; [|reflexivity].
    destruct (m_read (fmf more) e h y st2) as [[[ok v2] st3]| |]; reflexivity.
  - cbn [fty] in x. destruct x as [a x]. cbn [f_app f_join fst snd]. rewrite !opt_read.
    match goal with |- context [bind ?t _] => destruct t as [[[ok v] st1]| |] end; cbn [bind]; try reflexivity. destruct ok; cbn [bind]; [|reflexivity].
    rewrite IH. destruct (m_read (fmf r) e h x st1) as [[[ok v1] st2]| |]; cbn [bind]; try reflexivity. destruct ok; cbn [bind]; [|reflexivity].
    destruct (m_read (fmf more) e h y st2) as [[[ok v2] st3]| |]; reflexivity.
Qed.

Lemma default_len fl t c n : len (encode fl t n (cval_default t c)) <= 200 + len n.
Proof.
  assert (P : len (payload_of fl t (cval_default t c)) <= 150).
  { destruct c; destruct t as [|[]|[]|[]|[] []|[] []|[] []|[] []|[]| | | | |], fl; vm_compute; discriminate. }
  rewrite encode_form. destruct (large t (cval_ctype (cval_default t c))); rewrite ?len_large_block, ?len_small_block; lia.
Qed.
(** At the end of the data nothing more can be read. *)
Lemma end_read fs d e h above f st pre fl : fs <> FNil -> f_sound fs -> f_keyed fs -> f_ok fs d -> rready h above f st ->
  r_stream st = rs_at pre [] fl -> 1000 <= e_lim e -> len pre < 2^61 -> exists x st', m_read (fmf fs) e h d st = Done (false, x, st').
Proof.
  intros Hn S Kd Od R Es Hal Hs. unfold lim62 in *.
  destruct fs as [|n t c r|n s r|n s r]; [contradiction|..]; cbn [fty] in d; destruct d as [b d]; cbn [f_sound f_keyed f_ok fst snd] in *.
  - rewrite base_read.
    pose proof (default_len fl t (cval_ctype b) n) as L.
    destruct (cuts_item t n (cval_default t (cval_ctype b)) b (conj (cval_default_ok t _) (proj1 S)) (proj1 Kd) (eq_sym (cval_default_ctype t _)) (proj1 Od)
      e h above f st pre [] (encode fl t n (cval_default t (cval_ctype b))) fl R eq_refl) as (x & st' & ->); try assumption.
    + intros X. pose proof (len_encode_pos fl t n (cval_default t (cval_ctype b)) (proj1 S)) as P. rewrite X in P. vm_compute in P. discriminate.
    + destruct S. lia.
    + unfold lim62. destruct S. lia.
    + cbn [bind]. eauto.
  - rewrite class_read.
    match goal with |- context [@sec_read ?T ?k ?no ?x0 ?x1 ?body e h st] => edestruct (@cuts_section T k no x0 x1 body (fun _ => []) (proj1 S) (proj1 Kd)
      e h above f st pre [] _ fl R eq_refl) as (x & st' & ->) end; try assumption.
    + discriminate.
    + rewrite len_large_block, len_nil. destruct S. lia.
    + rewrite len_large_block, len_nil. destruct S. unfold lim62. lia.
    + cbn [bind]. eauto.
  - rewrite opt_read.
    match goal with |- context [@sec_read ?T ?k ?no ?x0 ?x1 ?body e h st] => edestruct (@cuts_section T k no x0 x1 body (fun _ => []) (proj1 S) (proj1 Kd)
      e h above f st pre [] _ fl R eq_refl) as (x & st' & ->) end; try assumption.
    + discriminate.
    + rewrite len_large_block, len_nil. destruct S. lia.
    + rewrite len_large_block, len_nil. destruct S. unfold lim62. lia.
    + cbn [bind]. eauto.
Qed.
End I.

Lemma t_added U fs fs' more (c : f_change fs fs') x init lim fl : f_sound fs -> f_sound (f_app fs' more) -> f_keyed (f_app fs' more) -> more <> FNil ->
  f_ok fs x -> f_fits fs x -> room init lim (len (nodes_bytes fl (f_doc fs x))) ->
  exists s0 st, fresh init lim fl = Done s0 /\ m_write (smf U (SEntity fs)) 0 x (w_open s0) = Done (true, st) /\
    forall e old pre, f_ok (f_app fs' more) old -> f_dest (f_app fs' more) old ->
      1000 + 4 * ws_pos (w_stream st) <= e_lim e -> len pre + ws_pos (w_stream st) < 2^61 ->
      exists y st', m_read (smf U (SEntity (f_app fs' more))) e 0 old (r_open (RS (pre ++ ws_data (w_stream st)) (len pre) fl)) = Done (false, y, st').
Proof.
  intros S S' Kd Hm Ox Fx Hr. apply app_sound in S'. apply app_keyed in Kd.
  destruct (writes_open _ _ init lim fl (proj1 (writes_both U) (SEntity fs) x S Ox Fx) Hr) as (s0 & st & E0 & E & Hd & Hp).
  exists s0, st. split; [exact E0|]. split; [exact E|]. intros e old pre Oo Do Hal Hs. rewrite Hd, Hp in *.
  destruct (join_split fs' more old) as (d1 & d2 & ->). apply join_ok in Oo. apply join_dest in Do.
  set (s := RS (pre ++ nodes_bytes fl (s_doc (SEntity fs) x)) (len pre) fl).
  change (m_read (smf U (SEntity (f_app fs' more)))) with (m_read (fmf U (f_app fs' more))). rewrite read_join.
  change (s_doc (SEntity fs) x) with (f_doc fs x) in *.
  destruct (proj2 (decides_both U) fs fs' c d1 x S (proj1 S') (proj1 Kd) (proj1 Oo) (proj1 Do) Ox Fx e 0 [] (rf_new 0 (rs_size s)) (r_open s) pre [] fl (rready_open s))
    as (ok & y & st1 & E1 & P1); [rewrite app_nil_r; reflexivity|lia|unfold lim62; rewrite len_nil; lia|].
  rewrite E1. cbn [bind]. destruct ok; [|eauto]. destruct P1 as (_ & S1 & C1 & N1).
  destruct (end_read U more d2 e 0 [] (rf_new 0 (rs_size s)) st1 (pre ++ nodes_bytes fl (f_doc fs x)) fl Hm (proj2 S') (proj2 Kd) (proj2 Oo)
     (rready_keep _ _ _ _ _ (rready_open s) C1 N1) S1) as (z & st2 & E2); [lia|rewrite len_app; lia|].
  rewrite E2. cbn [bind]. eauto.
Qed.

(** ** The new object is determined *)
Lemma content_ctype v w : ItemSpec.content v = ItemSpec.content w -> cval_ctype v = cval_ctype w -> v = w.
Proof.
  destruct v as [v|[v|]|l|[l|]|l ix|[[l ix]|]]; destruct w as [w|[w|]|m|[m|]|m jx|[[m jx]|]]; cbn; intros H1 H2; try discriminate; congruence.
Qed.
Lemma table_as_unique {K T T'} (Ko : keyops K) (A : T -> T' -> Prop) (B : T' -> T' -> Prop) m m1 m2 :
  (forall a y z, A a y -> A a z -> B y z) -> table_as Ko A m m1 -> table_as Ko A m m2 -> same_map Ko B m1 m2.
Proof.
  intros H H1 H2 k. specialize (H1 k). specialize (H2 k).
  destruct (t_find Ko k m) as [[a|]|], (t_find Ko k m1) as [[y|]|], (t_find Ko k m2) as [[z|]|]; try contradiction; eauto.
Qed.
Lemma determined_both :
  (forall s s' (c : s_change s s') x y z, s_as c x y -> s_as c x z -> s_ident s' y z) /\
  (forall fs fs' (c : f_change fs fs') x y z, f_as c x y -> f_as c x z -> f_rel (fun _ => eq) same_holding fs' y z).
Proof.
  pose proof (rel_sym_both (fun _ => eq) same_holding (fun _ a b => @eq_sym _ a b) same_holding_sym) as [Sy _].
  pose proof (rel_trans_both (fun _ => eq) same_holding (fun _ a b c => @eq_trans _ a b c) same_holding_trans) as [Tr _].
  apply change_ind.
  - intros s x y z Y Z. exact (Tr s y x z Y (Sy s z x Z)).
  - intros k f f' x y z [Y1 Y2] [Z1 Z2]. split; intros; [rewrite Y1, Z1|rewrite Y2, Z2]; tauto.
  - intros k f f' s s' c IH x y z Y Z. exact (table_as_unique (kops k) (s_as c) (s_ident s') x y z IH Y Z).
  - intros fs fs' c IH. exact IH.
  - intros; exact Logic.I.
  - intros n t c t' c' r r' ch IH x y z [(Y1 & Y2 & _) Y] [(Z1 & Z2 & _) Z]. split; [|eauto]. apply content_ctype; congruence.
  - intros n s s' r r' cs IHs cf IH x y z [Y1 Y] [Z1 Z]. split; [exact (IHs _ _ _ Y1 Z1)|eauto].
  - intros n s s' r r' cs IHs cf IH x [y1 y] [z1 z] [Y1 Y] [Z1 Z]. cbn [fst snd] in *. split; [|eauto]. cbn [fst].
    destruct y1, z1; try contradiction. exact (IHs _ _ _ Y1 Z1).
  - intros n s s' r r' cs IHs cf IH [x1 x] y z [Y1 Y] [Z1 Z]. cbn [fst snd] in *. split; [|eauto].
    destruct x1; try contradiction. exact (IHs _ _ _ Y1 Z1).
  - intros n s s' r r' cs IHs cf IH [x1 x] [y1 y] [z1 z] [Y1 Y] [Z1 Z]. cbn [fst snd] in *. split; [|eauto]. cbn [fst].
    destruct x1, y1, z1; try contradiction; auto. exact (IHs _ _ _ Y1 Z1).
  - intros fs fs' c x y z [].
Qed.

(** ** Changes that keep the data readable *)
Definition widen (c' : ctype) (v : cval) : cval :=
  match c', v with
  | CtOpt, CV v => COpt (Some v) | CtOptVec, CVec l => COptVec (Some l) | CtOptIdx, CIdx l ix => COptIdx (Some (l, ix)) | _, _ => v
  end.
Lemma widen_ok t c c' v : widens c c' -> cval_ctype v = c -> cval_ok t v -> cval_ok t (widen c' v) /\ cval_ctype (widen c' v) = c' /\ ItemSpec.content (widen c' v) = ItemSpec.content v.
Proof.
  intros H E O. destruct H as [->|[[-> ->]|[[-> ->]|[-> ->]]]]; [subst; destruct v; cbn; auto|..]; destruct v; try discriminate; cbn in *; auto.
Qed.
Lemma list_exists {A B} (l : list A) (R : A -> B -> Prop) : (forall a, In a l -> exists b, R a b) -> exists l', Forall2 R l l'.
Proof.
  induction l as [|a l IH]; intros H; [exists []; constructor|]. destruct (H a (or_introl eq_refl)) as (b & Hb). destruct IH as (l' & Hl); [intros; apply H; right; auto|].
  exists (b :: l'). constructor; auto.
Qed.
Lemma table_exists {K T T'} (Ko : keyops K) (A : T -> T' -> Prop) (P : T' -> Prop) (m : table K T) : is_table m ->
  (forall i a, In (i, Some a) (t_list m) -> exists y, P y /\ A a y) ->
  exists m' : table K T', (is_table m' /\ forall i y, In (i, Some y) (t_list m') -> P y) /\ table_as Ko A m m'.
Proof.
  intros Tm H.
  destruct (list_exists (t_list m) (fun p q : K * _ => fst q = fst p /\ match snd p, snd q with Some a, Some y => P y /\ A a y | None, None => True | _, _ => False end)) as (l & Hl).
  { intros [i [a|]] Hi; [destruct (H i a Hi) as (y & Hy); exists (i, Some y); split; [reflexivity|exact Hy]|exists (i, None); split; [reflexivity|exact I]]. }
  exists (UMap l 0). split; [split|].
  - unfold is_table. cbn [t_list]. replace (map fst l) with (map fst (t_list m)); [exact Tm|]. clear H Tm.
    induction Hl as [|p q l1 l2 [E _] _ IH]; cbn [map]; [reflexivity|]. f_equal; [symmetry; exact E|apply IH].
  - cbn [t_list]. clear H Tm. induction Hl as [|[j a] [j' b] l1 l2 [_ E] _ IH]; intros i y; [intros []|]. intros [X|X]; [|eauto].
    injection X as -> ->. cbn [snd] in E. destruct a; [apply E|contradiction].
  - intros k. rewrite !(find_lookup Ko). cbn [t_list]. clear H Tm. induction Hl as [|[j a] [j' b] l1 l2 [E1 E2] _ IH]; [exact I|].
    rewrite !(lookup_cons Ko). cbn [fst snd] in *. subst j'. destruct (k_eq Ko k j); [|exact IH]. destruct a, b; try contradiction; auto. apply E2.
Qed.
Lemma safe_both :
  (forall s s' (c : s_change s s') x, s_safe c -> s_ok s x -> exists y, s_ok s' y /\ s_as c x y) /\
  (forall fs fs' (c : f_change fs fs') x, f_safe c -> f_ok fs x -> exists y, f_ok fs' y /\ f_as c x y).
Proof.
  apply change_ind.
  - intros s x _ Ox. exists x. split; [exact Ox|]. apply ident_refl_both. exact Ox.
  - intros k f f' x _ Ox. exists x. split; [exact Ox|]. split; tauto.
  - intros k f f' s s' c IH x Sf [Tx Ox].
    apply (table_exists (kops k) (s_as c) (s_ok s') x Tx). intros i a Ha. apply IH; eauto.
  - intros fs fs' c IH. exact IH.
  - intros x _ _. exists tt. split; exact Logic.I.
  - intros n t c t' c' r r' ch IH [a x] (Sd & Wd & Sf) (Oa & Ca & Ox). cbn [fst snd] in *. destruct (IH x Sf Ox) as (y & Oy & Ay).
    destruct (widen_ok t c c' a Wd Ca Oa) as (W1 & W2 & W3). exists (widen c' a, y). cbn [f_ok f_as fst snd].
    split; [split; [apply (value_as_ok t a t' c'); [split; [exact W2|split; [exact W3|left; exact Sd]]|exact Oa]|auto]|]. split; [split; [exact W2|split; [exact W3|left; exact Sd]]|exact Ay].
  - intros n s s' r r' cs IHs cf IH [a x] [S1 S2] [Oa Ox]. cbn [fst snd] in *. destruct (IHs a S1 Oa) as (b & Ob & Ab). destruct (IH x S2 Ox) as (y & Oy & Ay).
    exists (b, y). split; split; assumption.
  - intros n s s' r r' cs IHs cf IH [a x] [S1 S2] [Oa Ox]. cbn [fst snd] in *. destruct (IHs a S1 Oa) as (b & Ob & Ab). destruct (IH x S2 Ox) as (y & Oy & Ay).
    exists (Some b, y). split; split; assumption.
  - intros n s s' r r' cs IHs cf IH x [].
  - intros n s s' r r' cs IHs cf IH [[a|] x] [S1 S2] [Oa Ox]; cbn [fst snd] in *; destruct (IH x S2 Ox) as (y & Oy & Ay).
    + destruct (IHs a S1 Oa) as (b & Ob & Ab). exists (Some b, y). split; split; assumption.
    + exists (None, y). split; split; auto; exact Logic.I.
  - intros fs fs' c x [].
Qed.
