(** * Proofs of the properties of EntityWriter and EntityReader. *)
From Verif Require Import Base Bytes BytesFacts Values Streams FileSpec ReadSpec StreamFacts StreamProps Types Format
  Accept EntityWriter EntityReader EntityWriterFacts PackFacts ArrayWriterFacts EntityReaderFacts EntitySafety ArraySafety
  ReadTotal Items ItemSpec.
Open Scope N_scope.

Lemma fresh_at init lim fl : 0 < init -> init <= lim -> lim < two64 ->
  exists s0, fresh init lim fl = Done s0 /\ ws_at s0 [] fl lim.
Proof.
  intros H1 H2 H3. unfold fresh.
  destruct (ws_new_ok init lim H1 H2 H3) as (s0 & E & (A1 & A2 & A3) & B & C & _). rewrite E. cbn [ws_calls ws_call bind].
  eexists. split; [reflexivity|].
  split; [|split; [reflexivity|exact C]]. split; [exact A1|]. split; [exact A2|exact A3].
Qed.

Lemma write_all_at l : forall s c fl lim, ws_at s c fl lim -> Forall item_ok l ->
  2 * (len c + len (items_image fl l)) <= lim ->
  exists s', write_all l s = Done (true, s') /\ ws_at s' (c ++ items_image fl l) fl lim.
Proof.
  induction l as [|i l IH]; intros s c fl lim H Hok Hlim.
  - exists s. split; [reflexivity|]. cbn. rewrite app_nil_r. exact H.
  - inversion Hok as [|i' l' (Hv & Hk) Hl]; subst. unfold items_image in *. cbn [flat_map] in *. rewrite len_app in Hlim.
    destruct (ew_write_at (i_type i) (i_key i) (i_val i) s c fl lim H Hk Hv) as (s1 & E1 & H1); [lia|].
    destruct (IH s1 _ fl lim H1 Hl) as (s2 & E2 & H2); [rewrite len_app; lia|].
    exists s2. cbn [write_all]. rewrite E1. cbn [bind]. split; [exact E2|]. rewrite app_assoc. exact H2.
Qed.

Lemma items_image_app fl a b : items_image fl (a ++ b) = items_image fl a ++ items_image fl b.
Proof. apply flat_map_app. Qed.
Lemma items_image_one fl t key v : items_image fl [Item t key v] = encode fl t key v.
Proof. unfold items_image. cbn. apply app_nil_r. Qed.

Lemma written_exists init lim fl before t key v :
  Forall item_ok before -> item_ok (Item t key v) ->
  room init lim (len (items_image fl before) + len (encode fl t key v)) ->
  exists s1 s2, written init lim fl before t key v s1 s2 /\
    ws_data s1 = items_image fl before /\ ws_pos s1 = len (ws_data s1) /\
    ws_data s2 = ws_data s1 ++ encode fl t key v /\ ws_pos s2 = len (ws_data s2).
Proof.
  intros Hb (Hv & Hk) (R1 & R2 & R3 & R4). cbn [i_type i_key i_val] in *.
  destruct (fresh_at init lim fl R1 R2 R3) as (s0 & E0 & H0).
  destruct (write_all_at before s0 [] fl lim H0 Hb) as (s1 & E1 & H1); [rewrite len_nil; lia|]. cbn [app] in H1.
  destruct (ew_write_at t key v s1 _ fl lim H1 Hk Hv) as (s2 & E2 & H2); [lia|].
  exists s1, s2. split; [exists s0; auto|].
  rewrite (ws_at_data _ _ _ _ H1), (ws_at_pos _ _ _ _ H1), (ws_at_data _ _ _ _ H2), (ws_at_pos _ _ _ _ H2). auto.
Qed.

Lemma written_data init lim fl before t key v s1 s2 :
  Forall item_ok before -> item_ok (Item t key v) ->
  room init lim (len (items_image fl before) + len (encode fl t key v)) ->
  written init lim fl before t key v s1 s2 ->
  ws_data s1 = items_image fl before /\ ws_pos s1 = len (ws_data s1) /\
  ws_data s2 = ws_data s1 ++ encode fl t key v /\ ws_pos s2 = len (ws_data s2).
Proof.
  intros Hb Hi Hr (s0 & A & B & C).
  destruct (written_exists init lim fl before t key v Hb Hi Hr) as (s1' & s2' & (s0' & A' & B' & C') & H).
  rewrite A in A'. inversion A'; subst s0'. rewrite B in B'. inversion B'; subst s1'. rewrite C in C'. inversion C'; subst s2'.
  exact H.
Qed.

(** ** Reading what was written, into any destination *)
Lemma replaced_delivered t dest v : replaced t dest -> cval_ctype dest = cval_ctype v -> delivered t dest v = v.
Proof.
  intros H E. destruct t; try reflexivity; destruct dest, v; try discriminate E; cbn in *; subst; reflexivity.
Qed.

Lemma er_read_delivered e t key v dest pre post fl :
  len key <= 40 -> cval_ok t v -> cval_ok t dest -> cval_ctype dest = cval_ctype v ->
  4 * len (encode fl t key v) <= e_lim e ->
  len pre + len (encode fl t key v) + len post < two64 ->
  er_read e t key dest (rs_at pre (encode fl t key v ++ post) fl)
  = Done (true, delivered t dest v, rs_at (pre ++ encode fl t key v) post fl).
Proof.
  intros Hk Hv Hd Hct Hal Hs.
  assert (G : forall t', cval_ok t' v -> encode fl t' key v = encode fl t key v ->
     (t = TEntityRef \/ t = TPackageRef) ->
     er_read_override e t' key dest (rs_at pre (encode fl t key v ++ post) fl)
     = Done (true, delivered t dest v, rs_at (pre ++ encode fl t key v) post fl)).
  { intros t' Hv' He Ht. unfold er_read_override. rewrite <- He in *.
    rewrite er_read_plain_ok; try assumption.
    - cbn [bind negb]. destruct Ht as [-> | ->]; destruct dest, v; try discriminate Hct; reflexivity.
    - apply cval_default_ok.
    - rewrite cval_default_ctype. exact Hct. }
  destruct t; try (apply er_read_plain_ok; assumption).
  - apply (G TUuid); auto.
  - apply (G THash); auto.
Qed.

Lemma rs_at_app a b post fl : RS ((a ++ b) ++ post) (len (a ++ b)) fl = rs_at (a ++ b) post fl.
Proof. reflexivity. Qed.
Lemma rs_at_mid a b post fl : RS ((a ++ b) ++ post) (len a) fl = rs_at a (b ++ post) fl.
Proof. unfold rs_at. rewrite <- app_assoc. reflexivity. Qed.

Lemma item_roundtrip init lim fl before t key v s1 s2 e dest post :
  Forall item_ok before -> item_ok (Item t key v) ->
  room init lim (len (items_image fl before) + len (encode fl t key v)) ->
  written init lim fl before t key v s1 s2 ->
  cval_ok t dest -> cval_ctype dest = cval_ctype v ->
  read_room e (ws_pos s2 - ws_pos s1) (ws_pos s2 + len post) ->
  er_read e t key dest (RS (ws_data s2 ++ post) (ws_pos s1) fl)
  = Done (true, delivered t dest v, RS (ws_data s2 ++ post) (ws_pos s2) fl).
Proof.
  intros Hb Hi Hr Hw Hd Hc (R1 & R2).
  destruct (written_data _ _ _ _ _ _ _ _ _ Hb Hi Hr Hw) as (A & B & C & D).
  rewrite D, C in *. rewrite B in *. rewrite len_app in R1, R2. rewrite rs_at_app, rs_at_mid.
  destruct Hi as (Hv & Hk). apply er_read_delivered; try assumption; lia.
Qed.

Lemma read_all_ok e fl : forall ws rs pre post,
  Forall item_ok ws -> Forall2 mirrors ws rs ->
  4 * len (items_image fl ws) <= e_lim e -> len pre + len (items_image fl ws) + len post < two64 ->
  read_all e rs (rs_at pre (items_image fl ws ++ post) fl)
  = Done (true, map (fun p => delivered (i_type (fst p)) (i_val (snd p)) (i_val (fst p))) (combine ws rs),
          rs_at (pre ++ items_image fl ws) post fl).
Proof.
  induction ws as [|w ws IH]; intros rs pre post Hok Hm Hal Hs; inversion Hm as [|w' r' ws' rs' Hwr Hm']; subst.
  - cbn. rewrite app_nil_r. reflexivity.
  - inversion Hok as [|i' l' (Hv & Hk) Hl]; subst. unfold items_image in *. cbn [flat_map read_all] in *.
    rewrite len_app in Hal, Hs. destruct Hwr as (M1 & M2 & M3 & M4). rewrite M1, M2 in *.
    rewrite <- app_assoc, er_read_delivered by (try assumption; rewrite ?len_app; lia).
    cbn [bind]. rewrite IH by (try assumption; rewrite ?len_app; lia). cbn [bind combine map fst snd].
    rewrite !app_assoc. reflexivity.
Qed.

Lemma items_roundtrip init lim fl ws rs e :
  Forall item_ok ws -> Forall2 mirrors ws rs ->
  room init lim (len (items_image fl ws)) ->
  4 * len (items_image fl ws) <= e_lim e ->
  exists s0 s, fresh init lim fl = Done s0 /\ write_all ws s0 = Done (true, s) /\
    ws_data s = items_image fl ws /\
    read_all e rs (RS (ws_data s) 0 fl)
    = Done (true, map (fun p => delivered (i_type (fst p)) (i_val (snd p)) (i_val (fst p))) (combine ws rs),
            RS (ws_data s) (len (ws_data s)) fl).
Proof.
  intros Hok Hm (R1 & R2 & R3 & R4) Hal.
  destruct (fresh_at init lim fl R1 R2 R3) as (s0 & E0 & H0).
  destruct (write_all_at ws s0 [] fl lim H0 Hok) as (s & E & H); [rewrite len_nil; lia|]. cbn [app] in H.
  exists s0, s. split; [exact E0|]. split; [exact E|]. rewrite (ws_at_data _ _ _ _ H). split; [reflexivity|].
  pose proof (read_all_ok e fl ws rs [] [] Hok Hm Hal) as Q. rewrite !len_nil in Q.
  unfold rs_at in Q. cbn [app] in Q. rewrite !app_nil_r in Q. apply Q. lia.
Qed.

Lemma combine_delivered : forall ws rs, Forall2 mirrors ws rs -> Forall (fun r => replaced (i_type r) (i_val r)) rs ->
  map (fun p => delivered (i_type (fst p)) (i_val (snd p)) (i_val (fst p))) (combine ws rs) = map i_val ws.
Proof.
  induction ws as [|w ws IH]; intros rs Hm Hr; inversion Hm as [|w' r' ws' rs' (M1 & M2 & M3 & M4) Hm']; subst; [reflexivity|].
  inversion Hr as [|r'' l'' Hr1 Hr2]; subst. cbn [combine map fst snd]. rewrite IH by assumption.
  rewrite replaced_delivered by congruence. reflexivity.
Qed.

(** ** Injectivity *)
Lemma encode_prefix_free fl t key v v' post post' :
  len key <= 40 -> cval_ok t v -> cval_ok t v' -> cval_ctype v = cval_ctype v' ->
  len (encode fl t key v ++ post) < two64 ->
  encode fl t key v ++ post = encode fl t key v' ++ post' -> v = v'.
Proof.
  intros Hk Hv Hv' Hc Hs He.
  set (e := RE (4 * (len (encode fl t key v) + len (encode fl t key v'))) (fun _ => x00)).
  assert (Hrep : forall w, cval_ctype w = cval_ctype v -> delivered t (cval_default t (cval_ctype v)) w = w).
  { intros w Hw. apply replaced_delivered; [destruct t; try exact I; destruct v; exact I || reflexivity|]. rewrite cval_default_ctype. auto. }
  pose proof (er_read_delivered e t key v (cval_default t (cval_ctype v)) [] post fl Hk Hv (cval_default_ok _ _)) as A.
  pose proof (er_read_delivered e t key v' (cval_default t (cval_ctype v)) [] post' fl Hk Hv' (cval_default_ok _ _)) as B.
  rewrite cval_default_ctype in A, B. rewrite He in Hs. rewrite !len_app in Hs.
  pose proof (f_equal (@len byte) He) as Hl. rewrite !len_app in Hl.
  rewrite Hrep in A, B by congruence. rewrite He in A.
  specialize (A eq_refl). specialize (B Hc). unfold e in A at 1, B at 1. cbn [e_lim] in A, B. rewrite len_nil in A, B.
  specialize (A ltac:(lia) ltac:(lia)). specialize (B ltac:(lia) ltac:(lia)).
  rewrite A in B. inversion B. reflexivity.
Qed.

(** ** Type bytes *)
Lemma er_read_mismatch e t key dest b pre post fl :
  b < 256 -> b <> type_byte t (cval_ctype dest) -> len pre + 1 + len post < two64 ->
  exists v s', er_read e t key dest (rs_at pre (n2b b :: post) fl) = Done (false, v, s').
Proof.
  intros Hb Hne Hs.
  assert (E1 : rs_u8 (rs_at pre (n2b b :: post) fl) = Done (b, rs_at (pre ++ [n2b b]) post fl)).
  { pose proof (rs_u8n b pre post fl) as Q. apply Q; lia. }
  assert (S : forall h eok d, b <> vt_single t -> exists d' s',
     read_single e (vt_single t) h key eok d (rs_at pre (n2b b :: post) fl) = Done (SFail, d', s')).
  { intros h eok d Hn. apply N.eqb_neq in Hn.
    destruct h; cbn [read_single]; unfold read_bool, read_string, read_pod, begin_read; rewrite E1; cbn [bind]; rewrite Hn;
      cbn [negb bind]; do 2 eexists; reflexivity. }
  assert (A : forall h eok d ix, b <> vt_array t -> exists d' ix' s',
     read_array e (vt_array t) h key eok d ix (rs_at pre (n2b b :: post) fl) = Done (SFail, d', ix', s')).
  { intros h eok d ix Hn. apply N.eqb_neq in Hn. unfold read_array, begin_read. rewrite E1. cbn [bind]. rewrite Hn.
    cbn [negb bind]. do 3 eexists; reflexivity. }
  assert (P : exists v s', er_read_plain e t key dest (rs_at pre (n2b b :: post) fl) = Done (false, v, s')).
  { destruct dest as [v|o|l|o|l ix|o]; cbn [type_byte cval_ctype] in Hne; cbn [er_read_plain].
    1,2: match goal with |- context [read_single _ _ ?h _ ?eo ?d] => destruct (S h eo d Hne) as (d' & s' & ->) end;
         cbn [bind st_ok]; eauto.
    all: match goal with |- context [read_array _ _ ?h _ ?eo ?d ?ix] => destruct (A h eo d ix Hne) as (d' & ix' & s' & ->) end;
         cbn [bind st_ok]; eauto. }
  assert (O : forall t', vt_single t' = vt_single t -> vt_array t' = vt_array t -> dshape t' = dshape t ->
     exists v s', er_read_override e t' key dest (rs_at pre (n2b b :: post) fl) = Done (false, v, s')).
  { intros t' V1 V2 V3. unfold er_read_override.
    assert (P' : exists v s', er_read_plain e t' key (cval_default t' (cval_ctype dest)) (rs_at pre (n2b b :: post) fl) = Done (false, v, s')).
    { destruct dest as [v|o|l|o|l ix|o]; cbn [type_byte cval_ctype cval_default] in *; cbn [er_read_plain]; rewrite ?V1, ?V2.
      1,2: match goal with |- context [read_single _ _ ?h _ ?eo ?d] => destruct (S h eo d Hne) as (d' & s' & ->) end;
           cbn [bind st_ok]; eauto.
      all: match goal with |- context [read_array _ _ ?h _ ?eo ?d ?ix] => destruct (A h eo d ix Hne) as (d' & ix' & s' & ->) end;
         cbn [bind st_ok]; eauto. }
    destruct P' as (v & s' & ->). cbn [bind negb]. eauto. }
  destruct t; try exact P.
  - apply (O TUuid); reflexivity.
  - apply (O THash); reflexivity.
Qed.

Lemma type_byte_lt t c : type_byte t c < 256.
Proof. destruct c; cbn [type_byte]; apply vt_single_lt || apply vt_array_lt. Qed.
Lemma type_byte_pos t c : 0 < type_byte t c.
Proof. destruct c; cbn [type_byte]; apply vt_single_pos || apply vt_array_pos. Qed.
Lemma encode_head fl t key v : exists r, encode fl t key v = n2b (type_byte t (cval_ctype v)) :: r.
Proof.
  destruct v as [v|o|l|o|l ix|o]; cbn [encode cval_ctype type_byte]; unfold single_block, array_block, small_block, large_block;
    try destruct (dshape t); eauto.
Qed.

(** ** Absent values *)
Lemma absent_rejected e t key v dest pre post fl :
  len key <= 40 -> is_null v -> cval_ok t dest -> ~ is_optional dest ->
  len pre + len (encode fl t key v) + len post < two64 ->
  exists d s', er_read e t key dest (rs_at pre (encode fl t key v ++ post) fl) = Done (false, d, s').
Proof.
  intros Hk Hn Hd Ho Hs.
  destruct (N.eq_dec (type_byte t (cval_ctype v)) (type_byte t (cval_ctype dest))) as [Ht|Ht].
  2:{ destruct (encode_head fl t key v) as (r & E). rewrite E in *. cbn [app].
      apply er_read_mismatch; [apply type_byte_lt|exact Ht|]. rewrite len_cons in Hs. rewrite len_app. lia. }
  assert (Hva : vt_single t <> vt_array t) by (destruct t; cbn; lia).
  assert (Hsame : match dest with CV _ => v = COpt None | _ => v = COptVec None \/ v = COptIdx None end).
  { destruct dest, v as [|[]| |[]| |[]]; cbn in *; try tauto; congruence. }
  assert (P : forall t', vt_single t' = vt_single t -> vt_array t' = vt_array t -> dshape t' = dshape t -> forall dest',
    cval_ok t' dest' -> cval_ctype dest' = cval_ctype dest ->
    exists d s', er_read_plain e t' key dest' (rs_at pre (encode fl t key v ++ post) fl) = Done (false, d, s')).
  { intros t' V1 V2 V3 dest' Hd' Hc.
    destruct dest', dest; try discriminate Hc; cbn [is_optional] in Ho; try tauto; cbn [er_read_plain]; rewrite ?V1, ?V2, ?V3.
    - subst v. cbn [encode] in *. cbn [cval_ok] in Hd'. unfold val_ok in Hd'. rewrite V3 in Hd'.
      destruct (read_single_none_fail e t key v0 pre post fl Hk Hd' Hs) as (s' & ->). cbn [bind st_ok]. eauto.
    - assert (E : encode fl t key v = large_block fl (vt_array t) key []) by (destruct Hsame as [-> | ->]; reflexivity).
      rewrite E in *. rewrite read_array_none by (try assumption; apply vt_array_lt). cbn [bind st_ok]. eauto.
    - assert (E : encode fl t key v = large_block fl (vt_array t) key []) by (destruct Hsame as [-> | ->]; reflexivity).
      rewrite E in *. rewrite read_array_none by (try assumption; apply vt_array_lt). cbn [bind st_ok]. eauto. }
  assert (O : forall t', vt_single t' = vt_single t -> vt_array t' = vt_array t -> dshape t' = dshape t ->
     exists v' s', er_read_override e t' key dest (rs_at pre (encode fl t key v ++ post) fl) = Done (false, v', s')).
  { intros t' V1 V2 V3. unfold er_read_override.
    destruct (P t' V1 V2 V3 (cval_default t' (cval_ctype dest)) (cval_default_ok _ _) (cval_default_ctype _ _)) as (d & s' & ->).
    cbn [bind negb]. eauto. }
  destruct t; try (apply P; auto; fail).
  - apply (O TUuid); reflexivity.
  - apply (O THash); reflexivity.
Qed.
