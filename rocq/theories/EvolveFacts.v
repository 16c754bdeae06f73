(** * Reading objects of another definition: composition. Proofs. *)
From Verif Require Import Base Bytes BytesFacts Values Streams FileSpec ReadSpec StreamFacts StreamProps Types Format
  Accept EntityWriter EntityReader EntityWriterFacts PackFacts ArrayWriterFacts EntityReaderFacts EntitySafety ArraySafety
  ReadTotal Items ItemSpec EntityProps EntityKeys EntityTheorems Sections Documents DocSpec SectionFacts SectionReadFacts SectionTheorems CodecFacts
  TruncSpec Truncation Containers EntityGen EntitySpec EntityCodec EvolveSpec EvolveItem.
Local Open Scope N_scope.

(** The read function succeeds on [b fl], with a result in [A], or there is no such result and it fails. *)
Definition decides {T} (R : renv -> N -> rstate -> res (bool * T * rstate)) (b : bool -> list byte) (A : T -> Prop) : Prop :=
  forall e h above f st pre post fl,
    rready h above f st -> r_stream st = rs_at pre (b fl ++ post) fl ->
    4 * len (b fl) <= e_lim e -> len pre + len (b fl) + len post < lim62 ->
    exists ok x st', R e h st = Done (ok, x, st') /\
      if ok : bool then A x /\ rpost st st' (rs_at (pre ++ b fl) post fl) else forall y, ~ A y.

Lemma decides_reads {T} R b (A : T -> Prop) : readsP R b A -> decides R b A.
Proof.
  intros H e h above f st pre post fl H1 H2 H3 H4. destruct (H e h above f st pre post fl H1 H2 H3) as (x & st' & E & P); [unfold lim62, two64 in *; lia|].
  exists true, x, st'. auto.
Qed.
Lemma decides_ext {T} (R R' : renv -> N -> rstate -> res (bool * T * rstate)) b b' A : decides R b A -> (forall e h st, R' e h st = R e h st) -> (forall fl, b' fl = b fl) -> decides R' b' A.
Proof. intros H E Eb e h above f st pre post fl X Es H1 H2. rewrite Eb in *. rewrite E. apply (H e h above f); auto. Qed.
Lemma decides_iff {T} R b (A B : T -> Prop) : decides R b A -> (forall x, A x <-> B x) -> decides R b B.
Proof.
  intros H HQ e h above f st pre post fl H1 H2 H3 H4. destruct (H e h above f st pre post fl H1 H2 H3 H4) as (ok & x & st' & E & P).
  exists ok, x, st'. split; [exact E|]. destruct ok; [split; [apply HQ|]; apply P|]. intros y Y. apply HQ in Y. exact (P y Y).
Qed.
Lemma decides_map {T V} (R : renv -> N -> rstate -> res (bool * T * rstate)) (k : bool -> T -> V) b (A : T -> Prop) (B : V -> Prop) :
  decides R b A -> (forall x, A x -> B (k true x)) -> (forall y, B y -> exists x, A x) ->
  decides (fun e h st => do r <- R e h st; let '(ok, v, st1) := r in Done (ok, k ok v, st1)) b B.
Proof.
  intros H HQ HN e h above f st pre post fl X Es H1 H2. destruct (H e h above f st pre post fl X Es H1 H2) as (ok & x & st1 & E1 & P).
  exists ok, (k ok x), st1. rewrite E1. cbn [bind]. split; [reflexivity|]. destruct ok; [split; [apply HQ|]; apply P|].
  intros y Y. destruct (HN y Y) as (x' & X'). exact (P x' X').
Qed.
Lemma decides_pair {T V} (R1 : renv -> N -> rstate -> res (bool * T * rstate)) (R2 : renv -> N -> rstate -> res (bool * V * rstate)) (d : V) b1 b2 A1 A2 (B : T * V -> Prop) :
  decides R1 b1 A1 -> decides R2 b2 A2 -> (forall x y, B (x, y) <-> A1 x /\ A2 y) ->
  decides (fun e h st => do r <- R1 e h st; let '(ok, v, st1) := r in
             if (ok : bool) then (do q <- R2 e h st1; let '(ok2, f, st2) := q in Done (ok2, (v, f), st2)) else Done (false, (v, d), st1))
    (fun fl => b1 fl ++ b2 fl) B.
Proof.
  intros H1 H2 HB e h above f st pre post fl R Es Hal Hs. rewrite len_app in Hal, Hs.
  destruct (H1 e h above f st pre (b2 fl ++ post) fl R) as (ok & x & st1 & E1 & P1); [rewrite Es, <- app_assoc; auto|lia|rewrite len_app; lia|].
  rewrite E1. cbn [bind]. destruct ok.
  2:{ exists false, (x, d), st1. split; [reflexivity|]. intros [x' y'] Y. apply HB in Y. exact (P1 x' (proj1 Y)). }
  destruct P1 as (Px & (S1 & C1 & N1)).
  destruct (H2 e h above f st1 (pre ++ b1 fl) post fl (rready_keep _ _ _ _ _ R C1 N1) S1) as (ok & y & st2 & E2 & P2); [lia|rewrite len_app; lia|].
  rewrite E2. cbn [bind]. exists ok, (x, y), st2. split; [reflexivity|]. destruct ok.
  - destruct P2 as (Py & (S2 & C2 & N2)). split; [apply HB; auto|]. split; [rewrite app_assoc; exact S2|]. split; [congruence|lia].
  - intros [x' y'] Y. apply HB in Y. exact (P2 y' (proj2 Y)).
Qed.

(** The read function fails. *)
Definition fails {T} (R : renv -> N -> rstate -> res (bool * T * rstate)) (b : bool -> list byte) : Prop := decides R b (fun _ => False).
Lemma fails_decides {T} R b (A : T -> Prop) : fails R b -> (forall x, ~ A x) -> decides R b A.
Proof. intros H N. apply (decides_iff _ _ _ _ H). intros x. split; [contradiction|apply N]. Qed.
Lemma fails_first {T V} (R1 : renv -> N -> rstate -> res (bool * T * rstate)) (R2 : renv -> N -> rstate -> res (bool * V * rstate)) (d : V) b1 b2 :
  fails R1 b1 ->
  fails (fun e h st => do r <- R1 e h st; let '(ok, v, st1) := r in
             if (ok : bool) then (do q <- R2 e h st1; let '(ok2, f, st2) := q in Done (ok2, (v, f), st2)) else Done (false, (v, d), st1))
    (fun fl => b1 fl ++ b2 fl).
Proof.
  intros H1 e h above f st pre post fl R Es Hal Hs. rewrite len_app in Hal, Hs.
  destruct (H1 e h above f st pre (b2 fl ++ post) fl R) as (ok & x & st1 & E1 & P1); [rewrite Es, <- app_assoc; auto|lia|rewrite len_app; lia|].
  rewrite E1. cbn [bind]. destruct ok; [destruct P1; contradiction|]. exists false, (x, d), st1. split; [reflexivity|auto].
Qed.

Ltac failed := eexists false, _, _; split; [reflexivity|auto].
(** ** Values *)
Lemma decides_value t n v t' d : item_ok (Item t n v) -> 0 < len n -> cval_ok t' d -> replaced t' d ->
  decides (fun e h st => r_read e h t' n d st) (fun fl => encode fl t n v) (fun w => cval_ok t' w /\ value_as t v t' (cval_ctype d) w).
Proof.
  intros Hi Hk0 Hd Hr e h above f st pre post fl R Es Hal Hs.
  pose proof R as (Ec & Hid & Hn & F & I). unfold r_read. rewrite Ec, split_at_mid by assumption. rewrite Es.
  destruct (value_decides e t v t' n d pre post fl Hi Hk0 Hd Hr Hal Hs) as [(w & W1 & W2 & ->)|(W & x & s' & ->)]; cbn [bind].
  - eexists true, w, _. split; [reflexivity|]. split; [auto|]. split; [reflexivity|]. split; [cbn; congruence|cbn; lia].
  - eexists false, x, _. split; [reflexivity|]. intros y [_ Y]. exact (W y Y).
Qed.
Lemma fails_value_section t' n' d n b : len n' <= 40 -> cval_ok t' d ->
  fails (fun e h st => r_read e h t' n' d st) (fun fl => large_block fl vt_subsection n (b fl)).
Proof.
  intros Hk Hd e h above f st pre post fl R Es Hal Hs. cbv beta in *.
  pose proof R as (Ec & Hid & Hn & F & I). unfold r_read. rewrite Ec, split_at_mid by assumption. rewrite Es.
  rewrite len_large_block in Hs. unfold large_block. cbn [app].
  edestruct (er_read_mismatch e t' n' d vt_subsection pre) as (x & s' & ->); [reflexivity| | |cbn [bind]; failed].
  - destruct d; destruct t' as [|[]|[]|[]|[] []|[] []|[] []|[] []|[]| | | | |]; cbn; discriminate.
  - rewrite len_app, len_app, len_num, len_cons, len_app. cbn [wbytes]. unfold lim62, two64 in *. lia.
Qed.
Lemma fails_value_name t n v t' n' d : item_ok (Item t n v) -> len n' <= 40 -> 0 < len n' -> cval_ok t' d ->
  n <> n' -> (large t (cval_ctype v) = true \/ (~ ends_with n n' /\ ~ ends_with n' n)) ->
  fails (fun e h st => r_read e h t' n' d st) (fun fl => encode fl t n v).
Proof.
  intros [Hv Hk] Hk' Hk0 Hd Hne Hc e h above f st pre post fl R Es Hal Hs. cbv beta in *. cbn [i_key i_type i_val] in *.
  pose proof R as (Ec & Hid & Hn & F & I). unfold r_read. rewrite Ec, split_at_mid by assumption. rewrite Es.
  assert (X : exists x s', er_read e t' n' d (rs_at pre (encode fl t n v ++ post) fl) = Done (false, x, s')).
  { destruct (N.eq_dec (type_byte t (cval_ctype v)) (type_byte t' (cval_ctype d))) as [Hb|Hb].
    2:{ destruct (encode_head fl t n v) as (r & E). rewrite E in *. cbn [app].
        apply er_read_mismatch; [apply type_byte_lt|congruence|]. rewrite len_cons in Hs. rewrite len_app. unfold lim62, two64 in *. lia. }
    pose proof (large_byte t (cval_ctype v)) as L1. pose proof (large_byte t' (cval_ctype d)) as L2. rewrite <- Hb, <- L1 in L2.
    rewrite encode_form in *. destruct (large t (cval_ctype v)) eqn:EL.
    - apply other_large; try assumption; try lia; [apply type_byte_lt|right; congruence].
    - rewrite Hb in *. destruct Hc as [Hc|[Hc1 Hc2]]; [discriminate|]. apply other_small; try assumption.
      + apply small_payload; assumption.
      + intros pl E _. set (p := payload_of fl t v) in *. clearbody p.
        destruct (N.le_gt_cases (len n) (len n')) as [L|L].
        * apply Hc2. exists (take (len n' - len n) n'). 
          assert (E2 : drop (len p) (p ++ n) = n) by apply drop_len_app.
          assert (Hl : len p + len n = len pl + len n') by (rewrite <- !len_app, E; reflexivity).
          rewrite E in E2. rewrite drop_app_ge in E2 by lia. replace (len p - len pl) with (len n' - len n) in E2 by lia.
          rewrite <- E2 at 2. symmetry. apply take_drop.
        * apply Hc1. exists (take (len n - len n') n).
          assert (E2 : drop (len pl) (pl ++ n') = n') by apply drop_len_app.
          assert (Hl : len p + len n = len pl + len n') by (rewrite <- !len_app, E; reflexivity).
          rewrite <- E in E2. rewrite drop_app_ge in E2 by lia. replace (len pl - len p) with (len n - len n') in E2 by lia.
          rewrite <- E2 at 2. symmetry. apply take_drop. }
  destruct X as (x & s' & ->). cbn [bind]. failed.
Qed.

(** ** Sections *)
Lemma decides_section {T} key no (x0 x1 : T) body b A : len key <= 40 -> (forall fl, b fl <> []) -> decides body b A ->
  decides (sec_read key no x0 x1 body) (fun fl => large_block fl vt_subsection key (b fl)) A.
Proof.
  intros Hk Hb HR e h above f st pre post fl R Es Hal Hs. cbv beta in Es, Hal, Hs. unfold sec_read.
  rewrite (r_begin_ok e h key no _ st above f pre post fl R (Hb fl) Hk Es) by (unfold lim62, two64 in *; lia). cbn [bind negb].
  rewrite len_large_block in Hal, Hs.
  set (pos := len pre + len (large_block fl vt_subsection key (b fl))).
  set (s1 := rs_at (pre ++ large_head fl vt_subsection key (len (b fl))) (b fl ++ post) fl).
  pose proof (rready_child h above f st s1 pos R) as R1. cbn zeta in R1.
  destruct R as (E & Hid & Hn & F & Idl).
  destruct (HR e (r_next st) _ _ _ (pre ++ large_head fl vt_subsection key (len (b fl))) post fl R1 eq_refl) as (ok & x & st2 & E2 & P2);
    [lia|rewrite len_app, len_large_head; lia|].
  rewrite E2. cbn [bind negb]. destruct ok; [|failed]. destruct P2 as (Qx & (S2 & C2 & N2)). cbn [r_chain r_next] in C2, N2.
  pose proof (r_end_ok h st2 above f (rf_new (r_next st) pos) _ post fl C2 Hid Hn Idl S2) as X. cbn [rf_new rf_id rf_end] in X. cbn [negb]. rewrite X.
  - cbn [bind]. eexists true, _, _. split; [reflexivity|]. split; [exact Qx|]. split; [|split; [cbn; congruence|cbn; lia]].
    cbn [r_stream]. rewrite S2, large_block_head, <- !app_assoc. reflexivity.
  - unfold pos. rewrite !len_app, len_large_block, len_large_head. lia.
Qed.
Lemma begin_fail e h key no st above f s' : rready h above f st -> begin_read e vt_subsection key (r_stream st) = Done (0, s') ->
  exists st', r_begin e h key no st = Done (None, false, st').
Proof.
  intros R E. pose proof R as (Ec & Hid & Hn & F & I). unfold r_begin. rewrite Ec, split_at_mid by assumption. rewrite E. cbn [bind].
  rewrite N.eqb_refl. eauto.
Qed.
Lemma fails_section_absent {T} key (x0 x1 : T) body : len key <= 40 ->
  fails (sec_read key false x0 x1 body) (fun fl => large_block fl vt_subsection key []).
Proof.
  intros Hk e h above f st pre post fl R Es Hal Hs. cbv beta in *. unfold sec_read.
  pose proof R as (Ec & Hid & Hn & F & I). unfold r_begin. rewrite Ec, split_at_mid by assumption. rewrite Es.
  rewrite begin_read_ok; [|exact Hk|reflexivity|unfold lim62, two64 in *; lia]. cbn [bind].
  rewrite rs_at_pos, len_app, len_large_head, len_large_block, len_nil.
  destruct (N.eqb_spec (len pre + (10 + len key + 0)) 0) as [X|_]; [lia|].
  destruct (N.eqb_spec (len pre + (10 + len key + 0)) (len pre + (10 + len key))) as [_|X]; [|lia].
  cbn [end_read_empty st_ok bind negb]. failed.
Qed.
Lemma fails_section_name {T} key no (x0 x1 : T) body n b : len key <= 40 -> 0 < len key -> len n <= 40 -> key <> n ->
  fails (sec_read key no x0 x1 body) (fun fl => large_block fl vt_subsection n (b fl)).
Proof.
  intros Hk Hk0 Hn Hne e h above f st pre post fl R Es Hal Hs. cbv beta in *. unfold sec_read.
  destruct (begin_other e vt_subsection vt_subsection n key (b fl) pre post fl) as (s' & E); try assumption; try reflexivity; try lia; [right; exact Hne|].
  rewrite <- Es in E. destruct (begin_fail e h key no st above f s' R E) as (st' & ->). cbn [bind negb]. failed.
Qed.
Lemma fails_section_value {T} key no (x0 x1 : T) body t n v : len key <= 40 -> 0 < len key ->
  fails (sec_read key no x0 x1 body) (fun fl => encode fl t n v).
Proof.
  intros Hk Hk0 e h above f st pre post fl R Es Hal Hs. cbv beta in *. unfold sec_read.
  assert (E : exists s', begin_read e vt_subsection key (r_stream st) = Done (0, s')).
  { rewrite Es. unfold begin_read. destruct (encode_head fl t n v) as (r & Er). rewrite Er in *. cbn [app]. rewrite len_cons in Hs.
    rewrite rs_u8n; [|apply type_byte_lt|rewrite len_app; unfold lim62, two64 in *; lia]. cbn [bind].
    destruct (N.eqb_spec (type_byte t (cval_ctype v)) vt_subsection) as [X|_]; [|cbn [negb]; eauto].
    exfalso. destruct v; destruct t as [|[]|[]|[]|[] []|[] []|[] []|[] []|[]| | | | |]; cbn in X; discriminate. }
  destruct E as (s' & E). destruct (begin_fail e h key no st above f s' R E) as (st' & ->). cbn [bind negb]. failed.
Qed.
