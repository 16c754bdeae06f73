(** * Composition of write and read functions on section writers and readers. Proofs. *)
From Verif Require Import Base Bytes BytesFacts Values Streams FileSpec ReadSpec StreamFacts StreamProps Types Format
  Accept EntityWriter EntityReader EntityWriterFacts PackFacts ArrayWriterFacts EntityReaderFacts EntitySafety ArraySafety
  ReadTotal Items ItemSpec EntityProps Sections Documents DocSpec SectionFacts SectionReadFacts SectionTheorems.
Open Scope N_scope.

(** The write function appends [b fl] and leaves the writer as it was. *)
Definition writes (W : N -> wstate -> res (bool * wstate)) (b : bool -> list byte) : Prop :=
  forall h above f st c fl lim,
    wready h above f st -> ws_at (w_stream st) c fl lim -> 2 * (len c + len (b fl)) <= lim ->
    exists st', W h st = Done (true, st') /\ wpost st st' (c ++ b fl) fl lim.

(** The read function consumes [b fl] and delivers [x]. *)
Definition reads {T} (R : renv -> N -> rstate -> res (bool * T * rstate)) (b : bool -> list byte) (x : T) : Prop :=
  forall e h above f st pre post fl,
    rready h above f st -> r_stream st = rs_at pre (b fl ++ post) fl ->
    4 * len (b fl) <= e_lim e -> len pre + len (b fl) + len post < two64 ->
    exists st', R e h st = Done (true, x, st') /\ rpost st st' (rs_at (pre ++ b fl) post fl).

Lemma wready_keep h above f st st' : wready h above f st -> w_chain st' = w_chain st -> w_next st <= w_next st' -> wready h above f st'.
Proof.
  intros (E & Hid & Hn & F & I) C N. split; [congruence|]. split; [auto|]. split; [auto|]. split; [|auto].
  rewrite C. eapply Forall_impl; [|exact F]. cbn. intros; lia.
Qed.
Lemma rready_keep h above f st st' : rready h above f st -> r_chain st' = r_chain st -> r_next st <= r_next st' -> rready h above f st'.
Proof.
  intros (E & Hid & Hn & F & I) C N. split; [congruence|]. split; [auto|]. split; [auto|]. split; [|auto].
  rewrite C. eapply Forall_impl; [|exact F]. cbn. intros; lia.
Qed.

Lemma writes_nodes l : nodes_ok l -> writes (fun h st => write_nodes h l st) (fun fl => nodes_bytes fl l).
Proof.
  intros Hok h above f st c fl lim R H Hl. destruct write_doc_at as (_ & W & _).
  destruct (W l h above f st c fl lim R H Hok Hl) as (st' & E & P). exists st'. auto.
Qed.

Lemma writes_item t key v : item_ok (Item t key v) -> writes (fun h st => w_write h t key v st) (fun fl => encode fl t key v).
Proof.
  intros Hok h above f st c fl lim R H Hl. destruct write_doc_at as (W & _).
  destruct (W (NItem (Item t key v)) h above f st c fl lim R H Hok Hl) as (st' & E & P). exists st'. auto.
Qed.

Lemma writes_nil : writes (fun h st => Done (true, st)) (fun _ => []).
Proof. intros h above f st c fl lim R H Hl. exists st. split; auto. split; [rewrite app_nil_r; auto|]. split; [auto|lia]. Qed.

Lemma writes_seq W1 W2 b1 b2 : writes W1 b1 -> writes W2 b2 ->
  writes (fun h st => do r <- W1 h st; let '(ok, st1) := r in if (ok : bool) then W2 h st1 else Done (false, st1))
    (fun fl => b1 fl ++ b2 fl).
Proof.
  intros H1 H2 h above f st c fl lim R H Hl. rewrite len_app in Hl.
  destruct (H1 h above f st c fl lim R H) as (st1 & E1 & (S1 & C1 & N1)); [lia|].
  destruct (H2 h above f st1 _ fl lim (wready_keep _ _ _ _ _ R C1 N1) S1) as (st2 & E2 & (S2 & C2 & N2)); [rewrite len_app; lia|].
  exists st2. rewrite E1. cbn [bind]. split; [exact E2|]. rewrite app_assoc. split; [exact S2|]. split; [congruence|lia].
Qed.

Lemma writes_ext W W' b b' : writes W b -> (forall h st, W' h st = W h st) -> (forall fl, b' fl = b fl) -> writes W' b'.
Proof. intros H E Eb h above f st c fl lim R S L. rewrite Eb in *. rewrite E. apply (H h above f); auto. Qed.

(** BeginWriteSection, body, EndWriteSection. *)
Lemma writes_section key body b : len key <= 40 -> writes body b ->
  writes (fun h st =>
    do r <- w_begin h key st; let '(c, st1) := r in
    match c with
    | None => Done (false, st1)
    | Some hc =>
      do r2 <- body hc st1; let '(ok, st2) := r2 in
      if (ok : bool) then w_end h (Some hc) st2 else Done (false, st2)
    end) (fun fl => large_block fl vt_subsection key (b fl)).
Proof.
  intros Hk Hb h above f st c fl lim R H Hl. rewrite len_large_block in Hl.
  destruct (begin_section_at h key st above f c fl lim R H Hk) as (s1 & E1 & H1); [lia|]. rewrite E1. cbn [bind].
  pose proof (wready_child h above f st s1 (len c) R) as R1. cbn zeta in R1.
  destruct (Hb _ _ _ _ _ fl lim R1 H1) as (st2 & E2 & (H2 & C2 & N2)); [rewrite len_app, len_large_open; lia|].
  cbn [w_chain w_next] in *. rewrite E2. cbn [bind]. destruct R as (E & Hid & Hn & F & I).
  rewrite <- app_assoc in H2.
  destruct (end_section_at h key (b fl) st2 above f (w_next st) (len c) 0 ones 0 [] c fl lim C2 Hid Hn eq_refl H2 Hk) as (s3 & E3 & H3); [lia|].
  exists (WSt s3 (above ++ [f]) (w_next st2)). split; [exact E3|]. split; [exact H3|]. cbn. split; [congruence|lia].
Qed.

Lemma reads_item t key v dest : item_ok (Item t key v) -> cval_ctype dest = cval_ctype v -> cval_ok t dest -> replaced t dest ->
  reads (fun e h st => r_read e h t key dest st) (fun fl => encode fl t key v) v.
Proof.
  intros (Hv & Hk) Hc Hd Hr e h above f st pre post fl R Es Hal Hs. cbn [i_type i_key i_val] in *.
  pose proof R as (E & Hid & Hn & F & I). unfold r_read. rewrite E, split_at_mid by assumption.
  rewrite Es, er_read_delivered by (try assumption; congruence). cbn [bind].
  rewrite replaced_delivered by assumption. eexists. split; [reflexivity|]. split; [reflexivity|]. split; [cbn; congruence|cbn; lia].
Qed.

Lemma reads_seq {T U} (R1 : renv -> N -> rstate -> res (bool * T * rstate)) (R2 : T -> renv -> N -> rstate -> res (bool * U * rstate)) (fail : T -> U) b1 b2 x y :
  reads R1 b1 x -> reads (R2 x) b2 y ->
  reads (fun e h st => do r <- R1 e h st; let '(ok, v, st1) := r in if (ok : bool) then R2 v e h st1 else Done (false, fail v, st1))
    (fun fl => b1 fl ++ b2 fl) y.
Proof.
  intros H1 H2 e h above f st pre post fl R Es Hal Hs. rewrite len_app in Hal, Hs.
  destruct (H1 e h above f st pre (b2 fl ++ post) fl R) as (st1 & E1 & (S1 & C1 & N1)); [rewrite Es, <- app_assoc; auto|lia|rewrite len_app; lia|].
  destruct (H2 e h above f st1 (pre ++ b1 fl) post fl (rready_keep _ _ _ _ _ R C1 N1) S1) as (st2 & E2 & (S2 & C2 & N2)); [lia|rewrite len_app; lia|].
  exists st2. rewrite E1. cbn [bind]. split; [exact E2|]. split; [rewrite app_assoc; exact S2|]. split; [congruence|lia].
Qed.
Lemma reads_ext {T} (R R' : renv -> N -> rstate -> res (bool * T * rstate)) b b' x : reads R b x -> (forall e h st, R' e h st = R e h st) -> (forall fl, b' fl = b fl) -> reads R' b' x.
Proof. intros H E Eb e h above f st pre post fl Q Es H1 H2. rewrite Eb in *. rewrite E. apply (H e h above f); auto. Qed.
Lemma reads_map {T U} (R : renv -> N -> rstate -> res (bool * T * rstate)) (k : bool -> T -> U) b x :
  reads R b x -> reads (fun e h st => do r <- R e h st; let '(ok, v, st1) := r in Done (ok, k ok v, st1)) b (k true x).
Proof.
  intros H e h above f st pre post fl Q Es H1 H2. destruct (H e h above f st pre post fl Q Es H1 H2) as (st1 & E1 & P).
  exists st1. rewrite E1. cbn [bind]. auto.
Qed.

(** From a fresh stream and back. *)
Lemma writes_open W b init lim fl : writes W b -> room init lim (len (b fl)) ->
  exists s0 st, fresh init lim fl = Done s0 /\ W 0 (w_open s0) = Done (true, st) /\
    ws_data (w_stream st) = b fl /\ ws_pos (w_stream st) = len (b fl).
Proof.
  intros HW (R1 & R2 & R3 & R4). destruct (fresh_at init lim fl R1 R2 R3) as (s0 & E0 & H0).
  destruct (HW 0 [] (wf_new 0 s0) (w_open s0) [] fl lim (wready_open s0) H0) as (st & E & (H & _)); [rewrite len_nil; lia|].
  exists s0, st. cbn [app] in H. split; [exact E0|]. split; [exact E|].
  split; [apply (ws_at_data _ _ _ _ H)|apply (ws_at_pos _ _ _ _ H)].
Qed.
Lemma reads_open {T} R b (x : T) e fl post : reads R b x -> read_room e (len (b fl)) (len (b fl) + len post) ->
  exists st', R e 0 (r_open (RS (b fl ++ post) 0 fl)) = Done (true, x, st') /\
    r_stream st' = RS (b fl ++ post) (len (b fl)) fl.
Proof.
  intros HR (R1 & R2). set (s := RS (b fl ++ post) 0 fl).
  destruct (HR e 0 [] (rf_new 0 (rs_size s)) (r_open s) [] post fl (rready_open s) eq_refl R1) as (st' & E' & (S' & _));
    [rewrite len_nil; lia|].
  exists st'. split; [exact E'|]. rewrite S'. cbn [app]. reflexivity.
Qed.
Lemma roundtrip {T} W (R : T -> renv -> N -> rstate -> res (bool * T * rstate)) b x init lim fl (good : T -> Prop) :
  writes W b -> (forall d, good d -> reads (R d) b x) -> room init lim (len (b fl)) ->
  exists s0 st, fresh init lim fl = Done s0 /\ W 0 (w_open s0) = Done (true, st) /\ ws_data (w_stream st) = b fl /\
    forall e d post, good d -> read_room e (ws_pos (w_stream st)) (ws_pos (w_stream st) + len post) ->
      exists st', R d e 0 (r_open (RS (ws_data (w_stream st) ++ post) 0 fl)) = Done (true, x, st') /\
        r_stream st' = RS (ws_data (w_stream st) ++ post) (ws_pos (w_stream st)) fl.
Proof.
  intros HW HR Hroom. destruct (writes_open W b init lim fl HW Hroom) as (s0 & st & E0 & E & Hd & Hp).
  exists s0, st. split; [auto|]. split; [auto|]. split; [auto|]. intros e d post Gd Hr. rewrite Hd, Hp in *.
  apply reads_open; auto.
Qed.

(** ** Reading, up to a property of the result *)
Definition readsP {T} (R : renv -> N -> rstate -> res (bool * T * rstate)) (b : bool -> list byte) (Q : T -> Prop) : Prop :=
  forall e h above f st pre post fl,
    rready h above f st -> r_stream st = rs_at pre (b fl ++ post) fl ->
    4 * len (b fl) <= e_lim e -> len pre + len (b fl) + len post < two64 ->
    exists x st', R e h st = Done (true, x, st') /\ Q x /\ rpost st st' (rs_at (pre ++ b fl) post fl).

Lemma reads_P {T} R b (x : T) (Q : T -> Prop) : reads R b x -> Q x -> readsP R b Q.
Proof.
  intros H HQ e h above f st pre post fl H1 H2 H3 H4. destruct (H e h above f st pre post fl H1 H2 H3 H4) as (st' & E & P).
  exists x, st'. auto.
Qed.
Lemma readsP_imp {T} R b (P Q : T -> Prop) : readsP R b P -> (forall x, P x -> Q x) -> readsP R b Q.
Proof.
  intros H HQ e h above f st pre post fl H1 H2 H3 H4. destruct (H e h above f st pre post fl H1 H2 H3 H4) as (x & st' & E & P' & P'').
  exists x, st'. auto.
Qed.
Lemma readsP_eq {T} R b (x : T) : readsP R b (eq x) -> reads R b x.
Proof.
  intros H e h above f st pre post fl H1 H2 H3 H4. destruct (H e h above f st pre post fl H1 H2 H3 H4) as (y & st' & E & <- & P).
  exists st'. auto.
Qed.
Lemma readsP_seq {T V} (R1 : renv -> N -> rstate -> res (bool * T * rstate)) (R2 : T -> renv -> N -> rstate -> res (bool * V * rstate)) (fail : T -> V) b1 b2 P Q :
  readsP R1 b1 P -> (forall x, P x -> readsP (R2 x) b2 Q) ->
  readsP (fun e h st => do r <- R1 e h st; let '(ok, v, st1) := r in if (ok : bool) then R2 v e h st1 else Done (false, fail v, st1))
    (fun fl => b1 fl ++ b2 fl) Q.
Proof.
  intros H1 H2 e h above f st pre post fl R Es Hal Hs. rewrite len_app in Hal, Hs.
  destruct (H1 e h above f st pre (b2 fl ++ post) fl R) as (x & st1 & E1 & Px & (S1 & C1 & N1)); [rewrite Es, <- app_assoc; auto|lia|rewrite len_app; lia|].
  destruct (H2 x Px e h above f st1 (pre ++ b1 fl) post fl (rready_keep _ _ _ _ _ R C1 N1) S1) as (y & st2 & E2 & Qy & (S2 & C2 & N2)); [lia|rewrite len_app; lia|].
  exists y, st2. rewrite E1. cbn [bind]. split; [exact E2|]. split; [exact Qy|]. split; [rewrite app_assoc; exact S2|]. split; [congruence|lia].
Qed.
Lemma readsP_ext {T} (R R' : renv -> N -> rstate -> res (bool * T * rstate)) b b' Q : readsP R b Q -> (forall e h st, R' e h st = R e h st) -> (forall fl, b' fl = b fl) -> readsP R' b' Q.
Proof. intros H E Eb e h above f st pre post fl X Es H1 H2. rewrite Eb in *. rewrite E. apply (H e h above f); auto. Qed.
Lemma readsP_map {T V} (R : renv -> N -> rstate -> res (bool * T * rstate)) (k : bool -> T -> V) b (P : T -> Prop) (Q : V -> Prop) :
  readsP R b P -> (forall x, P x -> Q (k true x)) -> readsP (fun e h st => do r <- R e h st; let '(ok, v, st1) := r in Done (ok, k ok v, st1)) b Q.
Proof.
  intros H HQ e h above f st pre post fl X Es H1 H2. destruct (H e h above f st pre post fl X Es H1 H2) as (x & st1 & E1 & Px & P').
  exists (k true x), st1. rewrite E1. cbn [bind]. auto.
Qed.
Lemma roundtripP {T} W (R : T -> renv -> N -> rstate -> res (bool * T * rstate)) b (Q : T -> Prop) init lim fl (good : T -> Prop) :
  writes W b -> (forall d, good d -> readsP (R d) b Q) -> room init lim (len (b fl)) ->
  exists s0 st, fresh init lim fl = Done s0 /\ W 0 (w_open s0) = Done (true, st) /\ ws_data (w_stream st) = b fl /\
    forall e d post, good d -> read_room e (ws_pos (w_stream st)) (ws_pos (w_stream st) + len post) ->
      exists x st', R d e 0 (r_open (RS (ws_data (w_stream st) ++ post) 0 fl)) = Done (true, x, st') /\ Q x /\
        r_stream st' = RS (ws_data (w_stream st) ++ post) (ws_pos (w_stream st)) fl.
Proof.
  intros HW HR Hroom. destruct (writes_open W b init lim fl HW Hroom) as (s0 & st & E0 & E & Hd & Hp).
  exists s0, st. split; [auto|]. split; [auto|]. split; [auto|]. intros e d post Gd (R1 & R2). rewrite Hd, Hp in *.
  set (s := RS (b fl ++ post) 0 fl).
  destruct (HR d Gd e 0 [] (rf_new 0 (rs_size s)) (r_open s) [] post fl (rready_open s) eq_refl R1) as (x & st' & E' & Qx & (S' & _));
    [rewrite len_nil; lia|].
  exists x, st'. split; [exact E'|]. split; [exact Qx|]. rewrite S'. cbn [app]. reflexivity.
Qed.
