(** * Reading data that was cut off. Proofs. *)
From Verif Require Import Base Bytes BytesFacts Values Streams FileSpec ReadSpec StreamFacts StreamProps Types Format
  Accept EntityWriter EntityReader EntityWriterFacts PackFacts ArrayWriterFacts EntityReaderFacts EntitySafety ArraySafety
  ReadTotal Items ItemSpec EntityProps Sections Documents DocSpec SectionFacts SectionReadFacts SectionTheorems CodecFacts TruncSpec.
Open Scope N_scope.

Lemma len_pos (q : list byte) : q <> [] -> 0 < len q.
Proof. destruct q; [congruence|]. rewrite len_cons. lia. Qed.

(** ** Block headers *)
Lemma wp_done {A} (m : res A) P : wp m P False -> exists a, m = Done a /\ P a.
Proof. destruct m; cbn; try contradiction. eauto. Qed.

(** The size of a large block that starts like a given one. *)
Lemma num_prefix_inj fl n m p q r : n < two64 -> m < two64 -> num W64 fl n ++ r = p -> num W64 fl m ++ q = p -> n = m.
Proof.
  intros Hn Hm E1 E2. subst p. apply (f_equal (take 8)) in E2. rewrite !take_app_exact in E2 by (rewrite len_num; reflexivity).
  unfold num in E2. cbn [stored] in E2. cbn [wbytes] in E2.
  change (N.to_nat 8) with 8%nat in E2.
  assert (E : le 8 n = le 8 m) by (destruct fl; [apply (f_equal (@rev _)) in E2; rewrite !rev_involutive in E2|]; congruence).
  apply (f_equal of_le) in E. rewrite !of_le_le_small in E by assumption. exact E.
Qed.

Lemma begin_cut e vt key payload pre p q fl :
  len key <= 40 -> 0 < len key -> 0 < vt -> vt < 256 ->
  large_block fl vt key payload = p ++ q -> q <> [] -> len pre + len (large_block fl vt key payload) < lim62 ->
  exists s', begin_read e vt key (rs_at pre p fl) = Done (0, s').
Proof.
  intros Hk Hk0 Hvt Hvt2 E Hq Hs. apply len_pos in Hq.
  assert (Hlen : len p + len q = 10 + len key + len payload) by (rewrite <- len_app, <- E, len_large_block; lia).
  rewrite len_large_block in Hs.
  assert (Hs' : small_rs pre p) by (unfold small_rs; lia).
  destruct (wp_done _ _ (begin_read_gen e vt key pre p fl Hk Hk0 Hvt Hs')) as ((ex & s') & Eb & _ & [->|B]); [eauto|].
  exfalso. destruct B as (bs & Hbs & -> & Hle & B).
  assert (bs = 1 + len key + len payload) as ->.
  { assert (Hp : exists r, p = n2b vt :: num W64 fl bs ++ r).
    { destruct B as [(rest & -> & _)|(k' & _ & -> & _)]; unfold header; cbn [app]; rewrite <- ?app_assoc; eauto. }
    destruct Hp as (r & ->). unfold large_block in E. cbn [app] in E. injection E as E. rewrite <- app_assoc in E.
    symmetry. eapply num_prefix_inj; [| |exact E|reflexivity]; unfold two64, lim62 in *; lia. }
  rewrite add64_small in Hle by (unfold two64, lim62 in *; lia). lia.
Qed.

(** ** Items *)
Lemma small_cut e vt k n key payload empty_ok dest pre p q fl :
  len key <= 40 -> 0 < len key -> 0 < vt -> vt < 256 -> n * ksize k <= 128 -> 0 < n -> len dest = n * ksize k ->
  (payload = [] \/ len payload = n * ksize k) ->
  small_block vt key payload = p ++ q -> q <> [] -> len pre + len (small_block vt key payload) < lim62 ->
  exists d s', read_pod e vt k n key empty_ok dest (rs_at pre p fl) = Done (SFail, d, s').
Proof.
  intros Hk Hk0 Hvt Hvt2 Hn Hn0 Hd Hpl E Hq Hs. apply len_pos in Hq.
  assert (Hlen : len p + len q = 2 + len payload + len key) by (rewrite <- len_app, <- E, len_small_block; lia).
  rewrite len_small_block in Hs. assert (Hs' : small_rs pre p) by (unfold small_rs; lia).
  destruct (wp_done _ _ (read_pod_gen e vt k n key empty_ok dest pre p fl Hk Hk0 Hvt Hn Hn0 Hd Hs')) as (((st & d) & s') & Er & _ & Hl & B).
  assert (Hpl2 : len payload <= 128) by (destruct Hpl as [->|]; [rewrite len_nil|]; lia).
  assert (X : forall pl rest, len pl <= 128 -> p = small_block vt key pl ++ rest -> False).
  { intros pl rest Hpl3 ->. unfold small_block in E. cbn [app] in E. injection E as E1 E2.
    apply (f_equal b2n) in E1. rewrite !b2n_n2b in E1. rewrite !N.mod_small in E1 by lia.
    rewrite len_app, len_small_block in Hlen. lia. }
  destruct st; [eauto| |].
  - destruct B as (_ & rest & B & _). destruct (X [] rest); auto. rewrite len_nil. lia.
  - destruct B as (rest & B & _). exfalso. refine (X _ rest _ B). rewrite len_element_bytes by congruence. lia.
Qed.

Lemma single_cut e t key v empty_ok dest pre p q fl :
  len key <= 40 -> 0 < len key -> val_ok t dest -> (match v with Some x => val_ok t x | None => True end) ->
  single_block fl t key v = p ++ q -> q <> [] -> len pre + len (single_block fl t key v) < lim62 ->
  exists d s', read_single e (vt_single t) (dshape t) key empty_ok dest (rs_at pre p fl) = Done (SFail, d, s').
Proof.
  intros Hk Hk0 Hd Hv E Hq Hs. pose proof (vt_single_pos t) as P1. pose proof (vt_single_lt t) as P2.
  unfold single_block, val_ok in *. pose proof (dshape_ok t) as Hok. pose proof (pod_size_small t) as Hsm.
  destruct (dshape t) as [| |k n] eqn:Es; cbn [read_single].
  - unfold read_bool. edestruct (small_cut e (vt_single t) (KW W8) 1 key ltac:(match type of E with small_block _ _ ?pl = _ => exact pl end) empty_ok (junk e 1) pre p q fl) as (d & s' & ->);
      [..|exact E|exact Hq|exact Hs|]; cbn [ksize wbytes]; try assumption; try lia.
    + rewrite len_junk. reflexivity.
    + destruct v as [x|]; [right; reflexivity|left; reflexivity].
    + cbn [bind]. eauto.
  - unfold read_string. edestruct begin_cut as (s' & ->); [..|exact E|exact Hq|exact Hs|]; try assumption. cbn [bind]. rewrite N.eqb_refl. cbn [bind]. eauto.
  - destruct dest as [|s|img]; cbn in Hd; try contradiction.
    edestruct (small_cut e (vt_single t) k n key ltac:(match type of E with small_block _ _ ?pl = _ => exact pl end) empty_ok img pre p q fl) as (d & s' & E1);
      [..|exact E|exact Hq|exact Hs|]; try assumption.
    + eapply Hsm. reflexivity.
    + destruct v as [x|]; [right|left; reflexivity]. destruct x; cbn in Hv; try contradiction. cbn [the_image].
      rewrite len_element_bytes by exact Hv. reflexivity.
    + cbn [pod_image]. rewrite E1. cbn [bind]. eauto.
Qed.
Lemma array_cut e t key a empty_ok dest ix pre p q fl :
  len key <= 40 -> 0 < len key -> array_block fl t key a = p ++ q -> q <> [] -> len pre + len (array_block fl t key a) < lim62 ->
  exists s', read_array e (vt_array t) (dshape t) key empty_ok dest ix (rs_at pre p fl) = Done (SFail, dest, ix, s').
Proof.
  intros Hk Hk0 E Hq Hs. pose proof (vt_array_pos t) as P1. pose proof (vt_array_lt t) as P2. unfold array_block in *.
  unfold read_array. edestruct begin_cut as (s' & ->); [..|exact E|exact Hq|exact Hs|]; try assumption. cbn [bind]. rewrite N.eqb_refl. eauto.
Qed.

Lemma plain_cut e t key v dest pre p q fl : item_ok (Item t key v) -> 0 < len key -> cval_ctype dest = cval_ctype v -> cval_ok t dest ->
  encode fl t key v = p ++ q -> q <> [] -> len pre + len (encode fl t key v) < lim62 ->
  exists d s', er_read_plain e t key dest (rs_at pre p fl) = Done (false, d, s').
Proof.
  intros (Hv & Hk) Hk0 Hc Hd E Hq Hs. cbn [i_type i_key i_val] in *.
  destruct dest, v; try discriminate Hc; cbn [encode er_read_plain cval_ok] in *.
  - edestruct single_cut as (d & s' & ->); [..|exact E|exact Hq|exact Hs|]; try assumption. cbn [bind st_ok]. eauto.
  - edestruct single_cut as (d & s' & ->); [..|exact E|exact Hq|exact Hs|]; try assumption; [apply val_default_ok|]. cbn [bind st_ok]. eauto.
  - edestruct array_cut as (s' & ->); [..|exact E|exact Hq|exact Hs|]; try assumption. cbn [bind st_ok]. eauto.
  - edestruct array_cut as (s' & ->); [..|exact E|exact Hq|exact Hs|]; try assumption. cbn [bind st_ok]. eauto.
  - edestruct array_cut as (s' & ->); [..|exact E|exact Hq|exact Hs|]; try assumption. cbn [bind st_ok]. eauto.
  - edestruct array_cut as (s' & ->); [..|exact E|exact Hq|exact Hs|]; try assumption. cbn [bind st_ok]. eauto.
Qed.

Lemma item_cut e t key v dest pre p q fl : item_ok (Item t key v) -> 0 < len key -> cval_ctype dest = cval_ctype v -> cval_ok t dest ->
  encode fl t key v = p ++ q -> q <> [] -> len pre + len (encode fl t key v) < lim62 ->
  exists d s', er_read e t key dest (rs_at pre p fl) = Done (false, d, s').
Proof.
  intros (Hv & Hk) Hk0 Hc Hd E Hq Hs. cbn [i_type i_key i_val] in *.
  assert (X : forall t', cval_ok t' v -> encode fl t key v = encode fl t' key v ->
     exists d s', er_read_override e t' key dest (rs_at pre p fl) = Done (false, d, s')).
  { intros t' Hv' He. unfold er_read_override. rewrite He in *.
    destruct (plain_cut e t' key v (cval_default t' (cval_ctype dest)) pre p q fl) as (d & s' & ->); auto.
    - split; assumption.
    - rewrite cval_default_ctype. exact Hc.
    - apply cval_default_ok.
    - cbn [bind negb]. eauto. }
  unfold er_read. destruct t; try (apply plain_cut with (v := v) (q := q); auto; split; assumption); apply X; auto; try reflexivity; destruct v; try exact Hv; reflexivity.
Qed.

(** ** Composition *)
(** The read function fails, without throwing and without undefined behaviour, when it meets a proper
    prefix of [b fl] at the end of the stream. *)
Definition cuts {T} (R : renv -> N -> rstate -> res (bool * T * rstate)) (b : bool -> list byte) : Prop :=
  forall e h above f st pre p q fl,
    rready h above f st -> b fl = p ++ q -> q <> [] -> r_stream st = rs_at pre p fl ->
    4 * len (b fl) <= e_lim e -> len pre + len (b fl) < lim62 ->
    exists x st', R e h st = Done (false, x, st').

Lemma cuts_nil {T} (R : renv -> N -> rstate -> res (bool * T * rstate)) : cuts R (fun _ => []).
Proof. intros e h above f st pre p q fl _ E Hq. destruct p, q; try discriminate. congruence. Qed.
Lemma cuts_item t key v dest : item_ok (Item t key v) -> 0 < len key -> cval_ctype dest = cval_ctype v -> cval_ok t dest ->
  cuts (fun e h st => r_read e h t key dest st) (fun fl => encode fl t key v).
Proof.
  intros Hi Hk0 Hc Hd e h above f st pre p q fl R E Hq Es Hal Hs.
  pose proof R as (Ec & Hid & Hn & F & I). unfold r_read. rewrite Ec, split_at_mid by assumption. rewrite Es.
  destruct (item_cut e t key v dest pre p q fl Hi Hk0 Hc Hd E Hq Hs) as (d & s' & ->). cbn [bind]. eauto.
Qed.
Lemma cuts_ext {T} (R R' : renv -> N -> rstate -> res (bool * T * rstate)) b b' : cuts R b -> (forall e h st, R' e h st = R e h st) -> (forall fl, b' fl = b fl) -> cuts R' b'.
Proof. intros H E Eb e h above f st pre p q fl X E1 Hq Es H1 H2. rewrite Eb in *. rewrite E. apply (H e h above f st pre p q fl); auto. Qed.
Lemma cuts_map {T V} (R : renv -> N -> rstate -> res (bool * T * rstate)) (k : bool -> T -> V) b :
  cuts R b -> cuts (fun e h st => do r <- R e h st; let '(ok, v, st1) := r in Done (ok, k ok v, st1)) b.
Proof.
  intros H e h above f st pre p q fl X E Hq Es H1 H2. destruct (H e h above f st pre p q fl X E Hq Es H1 H2) as (x & st1 & ->). cbn [bind]. eauto.
Qed.
Lemma cuts_seq {T V} (R1 : renv -> N -> rstate -> res (bool * T * rstate)) (R2 : T -> renv -> N -> rstate -> res (bool * V * rstate)) (fail : T -> V) b1 b2 (P : T -> Prop) :
  readsP R1 b1 P -> cuts R1 b1 -> (forall x, P x -> cuts (R2 x) b2) ->
  cuts (fun e h st => do r <- R1 e h st; let '(ok, v, st1) := r in if (ok : bool) then R2 v e h st1 else Done (false, fail v, st1))
    (fun fl => b1 fl ++ b2 fl).
Proof.
  intros H1 C1 H2 e h above f st pre p q fl R E Hq Es Hal Hs. rewrite len_app in Hal, Hs.
  assert (X : (exists q1, q1 <> [] /\ b1 fl = p ++ q1) \/ (exists p2, p = b1 fl ++ p2 /\ b2 fl = p2 ++ q)).
  { destruct (app_eq_app _ _ _ _ E) as (l & [(A & B)|(A & B)]).
    - destruct l; [right; exists []; rewrite app_nil_r in *; cbn in B; auto|left; exists (b :: l); split; [discriminate|exact A]].
    - right. exists l. auto. }
  destruct X as [(q1 & Hq1 & E1)|(p2 & -> & E2)].
  - destruct (C1 e h above f st pre p q1 fl R E1 Hq1 Es) as (x & st1 & ->); [lia|lia|]. cbn [bind]. eauto.
  - assert (len p2 <= len (b2 fl)) by (rewrite E2, len_app; lia).
    destruct (H1 e h above f st pre p2 fl R Es) as (x & st1 & E1 & Px & (S1 & Ch & N1)); [lia|unfold two64, lim62 in *; lia|].
    destruct (H2 x Px e h above f st1 (pre ++ b1 fl) p2 q fl (rready_keep _ _ _ _ _ R Ch N1) E2 Hq S1) as (y & st2 & E3); [lia|rewrite len_app; lia|].
    rewrite E1. cbn [bind]. eauto.
Qed.

(** Sections and arrays of sections: the Begin call fails. *)
Lemma section_cut e h key no payload st above f pre p q fl : rready h above f st -> len key <= 40 -> 0 < len key ->
  large_block fl vt_subsection key payload = p ++ q -> q <> [] -> r_stream st = rs_at pre p fl ->
  len pre + len (large_block fl vt_subsection key payload) < lim62 ->
  exists st', r_begin e h key no st = Done (None, false, st').
Proof.
  intros R Hk Hk0 E Hq Es Hs. pose proof R as (Ec & Hid & Hn & F & I). unfold r_begin. rewrite Ec, split_at_mid by assumption. rewrite Es.
  edestruct begin_cut as (s' & ->); [..|exact E|exact Hq|exact Hs|]; try assumption; [reflexivity|reflexivity|]. cbn [bind]. rewrite N.eqb_refl. eauto.
Qed.
Lemma array_section_cut e h key no ix payload st above f pre p q fl : rready h above f st -> len key <= 40 -> 0 < len key ->
  large_block fl vt_array_subsection key payload = p ++ q -> q <> [] -> r_stream st = rs_at pre p fl ->
  len pre + len (large_block fl vt_array_subsection key payload) < lim62 ->
  exists st', r_begin_arr e h key no ix st = Done (None, 0, false, ix, st').
Proof.
  intros R Hk Hk0 E Hq Es Hs. pose proof R as (Ec & Hid & Hn & F & I). unfold r_begin_arr. rewrite Ec, split_at_mid by assumption. rewrite Es.
  edestruct begin_cut as (s' & ->); [..|exact E|exact Hq|exact Hs|]; try assumption; [reflexivity|reflexivity|]. cbn [bind]. rewrite N.eqb_refl. eauto.
Qed.

(** ** Documents *)
Lemma node_cuts w r : node_ok w -> 0 < len (node_key w) -> node_mirrors w r -> cuts (fun e h st => read_node e h r st) (fun fl => node_bytes fl w).
Proof.
  intros Hok Hk0 Hm. destruct w as [i|k b|k|k ix b|k]; destruct r as [j|k' b'|k'|k' ix' b'|k']; cbn [node_mirrors] in Hm; try contradiction; cbn [node_ok node_key] in Hok, Hk0.
  - destruct i as [t key v], j as [t' key' d]. destruct Hm as ((E1 & E2 & E3 & E4) & _). cbn [i_type i_key i_val] in *. subst t' key'.
    exact (cuts_map _ (fun _ v => NItem (Item t key v)) _ (cuts_item t key v d Hok Hk0 E3 E4)).
  - destruct Hm as (<- & _). destruct Hok as (Hk & _). intros e h above f st pre p q fl R E Hq Es Hal Hs. cbn [read_node].
    edestruct section_cut as (st' & ->); [exact R|exact Hk|exact Hk0|exact E|exact Hq|exact Es|exact Hs|]. cbn [bind]. eauto.
  - destruct Hm as (<- & _). destruct Hok as (Hk & _). intros e h above f st pre p q fl R E Hq Es Hal Hs. cbn [read_node].
    edestruct section_cut as (st' & ->); [exact R|exact Hk|exact Hk0|exact E|exact Hq|exact Es|exact Hs|]. cbn [bind]. eauto.
  - subst k'. intros e h above f st pre p q fl R E Hq Es Hal Hs. cbn [read_node].
    edestruct section_cut as (st' & ->); [exact R|exact Hok|exact Hk0|exact E|exact Hq|exact Es|exact Hs|]. cbn [bind]. eauto.
  - subst k'. intros e h above f st pre p q fl R E Hq Es Hal Hs. cbn [read_node].
    edestruct section_cut as (st' & ->); [exact R|exact Hok|exact Hk0|exact E|exact Hq|exact Es|exact Hs|]. cbn [bind]. eauto.
  - destruct Hm as (<- & _). destruct Hok as (Hk & _). intros e h above f st pre p q fl R E Hq Es Hal Hs. cbn [read_node].
    edestruct array_section_cut as (st' & ->); [exact R|exact Hk|exact Hk0|exact E|exact Hq|exact Es|exact Hs|]. cbn [bind]. eauto.
  - subst k'. intros e h above f st pre p q fl R E Hq Es Hal Hs. cbn [read_node].
    edestruct array_section_cut as (st' & ->); [exact R|exact Hok|exact Hk0|exact E|exact Hq|exact Es|exact Hs|]. cbn [bind]. eauto.
  - subst k'. intros e h above f st pre p q fl R E Hq Es Hal Hs. cbn [read_node].
    edestruct array_section_cut as (st' & ->); [exact R|exact Hok|exact Hk0|exact E|exact Hq|exact Es|exact Hs|]. cbn [bind]. eauto.
Qed.

Lemma node_reads w r : node_ok w -> node_mirrors w r -> reads (fun e h st => read_node e h r st) (fun fl => node_bytes fl w) (node_seen w).
Proof.
  intros Hok Hm e h above f st pre post fl R Es Hal Hs. destruct read_doc_ok as (H & _).
  exact (H w r e h above f st pre post fl Hm Hok R Es Hal Hs).
Qed.
Lemma nodes_cuts w : forall r, nodes_ok w -> nodes_keyed w -> nodes_mirror w r ->
  cuts (fun e h st => read_nodes e h r st) (fun fl => nodes_bytes fl w).
Proof.
  induction w as [|n w IH]; intros [|n' r] Hok Hk Hm; cbn [nodes_mirror] in Hm; try contradiction; [apply cuts_nil|].
  destruct Hok as (O1 & O2), Hk as (K1 & K2), Hm as (M1 & M2).
  pose proof (cuts_seq _ (fun x e h st => do r2 <- read_nodes e h r st; let '(ok2, r', st2) := r2 in Done (ok2, Cons x r', st2)) (fun x => Cons x Nil) _ _ (eq (node_seen n))
    (reads_P _ _ _ _ (node_reads n n' O1 M1) eq_refl) (node_cuts n n' O1 K1 M1) (fun x _ => cuts_map _ (fun _ r' => Cons x r') _ (IH r O2 K2 M2))) as Q.
  eapply cuts_ext; [exact Q| |reflexivity]. intros e h st. cbn [read_nodes].
  destruct (read_node e h n' st) as [[[[] x] st1]| |]; reflexivity.
Qed.

(** Lists of items, without sections. *)
Lemma items_cut ws : forall rs e pre p q fl, Forall item_ok ws -> Forall (fun i => 0 < len (i_key i)) ws -> Forall2 mirrors ws rs ->
  items_image fl ws = p ++ q -> q <> [] -> 4 * len (items_image fl ws) <= e_lim e -> len pre + len (items_image fl ws) < lim62 ->
  exists vs s', read_all e rs (rs_at pre p fl) = Done (false, vs, s').
Proof.
  induction ws as [|w ws IH]; intros rs e pre p q fl Hok Hk Hm E Hq Hal Hs.
  - destruct p, q; try discriminate. congruence.
  - inversion Hok as [|? ? O1 O2]; subst. inversion Hk as [|? ? K1 K2]; subst. inversion Hm as [|? r ? rs' M1 M2]; subst.
    destruct w as [t key v], r as [t' key' d]. destruct M1 as (E1 & E2 & E3 & E4). cbn [i_type i_key i_val] in *. subst t' key'.
    change (items_image fl (Item t key v :: ws)) with (encode fl t key v ++ items_image fl ws) in *. rewrite len_app in Hal, Hs.
    assert (X : (exists q1, q1 <> [] /\ encode fl t key v = p ++ q1) \/ (exists p2, p = encode fl t key v ++ p2 /\ items_image fl ws = p2 ++ q)).
    { destruct (app_eq_app _ _ _ _ E) as (l & [(A & B)|(A & B)]).
      - destruct l; [right; exists []; rewrite app_nil_r in *; cbn in B; auto|left; exists (b :: l); split; [discriminate|exact A]].
      - right. exists l. auto. }
    cbn [read_all i_type i_key i_val]. destruct X as [(q1 & Hq1 & E5)|(p2 & -> & E5)].
    + destruct (item_cut e t key v d pre p q1 fl O1 K1 E3 E4 E5 Hq1) as (x & s1 & ->); [lia|]. cbn [bind]. eauto.
    + assert (len p2 <= len (items_image fl ws)) by (rewrite E5, len_app; lia).
      rewrite er_read_delivered; [|apply O1|apply O1|assumption|assumption|lia|unfold two64, lim62 in *; lia]. cbn [bind].
      destruct (IH rs' e (pre ++ encode fl t key v) p2 q fl O2 K2 M2 E5 Hq) as (vs & s' & ->); [lia|rewrite len_app; lia|]. cbn [bind]. eauto.
Qed.
