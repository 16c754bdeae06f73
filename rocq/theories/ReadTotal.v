(** * EntityReader::Read on arbitrary streams. *)
From Verif Require Import Base Bytes BytesFacts Values Streams FileSpec ReadSpec StreamFacts StreamProps Types Format
  Accept EntityWriter EntityReader EntityWriterFacts PackFacts ArrayWriterFacts EntityReaderFacts EntitySafety ArraySafety.
Open Scope N_scope.

Lemma dshape_wordy t : wordy (dshape t).
Proof. destruct t; cbn; auto. Qed.
Lemma dshape_small t : h_small (dshape t).
Proof. unfold h_small. pose proof (pod_size_small t). destruct (dshape t); auto. Qed.
Lemma vt_single_pos t : 0 < vt_single t.
Proof. destruct t; cbn; lia. Qed.
Lemma vt_array_pos t : 0 < vt_array t.
Proof. destruct t; cbn; lia. Qed.

Lemma read_single_gen e t key empty_ok dest pre post fl :
  len key <= 40 -> 0 < len key -> small_rs pre post -> e_lim e < lim62 -> val_ok t dest ->
  wp (read_single e (vt_single t) (dshape t) key empty_ok dest (rs_at pre post fl)) (fun r => let '(st, v, s') := r in
    within pre post fl s' /\
    match st with
    | SFail => True
    | SEmpty => empty_ok = true /\ consumed fl pre post s' (fun eos bs => single_accepts eos fl t key bs None)
    | SOk => val_ok t v /\ consumed fl pre post s' (fun eos bs => single_accepts eos fl t key bs (Some v))
    end) (t = TString).
Proof.
  intros Hk Hk0 Hs Hlim Hd. unfold single_accepts, val_ok in *.
  pose proof (dshape_ok t) as Hok. pose proof (pod_size_small t) as Hsm. pose proof (vt_single_pos t) as Hvt.
  assert (Hstr : dshape t = ShString -> t = TString) by (destruct t; discriminate || reflexivity).
  destruct (dshape t) as [| |k n]; cbn [read_single].
  - apply wp_bind. eapply wp_impl; [apply read_bool_gen; assumption| |tauto].
    intros [[st d] s'] (Hw & H). cbn [wp]. split; [exact Hw|]. destruct st; [exact I| |].
    + destruct H as (A & rest & B & C). split; [exact A|]. exists (small_block (vt_single t) key []), rest. auto.
    + destruct H as (x & rest & A & B & C). split; [exact I|].
      exists (small_block (vt_single t) key [x]), rest. split; [exact B|]. split; [exact C|].
      exists [x]. split; [exists x; auto|reflexivity].
  - apply wp_bind. eapply wp_impl; [apply read_string_gen; assumption| |auto].
    intros [[st d] s'] (Hw & H). cbn [wp]. split; [exact Hw|]. destruct st; [exact I|exact H|].
    destruct H as (Hl & bs & rest & A & B & p & C & D & F). split; [exact Hl|].
    exists bs, rest. split; [exact A|]. split; [exact B|]. exists p. split; [split; assumption|exact F].
  - destruct dest as [|s|img]; cbn in Hd; try contradiction.
    apply wp_bind. eapply wp_impl; [apply read_pod_gen; try assumption; [eapply Hsm; reflexivity]| |tauto].
    intros [[st d] s'] (Hw & Hl & H). cbn [wp]. split; [exact Hw|]. destruct st; [exact I| |].
    + destruct H as (A & rest & B & C). split; [exact A|]. eexists _, rest. eauto.
    + destruct H as (rest & A & B). cbn [shape_ok]. cbn [pod_image] in Hl. split; [congruence|].
      eexists _, rest. split; [exact A|]. split; [exact B|]. eexists. split; [split; [|reflexivity]|reflexivity]. congruence.
Qed.

Definition read_post (fl : bool) (t : dtype) (key pre post : list byte) (dest : cval) (r : bool * cval * rstream) : Prop :=
  let '(ok, v, s') := r in
  within pre post fl s' /\ cval_ctype v = cval_ctype dest /\
  (ok = true -> consumed fl pre post s' (fun eos bs => exists w, accepts eos fl t key bs w /\ v = delivered t dest w)).

Lemma er_read_plain_gen e t key dest pre post fl :
  len key <= 40 -> 0 < len key -> small_rs pre post -> e_small e -> cval_ok t dest ->
  wpu (er_read_plain e t key dest (rs_at pre post fl)) (fun res => let '(ok, v, s') := res in
    within pre post fl s' /\ cval_ctype v = cval_ctype dest /\
    (ok = true -> consumed fl pre post s' (fun eos bs => accepts eos fl t key bs v)))
    (is_array dest \/ t = TString) (is_array dest /\ multi_component t).
Proof.
  intros Hk Hk0 Hs He Hd. assert (Hlim : e_lim e < lim62) by (unfold e_small, lim62 in *; lia).
  pose proof (vt_array_pos t) as Hva. pose proof (dshape_ok t) as Hok. pose proof (dshape_small t) as Hsm.
  pose proof (dshape_wordy t) as Hwd.
  destruct dest as [v|o|l|o|l ix|o]; cbn [er_read_plain is_array cval_ok] in *; apply wpu_bind.
  - eapply wpu_impl; [apply wp_wpu with (U := False), read_single_gen; assumption| |tauto|tauto].
    intros [[st v1] s'] (Hw & H). cbn [wpu]. split; [exact Hw|]. split; [reflexivity|].
    destruct st; cbn [st_ok]; [discriminate| |].
    + destruct H as (? & _). discriminate.
    + intros _. destruct H as (_ & H). exact H.
  - eapply wpu_impl; [apply wp_wpu with (U := False), read_single_gen; try assumption; apply val_default_ok| |tauto|tauto].
    intros [[st v1] s'] (Hw & H). cbn [wpu]. split; [exact Hw|]. split; [destruct st; reflexivity|].
    destruct st; cbn [st_ok]; [discriminate| |]; intros _; destruct H as (_ & H); exact H.
  - destruct Hd as (Hd & _). eapply wpu_impl; [apply read_array_gen; assumption| |tauto|unfold multi_component, multi in *; tauto].
    intros [[[st l1] ix1] s'] (Hw & H). cbn [wpu]. split; [exact Hw|]. split; [reflexivity|].
    destruct st; cbn [st_ok]; [discriminate| |].
    + destruct H as (? & _). discriminate.
    + intros _. destruct H as (Hi & H). destruct ix1; [discriminate Hi|]. exact H.
  - eapply wpu_impl; [apply read_array_gen; try assumption; constructor| |tauto|unfold multi_component, multi in *; tauto].
    intros [[[st l1] ix1] s'] (Hw & H). cbn [wpu]. split; [exact Hw|]. split; [destruct st; reflexivity|].
    destruct st; cbn [st_ok]; [discriminate| |]; intros _; destruct H as (Hi & H).
    + exact H.
    + destruct ix1; [discriminate Hi|]. exact H.
  - destruct Hd as ((Hd & _) & _). eapply wpu_impl; [apply read_array_gen; assumption| |tauto|unfold multi_component, multi in *; tauto].
    intros [[[st l1] ix1] s'] (Hw & H). cbn [wpu]. split; [exact Hw|]. split; [reflexivity|].
    destruct st; cbn [st_ok]; [discriminate| |].
    + destruct H as (? & _). discriminate.
    + intros _. destruct H as (Hi & H). destruct ix1; [|discriminate Hi]. exact H.
  - eapply wpu_impl; [apply read_array_gen; try assumption; constructor| |tauto|unfold multi_component, multi in *; tauto].
    intros [[[st l1] ix1] s'] (Hw & H). cbn [wpu]. split; [exact Hw|]. split; [destruct st; reflexivity|].
    destruct st; cbn [st_ok]; [discriminate| |]; intros _; destruct H as (Hi & H).
    + exact H.
    + destruct ix1; [|discriminate Hi]. exact H.
Qed.

Lemma er_read_override_gen e t t' key dest pre post fl :
  (t = TEntityRef /\ t' = TUuid \/ t = TPackageRef /\ t' = THash) ->
  len key <= 40 -> 0 < len key -> small_rs pre post -> e_small e ->
  wpu (er_read_override e t' key dest (rs_at pre post fl)) (read_post fl t key pre post dest) (is_array dest) False.
Proof.
  intros Ht Hk Hk0 Hs He. unfold er_read_override. apply wpu_bind.
  assert (Hsh : forall eos bs w, accepts eos fl t' key bs w <-> accepts eos fl t key bs w).
  { intros eos bs w. destruct Ht as [(-> & ->)|(-> & ->)]; reflexivity. }
  assert (Hm : ~ multi_component t') by (destruct Ht as [(-> & ->)|(-> & ->)]; cbn; lia).
  assert (Hns : t' <> TString) by (destruct Ht as [(-> & ->)|(-> & ->)]; discriminate).
  assert (Harr : is_array (cval_default t' (cval_ctype dest)) -> is_array dest) by (destruct dest; exact (fun x => x)).
  eapply wpu_impl; [apply er_read_plain_gen; try assumption; apply cval_default_ok| | |].
  - intros [[ok tmp] s'] (Hw & Hc & H). rewrite cval_default_ctype in Hc.
    destruct ok; cbn [negb wpu]; (split; [exact Hw|]).
    + split; [destruct dest, tmp; try discriminate Hc; reflexivity|].
      intros _. destruct (H eq_refl) as (bs & rest & A & B & C). exists bs, rest. split; [exact A|]. split; [exact B|].
      exists tmp. split; [apply Hsh; exact C|].
      destruct Ht as [(-> & _)|(-> & _)]; destruct dest, tmp; reflexivity.
    + split; [reflexivity|discriminate].
  - intros [X|X]; [auto|contradiction].
  - intros (_ & X). contradiction.
Qed.

Lemma er_read_gen e t key dest pre post fl :
  len key <= 40 -> 0 < len key -> small_rs pre post -> e_small e -> cval_ok t dest ->
  wpu (er_read e t key dest (rs_at pre post fl)) (read_post fl t key pre post dest)
    (is_array dest \/ t = TString) (is_array dest /\ multi_component t).
Proof.
  intros Hk Hk0 Hs He Hd.
  assert (G : t <> TEntityRef -> t <> TPackageRef ->
    wpu (er_read_plain e t key dest (rs_at pre post fl)) (read_post fl t key pre post dest)
    (is_array dest \/ t = TString) (is_array dest /\ multi_component t)).
  { intros N1 N2. eapply wpu_impl; [apply er_read_plain_gen; eassumption| |tauto|tauto].
    intros [[ok v] s'] (A & B & C). split; [exact A|]. split; [exact B|]. intros Hok.
    destruct (C Hok) as (bs & rest & X & Y & Z). exists bs, rest. split; [exact X|]. split; [exact Y|].
    exists v. split; [exact Z|]. destruct t; try contradiction; reflexivity. }
  destruct t; try (apply G; discriminate).
  - eapply wpu_impl; [apply (er_read_override_gen e TEntityRef TUuid); auto|auto|auto|contradiction].
  - eapply wpu_impl; [apply (er_read_override_gen e TPackageRef THash); auto|auto|auto|contradiction].
Qed.
