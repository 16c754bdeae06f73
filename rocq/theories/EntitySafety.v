(** * The reader functions on arbitrary streams. *)
From Verif Require Import Base Bytes BytesFacts Values Streams FileSpec ReadSpec StreamFacts StreamProps Types Format
  Accept EntityWriter EntityReader EntityWriterFacts PackFacts ArrayWriterFacts EntityReaderFacts.
Open Scope N_scope.

(** Outcome predicate: [P] of the result, [T] if an exception left the call, never undefined. *)
Definition wp {A} (m : res A) (P : A -> Prop) (T : Prop) : Prop :=
  match m with Done a => P a | Throw => T | Undef => False end.
Lemma wp_bind {A B} (m : res A) (f : A -> res B) (P : B -> Prop) (T : Prop) :
  wp m (fun a => wp (f a) P T) T -> wp (bind m f) P T.
Proof. destruct m; cbn; auto. Qed.
Lemma wp_impl {A} (m : res A) (P Q : A -> Prop) (T U : Prop) :
  wp m P T -> (forall a, P a -> Q a) -> (T -> U) -> wp m Q U.
Proof. destruct m; cbn; auto. Qed.

Definition lim62 : N := 2^62.
Definition small_rs (pre post : list byte) : Prop := len pre + len post < lim62.

Lemma rs_read_gen k count dest pre post fl :
  small_rs pre post -> count * ksize k <= len dest -> len dest < lim62 ->
  wp (rs_read k count dest (rs_at pre post fl)) (fun r => let '(n, d, s') := r in
    len d = len dest /\
    ((exists img rest, post = element_bytes k count fl img ++ rest /\ len img = count * ksize k /\
        n = count /\ s' = rs_at (pre ++ element_bytes k count fl img) rest fl /\ take (count * ksize k) d = img)
     \/ (len post < count * ksize k /\ n < count /\ s' = rs_at (pre ++ post) [] fl))) False.
Proof.
  unfold small_rs, lim62. intros Hs Hc Hd.
  assert (Hinv : rs_inv (rs_at pre post fl)).
  { split; rewrite ?rs_at_size, ?rs_at_pos; unfold two64; lia. }
  destruct (rs_read_total k count dest (rs_at pre post fl) Hinv) as (n & d & s' & E & A).
  { rewrite rs_at_pos. unfold two64. lia. } { exact Hc. }
  rewrite E. cbn [wp].
  destruct (read_raw_spec_spec k count dest _ n d s' ltac:(rewrite rs_at_size, rs_at_pos; lia) A)
    as (B1 & B2 & (xs & X1 & X2 & X3 & X4) & B4 & B5 & B6).
  split; [exact B2|]. rewrite rs_at_size, rs_at_pos in *.
  replace (len pre + len post - len pre) with (len post) in B1 by lia.
  unfold rs_at in X3, B4, B5. cbn [rs_data rs_flip rs_pos] in *. rewrite drop_len_app in X3.
  pose proof (ksize_pos k) as Hk.
  assert (Hlx : len (flat_map image xs) = n * ksize k).
  { change (flat_map image xs) with (images xs). rewrite (len_images k xs X1), X2. reflexivity. }
  destruct (N.le_gt_cases (count * ksize k) (len post)) as [Hfull|Hshort].
  - left. assert (Hn : n = count).
    { rewrite B1. assert (count <= len post / ksize k) by (apply N.div_le_lower_bound; lia). lia. }
    rewrite Hn in *.
    assert (He : element_bytes k count fl (flat_map image xs) = take (count * ksize k) post).
    { rewrite element_bytes_wire by exact Hlx. rewrite <- X3, <- X2. apply wire_stored. exact X1. }
    exists (flat_map image xs), (drop (count * ksize k) post). rewrite He, take_drop.
    split; [reflexivity|]. split; [exact Hlx|]. split; [reflexivity|]. split; [|exact X4].
    destruct s' as [dd pp ff]. cbn [rs_data rs_flip rs_pos] in *. subst dd ff.
    unfold rs_at. rewrite <- app_assoc, take_drop. f_equal. rewrite len_app, len_take. lia.
  - right. split; [exact Hshort|]. split.
    + rewrite B1. assert (len post / ksize k < count) by (apply N.div_lt_upper_bound; lia). lia.
    + destruct s' as [dd pp ff]. cbn [rs_data rs_flip rs_pos] in *. subst dd ff.
      unfold rs_at. rewrite app_nil_r. f_equal. rewrite len_app. lia.
Qed.

Lemma rs_word_gen w pre post fl :
  small_rs pre post ->
  wp (rs_word w (rs_at pre post fl)) (fun r => let '(v, s') := r in v < 256 ^ wbytes w /\
    ((exists rest, post = num w fl v ++ rest /\ s' = rs_at (pre ++ num w fl v) rest fl)
     \/ (len post < wbytes w /\ s' = rs_at (pre ++ post) [] fl))) False.
Proof.
  intros Hs. unfold rs_word, rs_read1. apply wp_bind. apply wp_bind.
  eapply wp_impl; [apply rs_read_gen; [exact Hs| |]| |].
  - rewrite len_rep. cbn [ksize]. lia.
  - rewrite len_rep. destruct w; reflexivity.
  - intros [[n d] s'] (Hl & H). cbn [wp]. rewrite len_rep in Hl. cbn [ksize] in *.
    split; [rewrite <- Hl; apply of_le_bound|].
    destruct H as [(img & rest & E1 & E2 & E3 & E4 & E5)|(E1 & E2 & E3)].
    + left. exists rest. rewrite N.mul_1_l in *. rewrite take_all in E5 by lia. subst d.
      assert (Hn : num w fl (of_le img) = element_bytes (KW w) 1 fl img).
      { rewrite element_bytes_wire by (cbn [ksize]; lia). rewrite num_enc, <- wire_single.
        rewrite le_of_le_n; [reflexivity|]. apply len_length in E2. exact E2. }
      rewrite Hn. split; assumption.
    + right. rewrite N.mul_1_l in E1. split; assumption.
  - tauto.
Qed.

Lemma rs_u8_gen pre post fl : small_rs pre post ->
  wp (rs_u8 (rs_at pre post fl)) (fun r => let '(v, s') := r in v < 256 /\
    ((exists rest, post = n2b v :: rest /\ s' = rs_at (pre ++ [n2b v]) rest fl)
     \/ (post = [] /\ v = 0 /\ s' = rs_at pre [] fl))) False.
Proof.
  intros Hs. destruct post as [|b post].
  - cbn. unfold rs_u8, rs_word, rs_read1, rs_read, rs_words, rs_raw. rewrite rs_at_size, rs_at_pos, len_nil.
    unfold small_rs, lim62 in Hs. rewrite len_nil in Hs. rewrite add64_small by (unfold two64; lia).
    destruct (N.ltb_spec (len pre + 0) (len pre + 1)) as [_|X]; [|lia].
    rewrite sub64_small by (unfold two64; lia). replace (len pre + 0 - len pre) with 0 by lia.
    rewrite len_rep. cbn [ksize wbytes]. replace ((len pre + 0 <=? len pre + 0) && (0 <=? 1)) with true by lia.
    cbn [bind wp]. rewrite take_0, drop_0. cbn [app].
    split; [reflexivity|]. right. split; [reflexivity|]. split; [reflexivity|]. unfold rs_at. cbn [rs_data rs_flip].
    f_equal. lia.
  - eapply wp_impl; [apply (rs_word_gen W8 pre (b :: post) fl Hs)| |tauto].
    intros [v s'] (Hv & H). split; [exact Hv|]. left.
    destruct H as [(rest & E1 & E2)|(E1 & _)].
    + rewrite num_W8 in *. cbn [app] in E1. exists rest. split; assumption.
    + rewrite len_cons in E1. cbn [wbytes] in E1. lia.
Qed.

(** ** Key comparison *)
Lemma key_matches_gen key buf : len key <= 40 -> len buf = 40 ->
  exists b, key_matches key buf = Done b /\ (b = true -> take (len key) buf = key).
Proof.
  intros Hk Hb. unfold key_matches. rewrite klen_small, kbytes_small by lia. rewrite Hb.
  destruct (N.ltb_spec 40 (len key)) as [X|_]; [lia|]. eexists. split; [reflexivity|].
  intros E. apply bytes_eqb_true in E. symmetry. exact E.
Qed.

Lemma element_bytes_W8 n fl img : len img = n -> element_bytes (KW W8) n fl img = img.
Proof.
  intros H. rewrite element_bytes_wire by (cbn [ksize wbytes]; lia). cbn [wire]. rewrite swap_words_W8. destruct fl; reflexivity.
Qed.

(** Reading the key buffer. *)
Lemma rs_key_gen e key pre post fl : len key <= 40 -> small_rs pre post ->
  wp (rs_read (KW W8) (klen key) (junk e max_key) (rs_at pre post fl)) (fun r => let '(n, buf, s') := r in
    len buf = 40 /\
    ((exists k' rest, post = k' ++ rest /\ len k' = len key /\ n = len key /\ s' = rs_at (pre ++ k') rest fl /\
        take (len key) buf = k')
     \/ (len post < len key /\ n < len key /\ s' = rs_at (pre ++ post) [] fl))) False.
Proof.
  intros Hk Hs. rewrite klen_small by lia.
  eapply wp_impl; [apply rs_read_gen; [exact Hs| |]| |tauto].
  - rewrite len_junk. cbn [ksize wbytes]. unfold max_key. lia.
  - rewrite len_junk. reflexivity.
  - intros [[n d] s'] (Hl & H). rewrite len_junk in Hl. split; [exact Hl|].
    cbn [ksize wbytes] in H. rewrite N.mul_1_r in H.
    destruct H as [(img & rest & E1 & E2 & E3 & E4 & E5)|H].
    + left. exists img, rest. rewrite element_bytes_W8 in * by exact E2. auto.
    + right. exact H.
Qed.

(** ** Block header *)
Definition header (fl : bool) (vt bs : N) (key : list byte) : list byte :=
  n2b vt :: num W64 fl bs ++ n2b (len key) :: key.
Lemma len_header fl vt bs key : len (header fl vt bs key) = 10 + len key.
Proof. unfold header. rewrite len_cons, len_app, len_num, len_cons. cbn [wbytes]. lia. Qed.

(** The result of begin_read: 0, or the header was there (the key possibly cut off by the end of the
    stream, the missing part standing in the uninitialised buffer by chance). *)
Definition begun (fl : bool) (vt : N) (key pre post : list byte) (expected : N) (s' : rstream) : Prop :=
  exists bs, bs < two64 /\ expected = add64 (len pre + 9) bs /\ expected <= len pre + len post /\
    ((exists rest, post = header fl vt bs key ++ rest /\ s' = rs_at (pre ++ header fl vt bs key) rest fl)
     \/ (exists k', len k' < len key /\ post = n2b vt :: num W64 fl bs ++ n2b (len key) :: k' /\
           s' = rs_at (pre ++ post) [] fl)).

(** Some read state behind [pre]. *)
Definition within (pre post : list byte) (fl : bool) (s' : rstream) : Prop :=
  exists a b, post = a ++ b /\ s' = rs_at (pre ++ a) b fl.
Lemma within_self pre post fl : within pre post fl (rs_at pre post fl).
Proof. exists [], post. rewrite app_nil_r. auto. Qed.
Lemma within_trans pre a b fl s' : within (pre ++ a) b fl s' -> within pre (a ++ b) fl s'.
Proof. intros (x & y & -> & ->). exists (a ++ x), y. rewrite !app_assoc. auto. Qed.
Lemma within_end pre post fl : within pre post fl (rs_at (pre ++ post) [] fl).
Proof. exists post, []. rewrite app_nil_r. auto. Qed.

Lemma small_rs_shift pre a b : small_rs pre (a ++ b) -> small_rs (pre ++ a) b.
Proof. unfold small_rs. rewrite !len_app. lia. Qed.

Lemma begin_read_gen e vt key pre post fl :
  len key <= 40 -> 0 < len key -> 0 < vt -> small_rs pre post ->
  wp (begin_read e vt key (rs_at pre post fl)) (fun r => let '(expected, s') := r in
    within pre post fl s' /\ (expected = 0 \/ begun fl vt key pre post expected s')) False.
Proof.
  intros Hk Hk0 Hvt Hs. unfold begin_read. apply wp_bind.
  eapply wp_impl; [apply rs_u8_gen; exact Hs| |tauto].
  intros [v1 s1] (Hv1 & H1).
  destruct (N.eqb_spec v1 vt) as [->|Hne]; cbn [negb].
  2:{ cbn [wp]. split; [|left; reflexivity]. destruct H1 as [(rest & -> & ->)|(-> & _ & ->)]; [|apply within_self].
      exists [n2b v1], rest. auto. }
  destruct H1 as [(p1 & -> & ->)|(_ & ? & _)]; [|lia].
  assert (Hs1 : small_rs (pre ++ [n2b vt]) p1) by (apply small_rs_shift; exact Hs).
  apply wp_bind. eapply wp_impl; [apply (rs_word_gen W64); exact Hs1| |tauto].
  intros [bs s2] (Hbs & H2). change (256 ^ wbytes W64) with two64 in Hbs.
  destruct H2 as [(p2 & -> & ->)|(Hsh & ->)].
  2:{ (* short size field: the key size cannot be read *)
    rewrite rs_at_size, rs_at_pos.
    match goal with |- context [if ?c then _ else _] => destruct c end.
    { cbn [wp]. split; [|left; reflexivity]. exists (n2b vt :: p1), []. rewrite app_nil_r, <- !app_assoc. auto. }
    apply wp_bind. eapply wp_impl; [apply rs_u8_gen; unfold small_rs in *; rewrite !len_app, len_nil in *; lia| |tauto].
    intros [ks s3] (_ & [(rest & E & _)|(_ & -> & ->)]); [discriminate|].
    rewrite klen_small by lia. destruct (N.eqb_spec 0 (len key)) as [X|_]; [lia|]. cbn [negb wp].
    split; [|left; reflexivity]. exists (n2b vt :: p1), []. rewrite app_nil_r, <- !app_assoc. auto. }
  rewrite rs_at_size, rs_at_pos.
  set (pr2 := (pre ++ [n2b vt]) ++ num W64 fl bs).
  assert (Hpr2 : len pr2 = len pre + 9) by (unfold pr2; rewrite !len_app, len_num, len_cons, len_nil; cbn [wbytes]; lia).
  assert (Hs2 : small_rs pr2 p2) by (apply small_rs_shift; exact Hs1).
  assert (Hw2 : within pre (n2b vt :: num W64 fl bs ++ p2) fl (rs_at pr2 p2 fl)).
  { exists (n2b vt :: num W64 fl bs), p2. unfold pr2. rewrite <- !app_assoc. auto. }
  rewrite Hpr2.
  destruct (N.ltb_spec (len pre + 9 + len p2) (add64 (len pre + 9) bs)) as [Hout|Hin].
  { cbn [wp]. split; [exact Hw2|left; reflexivity]. }
  apply wp_bind. eapply wp_impl; [apply rs_u8_gen; exact Hs2| |tauto].
  intros [ks s3] (Hks & H3). rewrite klen_small by lia.
  destruct (N.eqb_spec ks (len key)) as [->|Hne]; cbn [negb].
  2:{ cbn [wp]. split; [|left; reflexivity]. destruct H3 as [(rest & -> & ->)|(-> & _ & ->)]; [|exact Hw2].
      exists (n2b vt :: num W64 fl bs ++ [n2b ks]), rest. unfold pr2. split.
      - cbn [app]. rewrite <- app_assoc. reflexivity.
      - rewrite <- !app_assoc. reflexivity. }
  destruct H3 as [(p3 & -> & ->)|(_ & ? & _)]; [|lia].
  set (pr3 := pr2 ++ [n2b (len key)]).
  assert (Hs3 : small_rs pr3 p3) by (apply small_rs_shift; exact Hs2).
  apply wp_bind. pose proof (rs_key_gen e key pr3 p3 fl Hk Hs3) as Q. rewrite klen_small in Q by lia.
  eapply wp_impl; [exact Q| |tauto].
  intros [[n buf] s4] (Hb & H4).
  destruct (key_matches_gen key buf Hk Hb) as (same & Em & Hsame). rewrite Em. cbn [bind].
  assert (Hw : within pre (n2b vt :: num W64 fl bs ++ n2b (len key) :: p3) fl s4).
  { destruct H4 as [(k' & rest & -> & _ & _ & -> & _)|(_ & _ & ->)].
    - exists (n2b vt :: num W64 fl bs ++ n2b (len key) :: k'), rest. unfold pr3, pr2. split.
      + cbn [app]. rewrite <- !app_assoc. reflexivity.
      + rewrite <- !app_assoc. reflexivity.
    - exists (n2b vt :: num W64 fl bs ++ n2b (len key) :: p3), []. unfold pr3, pr2. split.
      + rewrite app_nil_r. reflexivity.
      + rewrite <- !app_assoc. reflexivity. }
  destruct same; cbn [wp]; (split; [exact Hw|]); [right|left; reflexivity].
  exists bs. split; [exact Hbs|]. split; [reflexivity|]. split.
  { rewrite len_cons, len_app, len_num, len_cons in *. cbn [wbytes]. lia. }
  destruct H4 as [(k' & rest & -> & Hl & Hn & -> & Ht)|(Hl & _ & ->)].
  - left. exists rest. rewrite Hsame in Ht by reflexivity. subst k'. unfold header, pr3, pr2. split.
    + cbn [app]. rewrite <- !app_assoc. reflexivity.
    + rewrite <- !app_assoc. reflexivity.
  - right. exists p3. split; [exact Hl|]. split; [reflexivity|]. unfold pr3, pr2. rewrite <- !app_assoc. reflexivity.
Qed.

(** ** Single values *)
Lemma byte_nz x : negb (of_le [x] =? 0) = negb (Byte.eqb x x00).
Proof. destruct x; reflexivity. Qed.

Lemma read_pod_gen e vt k n key empty_ok dest pre post fl :
  len key <= 40 -> 0 < len key -> 0 < vt -> n * ksize k <= 128 -> 0 < n -> len dest = n * ksize k -> small_rs pre post ->
  wp (read_pod e vt k n key empty_ok dest (rs_at pre post fl)) (fun r => let '(st, d, s') := r in
    within pre post fl s' /\ len d = len dest /\
    match st with
    | SFail => True
    | SEmpty => empty_ok = true /\ exists rest, post = small_block vt key [] ++ rest /\
                  s' = rs_at (pre ++ small_block vt key []) rest fl
    | SOk => let b := small_block vt key (element_bytes k n fl d) in
             exists rest, post = b ++ rest /\ s' = rs_at (pre ++ b) rest fl
    end) False.
Proof.
  intros Hk Hk0 Hvt Hn Hpos Hd Hs. unfold read_pod. apply wp_bind.
  eapply wp_impl; [apply rs_u8_gen; exact Hs| |tauto].
  intros [v1 s1] (Hv1 & H1).
  destruct (N.eqb_spec v1 vt) as [->|Hne]; cbn [negb].
  2:{ cbn [wp]. split; [|auto]. destruct H1 as [(rest & -> & ->)|(-> & _ & ->)]; [|apply within_self].
      exists [n2b v1], rest. auto. }
  destruct H1 as [(p1 & -> & ->)|(_ & ? & _)]; [|lia].
  assert (Hs1 : small_rs (pre ++ [n2b vt]) p1) by (apply small_rs_shift; exact Hs).
  apply wp_bind. eapply wp_impl; [apply rs_u8_gen; exact Hs1| |tauto].
  intros [bs s2] (Hbs & H2). rewrite klen_small by lia.
  pose proof (ksize_pos k) as Hkp.
  set (is_empty := negb (bs =? ksize k * n + len key)).
  destruct (is_empty && negb (empty_ok && (bs =? len key))) eqn:Ebad.
  { cbn [wp]. split; [|auto]. destruct H2 as [(rest & -> & ->)|(-> & _ & ->)].
    - exists [n2b vt; n2b bs], rest. rewrite <- app_assoc. auto.
    - exists [n2b vt], []. auto. }
  destruct H2 as [(p2 & -> & ->)|(-> & Hbs0 & ->)].
  2:{ (* size byte missing: 0, which is the size of neither form *)
    subst bs. assert (He : is_empty = true) by (unfold is_empty; apply negb_true_iff, N.eqb_neq; nia).
    rewrite He in Ebad. cbn [andb] in Ebad. apply negb_false_iff, andb_true_iff in Ebad.
    destruct Ebad as (_ & Hz). apply N.eqb_eq in Hz. lia. }
  set (pr2 := (pre ++ [n2b vt]) ++ [n2b bs]).
  assert (Hs2 : small_rs pr2 p2) by (apply small_rs_shift; exact Hs1).
  destruct is_empty eqn:Eemp.
  - (* empty form *)
    cbn [andb] in Ebad. apply negb_false_iff, andb_true_iff in Ebad. destruct Ebad as (-> & Hz).
    apply N.eqb_eq in Hz. subst bs. cbn [bind]. rewrite N.eqb_refl. cbn [negb].
    apply wp_bind. pose proof (rs_key_gen e key pr2 p2 fl Hk Hs2) as Q. rewrite klen_small in Q by lia.
    eapply wp_impl; [exact Q| |tauto].
    intros [[kl buf] s4] (Hb & H4).
    assert (Hw : within pre (n2b vt :: n2b (len key) :: p2) fl s4).
    { destruct H4 as [(k' & rest & -> & _ & _ & -> & _)|(_ & _ & ->)].
      - exists (n2b vt :: n2b (len key) :: k'), rest. unfold pr2. rewrite <- !app_assoc. auto.
      - exists (n2b vt :: n2b (len key) :: p2), []. unfold pr2. rewrite app_nil_r, <- !app_assoc. auto. }
    destruct (N.eqb_spec kl (len key)) as [->|Hne]; cbn [negb]; [|cbn [wp]; auto].
    destruct H4 as [(k' & rest & -> & Hl & _ & -> & Ht)|(_ & ? & _)]; [|lia].
    destruct (key_matches_gen key buf Hk Hb) as (same & Em & Hsame). rewrite Em. cbn [bind].
    destruct same; cbn [negb wp]; [|auto].
    rewrite Hsame in Ht by reflexivity. subst k'.
    match goal with |- context [if negb ?c then _ else _] => destruct c end; cbn [negb wp]; [|auto].
    split; [exact Hw|]. split; [reflexivity|]. split; [reflexivity|]. exists rest.
    unfold small_block. rewrite len_nil, N.add_0_l. cbn [app]. split; [reflexivity|].
    unfold pr2. rewrite <- !app_assoc. reflexivity.
  - unfold is_empty in Eemp. apply negb_false_iff, N.eqb_eq in Eemp.
    apply wp_bind. eapply wp_impl; [apply rs_read_gen; [exact Hs2| |]| |tauto].
    { lia. } { rewrite Hd. unfold lim62. lia. }
    intros [[rc d1] s3] (Hl1 & H3).
    destruct (N.eqb_spec rc n) as [->|Hne]; cbn [negb].
    2:{ cbn [wp]. split; [|auto]. destruct H3 as [(img & rest & -> & _ & -> & _)|(_ & _ & ->)]; [lia|].
        exists (n2b vt :: n2b bs :: p2), []. unfold pr2. rewrite app_nil_r, <- !app_assoc. auto. }
    destruct H3 as [(img & p3 & -> & Hli & _ & -> & Ht)|(_ & ? & _)]; [|lia].
    rewrite take_all in Ht by lia. subst img.
    set (eb := element_bytes k n fl d1) in *.
    assert (Heb : len eb = n * ksize k) by (apply len_element_bytes; exact Hli).
    assert (Hs3 : small_rs (pr2 ++ eb) p3) by (apply small_rs_shift; exact Hs2).
    apply wp_bind. pose proof (rs_key_gen e key (pr2 ++ eb) p3 fl Hk Hs3) as Q. rewrite klen_small in Q by lia.
    eapply wp_impl; [exact Q| |tauto].
    intros [[kl buf] s4] (Hb & H4).
    assert (Hw : within pre (n2b vt :: n2b bs :: eb ++ p3) fl s4).
    { destruct H4 as [(k' & rest & -> & _ & _ & -> & _)|(_ & _ & ->)].
      - exists (n2b vt :: n2b bs :: eb ++ k'), rest. unfold pr2. cbn [app]. rewrite <- !app_assoc. auto.
      - exists (n2b vt :: n2b bs :: eb ++ p3), []. unfold pr2. rewrite app_nil_r, <- !app_assoc. auto. }
    destruct (N.eqb_spec kl (len key)) as [->|Hne]; cbn [negb]; [|cbn [wp]; auto].
    destruct H4 as [(k' & rest & -> & Hl & _ & -> & Ht)|(_ & ? & _)]; [|lia].
    destruct (key_matches_gen key buf Hk Hb) as (same & Em & Hsame). rewrite Em. cbn [bind].
    destruct same; cbn [negb wp]; [|auto].
    rewrite Hsame in Ht by reflexivity. subst k'.
    match goal with |- context [if negb ?c then _ else _] => destruct c end; cbn [negb wp]; [|auto].
    split; [exact Hw|]. split; [exact Hl1|]. exists rest. fold eb.
    unfold small_block. rewrite Heb. replace (n * ksize k + len key) with bs by lia. cbn [app].
    split; [rewrite <- !app_assoc; reflexivity|].
    unfold pr2. rewrite <- !app_assoc. reflexivity.
Qed.

Lemma read_bool_gen e vt key empty_ok dest pre post fl :
  len key <= 40 -> 0 < len key -> 0 < vt -> small_rs pre post ->
  wp (read_bool e vt key empty_ok dest (rs_at pre post fl)) (fun r => let '(st, d, s') := r in
    within pre post fl s' /\
    match st with
    | SFail => True
    | SEmpty => empty_ok = true /\ exists rest, post = small_block vt key [] ++ rest /\
                  s' = rs_at (pre ++ small_block vt key []) rest fl
    | SOk => exists x rest, d = negb (Byte.eqb x x00) /\ post = small_block vt key [x] ++ rest /\
                  s' = rs_at (pre ++ small_block vt key [x]) rest fl
    end) False.
Proof.
  intros Hk Hk0 Hvt Hs. unfold read_bool. apply wp_bind.
  eapply wp_impl; [apply read_pod_gen; try assumption| |tauto].
  - cbn; lia.
  - lia.
  - rewrite len_junk. reflexivity.
  - intros [[st d] s'] (Hw & Hl & H). rewrite len_junk in Hl.
    destruct st; cbn [wp]; [auto|auto|].
    split; [exact Hw|]. destruct H as (rest & E1 & E2).
    assert (Hx : exists x, d = [x]).
    { destruct d as [|x [|y d]]; [discriminate Hl|eauto|]. rewrite !len_cons in Hl. lia. }
    destruct Hx as (x & ->). rewrite element_bytes_1 in *. exists x, rest.
    rewrite byte_nz. auto.
Qed.

(** Arithmetic of the block end: a position inside the stream equal to the (wrapping) sum is exact. *)
Lemma add64_exact a b c : a < lim62 -> b < two64 -> c < lim62 -> a <= c -> add64 a b = c -> b = c - a.
Proof.
  unfold add64, w64, lim62. change two64 with (2^64). intros Ha Hb Hc Hac E.
  destruct (N.lt_ge_cases (a + b) (2^64)) as [Hlt|Hge].
  - rewrite N.mod_small in E by exact Hlt. lia.
  - exfalso. assert (Hm : (a + b) mod 2^64 = a + b - 2^64).
    { replace (a + b) with ((a + b - 2^64) + 1 * 2^64) at 1 by lia. rewrite N.mod_add by lia.
      apply N.mod_small. lia. }
    rewrite Hm in E. lia.
Qed.

Lemma resize_wp {A} e size (fill : A) n l (P : list A -> Prop) (T : Prop) :
  (n * size <= e_lim e -> forall l', resize e size fill n l = Done l' -> len l' = n -> P l') ->
  (e_lim e < n * size -> T) -> wp (resize e size fill n l) P T.
Proof.
  intros H1 H2. unfold resize in *. destruct (N.ltb_spec (e_lim e) (n * size)) as [X|X]; cbn [wp]; [auto|].
  apply (H1 X _ eq_refl). rewrite len_app, len_take, len_rep. lia.
Qed.

(** A large block was found at the position and [bs] are its bytes. *)
Definition consumed (fl : bool) (pre post : list byte) (s' : rstream) (P : bool -> list byte -> Prop) : Prop :=
  exists bs rest, post = bs ++ rest /\ s' = rs_at (pre ++ bs) rest fl /\
    P (match rest with [] => true | _ => false end) bs.

Lemma begun_empty fl vt key pre post expected s' : small_rs pre post ->
  begun fl vt key pre post expected s' -> rs_pos s' = expected ->
  consumed fl pre post s' (fun eos bs => null_large eos fl vt key bs).
Proof.
  intros Hs (bs & Hbs & He & Hle & [(rest & E1 & E2)|(k' & Hl & E1 & E2)]) Hp.
  - subst s'. rewrite rs_at_pos in Hp.
    assert (Hlen : bs = 1 + len key).
    { rewrite len_app, len_header in Hp. unfold small_rs in Hs. rewrite E1, len_app, len_header in Hs.
      assert (Q : bs = len pre + (10 + len key) - (len pre + 9)); [|lia].
      apply add64_exact; unfold lim62 in *; lia. }
    assert (Hh : header fl vt bs key = large_block fl vt key []).
    { unfold header, large_block. rewrite Hlen, len_nil, N.add_0_r, app_nil_r. reflexivity. }
    rewrite Hh in *. exists (large_block fl vt key []), rest. split; [exact E1|]. split; [reflexivity|].
    left. reflexivity.
  - exists post, []. rewrite app_nil_r. split; [reflexivity|]. split; [exact E2|].
    right. split; [reflexivity|]. exists bs, k'. auto.
Qed.

Lemma rs_at_inj a b c d fl : rs_at a b fl = rs_at c d fl -> a = c /\ b = d.
Proof.
  unfold rs_at. intros H. injection H as H1 H2.
  assert (a = c).
  { apply (f_equal (take (len a))) in H1. rewrite take_len_app in H1. rewrite H2, take_len_app in H1. exact H1. }
  subst c. apply app_inv_head in H1. auto.
Qed.
Lemma within_step pre post fl p r s' :
  within pre post fl (rs_at p r fl) -> within p r fl s' -> within pre post fl s'.
Proof.
  intros (a & b & -> & E) H. apply rs_at_inj in E. destruct E as (-> & ->). apply within_trans. exact H.
Qed.
Lemma within_small pre post fl p r : within pre post fl (rs_at p r fl) -> small_rs pre post -> small_rs p r.
Proof. intros (a & b & -> & E) H. apply rs_at_inj in E. destruct E as (-> & ->). apply small_rs_shift. exact H. Qed.

Lemma rs_word_w w pre post fl :
  small_rs pre post ->
  wp (rs_word w (rs_at pre post fl)) (fun r => let '(v, s') := r in v < 256 ^ wbytes w /\
    exists p r, s' = rs_at p r fl /\ within pre post fl (rs_at p r fl) /\
    ((post = num w fl v ++ r /\ p = pre ++ num w fl v) \/ (len post < wbytes w /\ p = pre ++ post /\ r = []))) False.
Proof.
  intros Hs. eapply wp_impl; [apply rs_word_gen; exact Hs| |tauto].
  intros [v s'] (Hv & [(rest & -> & ->)|(Hl & ->)]); (split; [exact Hv|]).
  - exists (pre ++ num w fl v), rest. split; [reflexivity|]. split; [exists (num w fl v), rest; auto|left; auto].
  - exists (pre ++ post), []. split; [reflexivity|]. split; [apply within_end|right; auto].
Qed.
Lemma rs_read_w k count dest pre post fl :
  small_rs pre post -> count * ksize k <= len dest -> len dest < lim62 ->
  wp (rs_read k count dest (rs_at pre post fl)) (fun r => let '(n, d, s') := r in
    len d = len dest /\ exists p r, s' = rs_at p r fl /\ within pre post fl (rs_at p r fl) /\
    ((exists img, post = element_bytes k count fl img ++ r /\ p = pre ++ element_bytes k count fl img /\
        len img = count * ksize k /\ n = count /\ take (count * ksize k) d = img)
     \/ (len post < count * ksize k /\ n < count /\ p = pre ++ post /\ r = []))) False.
Proof.
  intros Hs Hc Hd. eapply wp_impl; [apply rs_read_gen; assumption| |tauto].
  intros [[n d] s'] (Hl & [(img & rest & -> & E2 & -> & -> & E5)|(E1 & E2 & ->)]); (split; [exact Hl|]).
  - exists (pre ++ element_bytes k count fl img), rest. split; [reflexivity|].
    split; [exists (element_bytes k count fl img), rest; auto|left; exists img; auto].
  - exists (pre ++ post), []. split; [reflexivity|]. split; [apply within_end|right; auto].
Qed.

(** Two states of a stream. *)
Lemma at_full fl vt bs key pre rest : forall p r, small_rs pre (header fl vt bs key ++ rest) -> bs < two64 ->
  within (pre ++ header fl vt bs key) rest fl (rs_at p r fl) ->
  len p = add64 (len pre + 9) bs ->
  exists payload, rest = payload ++ r /\ header fl vt bs key ++ payload = large_block fl vt key payload /\
    p = pre ++ large_block fl vt key payload.
Proof.
  intros p r Hs Hbs (a & b & -> & E) Hp. apply rs_at_inj in E. destruct E as (-> & ->).
  exists a. split; [reflexivity|].
  assert (Hlen : bs = 1 + len key + len a).
  { rewrite !len_app, len_header in Hp. unfold small_rs in Hs. rewrite !len_app, len_header in Hs.
    assert (Q : bs = len pre + (10 + len key) + len a - (len pre + 9)); [|lia].
    apply add64_exact; unfold lim62 in *; lia. }
  assert (Hb : header fl vt bs key ++ a = large_block fl vt key a).
  { unfold header, large_block. rewrite Hlen. cbn [app]. rewrite <- app_assoc. reflexivity. }
  split; [exact Hb|]. rewrite <- Hb, app_assoc. reflexivity.
Qed.

(** The step reading one length-prefixed string. *)
Definition string_step (e : renv) (bend : N) (d : list byte) (s : rstream) : res (bool * list byte * rstream) :=
  do r1 <- rs_u64 s; let '(size, s1) := r1 in
  if sub64 bend (rs_pos s1) <? size then Done (false, d, s1) else
  do d1 <- resize e 1 x00 size d;
  do r2 <- (if 0 <? size then rs_read (KW W8) size d1 s1 else Done (size, d1, s1));
  let '(got, d2, s2) := r2 in
  if negb (got =? size) then Done (false, d2, s2) else Done (true, d2, s2).

Lemma string_step_gen e bend d pre post fl :
  small_rs pre post -> e_lim e < lim62 ->
  wp (string_step e bend d (rs_at pre post fl)) (fun r => let '(ok, str, s') := r in
    exists p r, s' = rs_at p r fl /\ within pre post fl (rs_at p r fl) /\
    (ok = true -> len str <= e_lim e /\
        ((post = string_bytes fl str ++ r /\ p = pre ++ string_bytes fl str)
         \/ (len post < 8 /\ str = [] /\ p = pre ++ post /\ r = [])))) True.
Proof.
  intros Hs Hlim. unfold string_step. apply wp_bind.
  eapply wp_impl; [apply (rs_word_w W64); exact Hs| |tauto].
  intros [size s1] (Hsz & p1 & r1 & -> & Hw1 & H1). change (256 ^ wbytes W64) with two64 in Hsz.
  pose proof (within_small _ _ _ _ _ Hw1 Hs) as Hs1. rewrite rs_at_pos.
  destruct (N.ltb_spec (sub64 bend (len p1)) size) as [Hb|Hb].
  { cbn [wp]. exists p1, r1. split; [reflexivity|]. split; [exact Hw1|discriminate]. }
  apply wp_bind. apply resize_wp.
  2:{ intros _. exact I. }
  intros Hal d1 _ Hd1. rewrite N.mul_1_r in Hal.
  destruct (N.ltb_spec 0 size) as [Hpos|Hz].
  - apply wp_bind. eapply wp_impl; [apply rs_read_w; [exact Hs1| |]| |tauto].
    { cbn [ksize wbytes]. lia. } { lia. }
    intros [[got d2] s2] (Hl2 & p2 & r2 & -> & Hw2 & H2). cbn [ksize wbytes] in H2. rewrite N.mul_1_r in H2.
    destruct (N.eqb_spec got size) as [->|Hne]; cbn [negb wp].
    2:{ exists p2, r2. split; [reflexivity|]. split; [eapply within_step; eassumption|discriminate]. }
    destruct H2 as [(img & -> & -> & Hli & _ & Ht)|(_ & ? & _)]; [|lia].
    rewrite take_all in Ht by lia. subst img. rewrite element_bytes_W8 in * by exact Hli.
    exists (p1 ++ d2), r2. split; [reflexivity|]. split; [eapply within_step; eassumption|].
    intros _. split; [lia|]. destruct H1 as [(-> & ->)|(Hshort & _ & Hr)].
    + left. unfold string_bytes. rewrite Hli, <- !app_assoc. auto.
    + apply (f_equal (@len byte)) in Hr. rewrite len_app, len_nil in Hr. lia.
  - cbn [bind]. rewrite N.eqb_refl. cbn [negb wp]. replace size with 0 in * by lia. clear Hz.
    assert (d1 = []) by (apply len_0; lia). subst d1. exists p1, r1. split; [reflexivity|]. split; [exact Hw1|].
    intros _. split; [apply N.le_0_l|].
    destruct H1 as [(-> & ->)|(Hshort & -> & ->)]; [left|right; auto].
    assert (Hsb : string_bytes fl [] = num W64 fl 0) by (unfold string_bytes; rewrite app_nil_r; reflexivity).
    rewrite Hsb. auto.
Qed.

Lemma read_string_step e vt key empty_ok dest s :
  read_string e vt key empty_ok dest s =
  do r1 <- begin_read e vt key s; let '(expected, s1) := r1 in
  if expected =? 0 then Done (SFail, dest, s1) else
  if rs_pos s1 =? expected then Done (end_read_empty empty_ok expected s1, dest, s1) else
  do r2 <- string_step e expected dest s1; let '(ok, d, s3) := r2 in
  if negb ok then Done (SFail, d, s3) else
  if end_read s3 expected then Done (SOk, d, s3) else Done (SFail, d, s3).
Proof.
  unfold read_string, string_step.
  destruct (begin_read e vt key s) as [[expected s1]| |]; cbn [bind]; try reflexivity.
  destruct (expected =? 0); [reflexivity|]. destruct (rs_pos s1 =? expected); [reflexivity|].
  destruct (rs_u64 s1) as [[size s2]| |]; cbn [bind]; try reflexivity.
  destruct (_ <? size); [reflexivity|].
  destruct (resize e 1 x00 size dest) as [d1| |]; cbn [bind]; try reflexivity.
  destruct (if 0 <? size then rs_read (KW W8) size d1 s2 else Done (size, d1, s2)) as [[[got d2] s3]| |]; cbn [bind]; try reflexivity.
  destruct (got =? size); reflexivity.
Qed.
Lemma read_strings_step e bend d l s :
  read_strings e bend (d :: l) s =
  do r2 <- string_step e bend d s; let '(ok, d2, s2) := r2 in
  if negb ok then Done (false, d2 :: l, s2) else
  do r3 <- read_strings e bend l s2; let '(ok, l2, s3) := r3 in Done (ok, d2 :: l2, s3).
Proof.
  cbn [read_strings]. unfold string_step.
  destruct (rs_u64 s) as [[size s1]| |]; cbn [bind]; try reflexivity.
  destruct (_ <? size); [reflexivity|].
  destruct (resize e 1 x00 size d) as [d1| |]; cbn [bind]; try reflexivity.
  destruct (if 0 <? size then rs_read (KW W8) size d1 s1 else Done (size, d1, s1)) as [[[got d2] s3]| |]; cbn [bind]; try reflexivity.
  destruct (got =? size); reflexivity.
Qed.

Lemma read_string_gen e vt key empty_ok dest pre post fl :
  len key <= 40 -> 0 < len key -> 0 < vt -> small_rs pre post -> e_lim e < lim62 ->
  wp (read_string e vt key empty_ok dest (rs_at pre post fl)) (fun r => let '(st, d, s') := r in
    within pre post fl s' /\
    match st with
    | SFail => True
    | SEmpty => empty_ok = true /\ consumed fl pre post s' (fun eos bs => null_large eos fl vt key bs)
    | SOk => len d < two64 /\ consumed fl pre post s' (fun eos bs => exists p, p <> [] /\ string_carries eos fl p d /\
                 bs = large_block fl vt key p)
    end) True.
Proof.
  intros Hk Hk0 Hvt Hs Hlim. rewrite read_string_step. apply wp_bind.
  eapply wp_impl; [apply begin_read_gen; assumption| |tauto].
  intros [expected s1] (Hw & H1).
  destruct (N.eqb_spec expected 0) as [->|Hne0]; [cbn [wp]; auto|].
  destruct H1 as [?|H1]; [contradiction|].
  destruct (N.eqb_spec (rs_pos s1) expected) as [Hpe|Hpe].
  { cbn [wp]. split; [exact Hw|]. unfold end_read_empty, end_read. rewrite Hpe, N.eqb_refl.
    destruct empty_ok; [|exact I]. split; [reflexivity|]. eapply begun_empty; eassumption. }
  assert (HH : exists p1 r1, s1 = rs_at p1 r1 fl) by (destruct Hw as (a & b & _ & ->); eauto).
  destruct HH as (p1 & r1 & ->). pose proof (within_small _ _ _ _ _ Hw Hs) as Hs1.
  apply wp_bind. eapply wp_impl; [apply string_step_gen; [exact Hs1|exact Hlim]| |].
  - intros [[ok d] s3] (p3 & r3 & -> & Hw3 & H3).
    pose proof (within_step _ _ _ _ _ _ Hw Hw3) as Hw'.
    destruct ok; cbn [negb]; [|cbn [wp]; auto]. unfold end_read. rewrite rs_at_pos.
    destruct (N.eqb_spec (len p3) expected) as [Hend|Hend]; cbn [wp]; [|auto].
    split; [exact Hw'|]. destruct (H3 eq_refl) as (Hl & H4). split; [unfold lim62, two64 in *; lia|].
    destruct H1 as (bs & Hbs & He & Hle & [(rest & E1 & E2)|(k' & Hlk & E1 & E2)]).
    + apply rs_at_inj in E2. destruct E2 as (-> & ->). subst post.
      destruct (at_full fl vt bs key pre rest p3 r3 Hs Hbs Hw3) as (payload & Er & Eb & Ep3); [congruence|].
      exists (large_block fl vt key payload), r3. subst p3. split; [rewrite <- Eb, <- app_assoc, <- Er; reflexivity|].
      split; [reflexivity|]. exists payload. split; [|split; [|reflexivity]].
      * intros ->. cbn [app] in Er. rewrite app_nil_r in Eb. apply Hpe. rewrite rs_at_pos, <- Hend, <- Eb. reflexivity.
      * rewrite <- Eb, app_assoc in H4. destruct H4 as [(A & B)|(A & B & C & D)].
        -- left. apply app_inv_head in B. exact B.
        -- right. subst r3. split; [reflexivity|]. apply app_inv_head in C. subst payload. auto.
    + apply rs_at_inj in E2. destruct E2 as (-> & ->).
      destruct H4 as [(A & _)|(_ & _ & -> & _)].
      * exfalso. apply (f_equal (@len byte)) in A. rewrite len_app, len_string_bytes, len_nil in A. lia.
      * rewrite app_nil_r in Hend. rewrite rs_at_pos in Hpe. congruence.
  - tauto.
Qed.
