(** * What a read leaves in its destination is always an object of the type, whatever the stream holds and whether
    the read succeeds or not. *)
From Verif Require Import Base Bytes BytesFacts Values Streams FileSpec StreamFacts Types EntityWriter EntityReader
  EntityWriterFacts PackFacts ArrayWriterFacts EntityReaderFacts EntitySafety ArraySafety ReadTotal ItemSpec.
Open Scope N_scope.

(** If [m] returns, its result satisfies [P]. *)
Definition gives {A} (m : res A) (P : A -> Prop) : Prop := match m with Done a => P a | _ => True end.
Lemma gives_bind {A B} (m : res A) (f : A -> res B) (P : A -> Prop) (Q : B -> Prop) :
  gives m P -> (forall a, P a -> gives (f a) Q) -> gives (bind m f) Q.
Proof. destruct m; cbn; auto. Qed.
Lemma gives_any {A} (m : res A) : gives m (fun _ => True).
Proof. destruct m; exact I. Qed.
Lemma gives_impl {A} (m : res A) (P Q : A -> Prop) : gives m P -> (forall a, P a -> Q a) -> gives m Q.
Proof. destruct m; cbn; auto. Qed.

Lemma rs_raw_len n d s : gives (rs_raw n d s) (fun r => let '(_, d', _) := r in len d' = len d).
Proof.
  unfold rs_raw.
  destruct (if rs_size s <? add64 (rs_pos s) n then (rs_size s, sub64 (rs_size s) (rs_pos s)) else (add64 (rs_pos s) n, n)) as [x m].
  destruct ((rs_pos s + m <=? rs_size s) && (m <=? len d)) eqn:E; [|exact I].
  cbn [gives]. unfold rs_size in E. rewrite len_app, len_take, !len_drop. lia.
Qed.
Lemma rs_words_len w n d s : gives (rs_words w n d s) (fun r => let '(_, d', _) := r in len d' = len d).
Proof.
  destruct w; cbn [rs_words]; [apply rs_raw_len|..];
    (eapply gives_bind; [apply rs_raw_len|]); intros [[got d'] s'] H; cbn [gives];
    (destruct (rs_flip s); [match goal with |- context [if ?c then _ else _] => destruct c eqn:E end|]); cbn [gives];
    try exact I; try exact H; (rewrite len_swap_words; [exact H|rewrite Nnat.N2Nat.id; apply N.leb_le; exact E]).
Qed.
Lemma rs_uuids_len n : forall i d s, gives (rs_uuids n i d s) (fun r => let '(_, d', _) := r in len d' = len d).
Proof.
  induction n as [|n IH]; intros i d s; cbn [rs_uuids]; [reflexivity|].
  eapply gives_bind; [apply rs_words_len|]. intros [[got raw] s'] H. rewrite len_rep in H.
  destruct (got =? 16); [|reflexivity]. destruct (N.leb_spec ((i + 1) * 16) (len d)) as [L|L]; [|exact I].
  eapply gives_impl; [apply IH|]. intros [[? d'] ?] ->. rewrite !len_app, len_take, len_drop.
  assert (X : length (uuid_from_wire raw) = 16%nat) by (apply len_uuid_from_wire; unfold len in H; lia).
  replace (len (uuid_from_wire raw)) with 16 by (unfold len; lia). lia.
Qed.
Lemma rs_read_len k n d s : gives (rs_read k n d s) (fun r => let '(_, d', _) := r in len d' = len d).
Proof.
  destruct k; cbn [rs_read]; [apply rs_words_len|apply rs_uuids_len|].
  eapply gives_bind; [apply rs_words_len|]. intros [[got d'] s'] H. exact H.
Qed.

(** ** Items *)
Lemma resize_gives {A} e size (fill : A) n l (Q : A -> Prop) : Q fill -> Forall Q l ->
  gives (resize e size fill n l) (fun l' => Forall Q l' /\ len l' = n /\ n * size <= e_lim e).
Proof.
  intros Hf Hl. destruct (resize e size fill n l) as [l'| |] eqn:E; try exact I. cbn [gives].
  split; [eapply resize_forall; eassumption|]. unfold resize in E.
  destruct (N.ltb_spec (e_lim e) (n * size)); [discriminate|]. inversion E; subst. split; [|assumption].
  rewrite len_app, len_take, len_rep. lia.
Qed.
Lemma resize_len_gives {A} e size (fill : A) n l :
  gives (resize e size fill n l) (fun l' => len l' = n /\ n * size <= e_lim e).
Proof.
  unfold resize. destruct (N.ltb_spec (e_lim e) (n * size)); [exact I|]. cbn [gives]. split; [|assumption].
  rewrite len_app, len_take, len_rep. lia.
Qed.

Lemma read_pod_valid e vt k n key ok dest s :
  gives (read_pod e vt k n key ok dest s) (fun r => let '(_, d, _) := r in len d = len dest).
Proof.
  unfold read_pod. eapply gives_bind; [apply gives_any|]. intros [value_type s1] _.
  destruct (negb _); [reflexivity|]. eapply gives_bind; [apply gives_any|]. intros [bsz s2] _.
  destruct (negb (bsz =? ksize k * n + klen key) && negb (ok && (bsz =? klen key))); [reflexivity|].
  eapply gives_bind with (P := fun r => let '(_, d, _) := r in len d = len dest).
  { destruct (negb _); [reflexivity|apply rs_read_len]. }
  intros [[rc d1] s3] H. destruct (negb _); [exact H|].
  eapply gives_bind; [apply gives_any|]. intros [[kl buf] s4] _. destruct (negb _); [exact H|].
  eapply gives_bind; [apply gives_any|]. intros same _. destruct (negb same); [exact H|].
  destruct (negb (_ =? add64 _ _)); exact H.
Qed.

Lemma read_string_valid e vt key ok dest s : e_small e -> len dest < two64 ->
  gives (read_string e vt key ok dest s) (fun r => let '(_, d, _) := r in len d < two64).
Proof.
  intros He Hd. unfold read_string. eapply gives_bind; [apply gives_any|]. intros [ex s1] _.
  destruct (ex =? 0); [exact Hd|]. destruct (rs_pos s1 =? ex); [exact Hd|].
  eapply gives_bind; [apply gives_any|]. intros [size s2] _. destruct (_ <? size); [exact Hd|].
  eapply gives_bind; [apply resize_len_gives|]. intros d1 (L & B). unfold e_small in He.
  assert (H1 : len d1 < two64) by (unfold two64; lia).
  eapply gives_bind with (P := fun r => let '(_, d, _) := r in len d < two64).
  { destruct (0 <? size); [|exact H1]. eapply gives_impl; [apply rs_read_len|]. intros [[? ?] ?] ->. exact H1. }
  intros [[got d2] s3] H2. destruct (negb _); [exact H2|]. destruct (end_read _ _); exact H2.
Qed.

Lemma read_single_valid e vt t key ok dest s : e_small e -> val_ok t dest ->
  gives (read_single e vt (dshape t) key ok dest s) (fun r => let '(_, v, _) := r in val_ok t v).
Proof.
  unfold val_ok. intros He Hd. destruct (dshape t) as [| |k n]; cbn [read_single].
  - eapply gives_bind; [apply gives_any|]. intros [[? ?] ?] _. exact I.
  - destruct dest; cbn in Hd; try contradiction.
    eapply gives_bind; [apply read_string_valid; [exact He|exact Hd]|]. intros [[? ?] ?] H. exact H.
  - destruct dest; cbn in Hd; try contradiction.
    eapply gives_bind; [apply read_pod_valid|]. intros [[? d] ?] H. cbn [gives shape_ok]. cbn [pod_image] in H. congruence.
Qed.

(** ** Arrays *)
Lemma words32_ok n : forall l, ix_ok (words32 n l).
Proof.
  induction n as [|n IH]; intros l; cbn [words32]; constructor; [|apply IH].
  pose proof (of_le_bound (take 4 l)) as H. pose proof (len_take 4 l) as L.
  eapply N.lt_le_trans; [exact H|]. change (2^32) with (256^4). apply N.pow_le_mono_r; lia.
Qed.
Lemma read_meta_valid e c0 bend ix s : match ix with Some l => ix_ok l | None => True end ->
  gives (read_meta e c0 bend ix s) (fun r => let '(_, _, _, ix', _) := r in match ix' with Some l => ix_ok l | None => True end).
Proof.
  intros Hix. unfold read_meta. eapply gives_bind; [apply gives_any|]. intros [fl s1] _.
  destruct (negb (N.land fl 512 =? 0)); [exact Hix|]. eapply gives_bind; [apply gives_any|]. intros [count s2] _.
  destruct (negb (N.land fl 256 =? 0)); [|destruct ix; exact Hix].
  destruct ix as [l|]; [|exact Hix]. eapply gives_bind; [apply gives_any|]. intros [ic s3] _.
  destruct (_ <? ic); [exact Hix|]. eapply gives_bind; [apply gives_any|]. intros l1 _.
  eapply gives_bind; [apply gives_any|]. intros [[? im] s4] _. apply words32_ok.
Qed.

Lemma read_strings_valid e bend : e_small e -> forall l s, Forall (fun d => len d < two64) l ->
  gives (read_strings e bend l s) (fun r => let '(_, l', _) := r in Forall (fun d => len d < two64) l' /\ len l' = len l).
Proof.
  intros He l. unfold e_small in He. induction l as [|d l IH]; intros s Hl; cbn [read_strings]; [split; [constructor|reflexivity]|].
  inversion Hl as [|? ? Hd Hl']; subst. eapply gives_bind; [apply gives_any|]. intros [size s1] _.
  destruct (_ <? size); [split; [exact Hl|reflexivity]|].
  eapply gives_bind; [apply resize_len_gives|]. intros d1 (L & B).
  assert (H1 : len d1 < two64) by (unfold two64; lia).
  eapply gives_bind with (P := fun r => let '(_, d, _) := r in len d < two64).
  { destruct (0 <? size); [|exact H1]. eapply gives_impl; [apply rs_read_len|]. intros [[? ?] ?] ->. exact H1. }
  intros [[got d2] s2] H2. destruct (negb _); [split; [constructor; assumption|rewrite !len_cons; reflexivity]|].
  eapply gives_bind; [apply IH; exact Hl'|]. intros [[ok l2] s3] (A & C). split; [constructor; assumption|].
  rewrite !len_cons, C. reflexivity.
Qed.

Lemma unpack_len n : forall i v, gives (unpack_loop n i v) (fun l => length l = n).
Proof.
  induction n as [|n IH]; intros i v; cbn [unpack_loop]; [reflexivity|]. destruct (_ <? _); [|exact I].
  eapply gives_bind; [apply IH|]. intros l H. cbn [gives length]. congruence.
Qed.

Lemma read_items_valid e t bend per count dest s : e_small e -> vec_ok t dest ->
  gives (read_items e (dshape t) bend per count dest s) (fun r => let '(_, l, _) := r in vec_ok t l).
Proof.
  intros He Hd. pose proof (val_default_ok t) as Hdef. pose proof (dshape_ok t) as Hok. unfold vec_ok, val_ok, e_small in *.
  destruct (dshape t) as [| |k n]; cbn [read_items].
  - destruct (_ <? _); [exact Hd|].
    destruct (N.ltb_spec (e_lim e) ((count + 7) / 8)) as [X|X]; [exact I|]. cbn [bind].
    eapply gives_bind; [apply gives_any|]. intros v _. eapply gives_bind; [apply gives_any|]. intros [[? v1] s1] _.
    eapply gives_bind; [apply unpack_len|]. intros bits Hb. cbn [gives]. split; [apply Forall_map, Forall_forall; intros; exact I|].
    unfold len. rewrite map_length, Hb.
    pose proof (N.div_mod (count + 7) 8 ltac:(lia)) as D1. pose proof (N.mod_lt (count + 7) 8 ltac:(lia)) as D2. lia.
  - destruct (_ <? _); [exact Hd|]. destruct Hd as (Hf & Hl).
    eapply gives_bind; [apply (resize_gives e sizeof_string (VS []) count dest (shape_ok ShString)); [exact Hdef|exact Hf]|].
    intros d1 (Hf1 & L & B).
    eapply gives_bind; [apply (read_strings_valid e bend He)|].
    { apply Forall_map. eapply Forall_impl; [|exact Hf1]. intros v Hv. destruct v; cbn in Hv; try contradiction. exact Hv. }
    intros [[ok l] s1] (A & C). cbn [gives]. split; [apply Forall_map; exact A|].
    rewrite len_map, C, len_map. unfold sizeof_string in B. lia.
  - destruct (negb _); [exact Hd|]. destruct (_ <? count); [exact Hd|]. destruct Hd as (Hf & Hl).
    eapply gives_bind; [apply (resize_gives e _ (val_default (ShPod k n)) (count / n) dest (shape_ok (ShPod k n))); [exact Hdef|exact Hf]|].
    intros d1 (Hf1 & L & B). eapply gives_bind; [apply rs_read_len|]. intros [[got im] s1] Hi. cbn [gives].
    pose proof (len_pods _ k n d1 eq_refl Hf1) as Hlp. cbn [h_ok] in Hok. pose proof (ksize_pos k) as Hk.
    destruct (pods_of_ok k n (N.to_nat (count / n)) im) as (P1 & _ & P3); [lia|]. split; [exact P1|]. rewrite P3. nia.
Qed.

Lemma read_array_valid e vt t key ok dest ix s : e_small e -> vec_ok t dest ->
  match ix with Some l => ix_ok l | None => True end ->
  gives (read_array e vt (dshape t) key ok dest ix s) (fun r => let '(_, l, ix', _) := r in
    vec_ok t l /\ match ix' with Some l => ix_ok l | None => True end).
Proof.
  intros He Hd Hix. unfold read_array. eapply gives_bind; [apply gives_any|]. intros [bend s1] _.
  destruct (bend =? 0); [split; assumption|]. destruct (bend =? rs_pos s1); [split; assumption|].
  eapply gives_bind; [apply read_meta_valid; exact Hix|]. intros [[[[ok1 per] count] ix1] s2] H1.
  destruct (negb ok1); [cbn; auto|].
  eapply gives_bind; [apply read_items_valid; [exact He|exact Hd]|]. intros [[ok2 l1] s3] H2.
  destruct (negb ok2); [cbn; auto|]. destruct (end_read _ _); cbn; auto.
Qed.

Lemma vec_ok_nil t : vec_ok t [].
Proof. split; [apply Forall_nil|reflexivity]. Qed.
Lemma ix_or_nil_ok o : match o with Some l => ix_ok l | None => True end -> ix_ok (ix_or_nil o).
Proof. destruct o; [auto|intros _; constructor]. Qed.

Lemma er_read_plain_valid e t key dest s : e_small e -> cval_ok t dest ->
  gives (er_read_plain e t key dest s) (fun r => let '(_, v, _) := r in cval_ok t v /\ cval_ctype v = cval_ctype dest).
Proof.
  intros He Hd. destruct dest as [v|o|l|o|l ix|o]; cbn [er_read_plain cval_ok] in *.
  - eapply gives_bind; [apply read_single_valid; assumption|]. intros [[st v1] s1] H. split; [exact H|reflexivity].
  - eapply gives_bind; [apply read_single_valid; [exact He|apply val_default_ok]|]. intros [[st v1] s1] H.
    destruct st; split; try reflexivity; try exact H; exact I.
  - eapply gives_bind; [apply read_array_valid; [exact He|exact Hd|exact I]|]. intros [[[st l1] ix1] s1] (H & _). split; [exact H|reflexivity].
  - eapply gives_bind; [apply read_array_valid; [exact He|apply vec_ok_nil|exact I]|]. intros [[[st l1] ix1] s1] (H & _).
    destruct st; split; try reflexivity; try exact H; exact I.
  - destruct Hd as (Hd & Hix).
    eapply gives_bind; [apply (read_array_valid e _ t key false l (Some ix)); [exact He|exact Hd|exact Hix]|].
    intros [[[st l1] ix1] s1] (H & G). split; [split; [exact H|apply ix_or_nil_ok; exact G]|reflexivity].
  - eapply gives_bind; [apply (read_array_valid e _ t key true [] (Some [])); [exact He|apply vec_ok_nil|constructor]|].
    intros [[[st l1] ix1] s1] (H & G). apply ix_or_nil_ok in G. destruct st; split; try reflexivity; try (split; assumption); exact I.
Qed.

Lemma er_read_valid e t key dest s : e_small e -> cval_ok t dest -> replaced t dest ->
  gives (er_read e t key dest s) (fun r => let '(_, v, _) := r in cval_ok t v /\ cval_ctype v = cval_ctype dest).
Proof.
  intros He Hd Hr.
  assert (G : forall t', dshape t' = dshape t -> (t = TEntityRef \/ t = TPackageRef) ->
    gives (er_read_override e t' key dest s) (fun r => let '(_, v, _) := r in cval_ok t v /\ cval_ctype v = cval_ctype dest)).
  { intros t' Hsh Ht. unfold er_read_override.
    eapply gives_bind; [apply er_read_plain_valid; [exact He|apply cval_default_ok]|].
    intros [[ok tmp] s1] (H & C). rewrite cval_default_ctype in C. destruct (negb ok); [split; [exact Hd|reflexivity]|].
    assert (X : cval_ok t tmp).
    { unfold cval_ok, vec_ok, val_ok in *. rewrite Hsh in H. exact H. }
    assert (Hr' : match dest with CVec l | CIdx l _ => l = [] | _ => True end) by (destruct Ht as [-> | ->]; exact Hr).
    destruct dest; destruct tmp; try discriminate C; cbn [gives]; try (split; [exact X|reflexivity]); subst; cbn [app];
      split; (exact X || reflexivity). }
  destruct t; try (apply er_read_plain_valid; assumption).
  - apply G; [reflexivity|auto].
  - apply G; [reflexivity|auto].
Qed.
