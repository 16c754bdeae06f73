(** * Proofs of the stream properties (statements in Properties_Streams.v). *)
From Verif Require Import Base Bytes BytesFacts Values Streams FileSpec ReadSpec StreamFacts.
Open Scope N_scope.

(** ** images and stored bytes *)
Lemma len_image x : scalar_ok x -> len (image x) = ksize (scalar_kind x).
Proof.
  destruct x as [w v|d1 d2 d3 d4|h]; cbn [scalar_ok image scalar_kind ksize]; intros H.
  - rewrite len_le. lia.
  - rewrite !len_app, !len_le. lia.
  - exact H.
Qed.
Lemma len_images k xs :
  Forall (fun x => scalar_kind x = k /\ scalar_ok x) xs -> len (images xs) = len xs * ksize k.
Proof.
  induction 1 as [|x xs (Hk & Hok) _ IH]; [reflexivity|].
  unfold images in *. cbn [flat_map]. rewrite len_app, IH, len_image, Hk, len_cons by exact Hok. lia.
Qed.
Lemma scalar_of_image x : scalar_ok x -> scalar_of (scalar_kind x) (image x) = x.
Proof.
  destruct x as [w v|d1 d2 d3 d4|h]; cbn [scalar_ok image scalar_kind scalar_of]; intros H.
  - rewrite of_le_le_small; [reflexivity|]. rewrite Nnat.N2Nat.id. exact H.
  - destruct H as (H1 & H2 & H3 & H4).
    rewrite take_app_exact by (rewrite len_le; reflexivity).
    rewrite (drop_app_exact (le 4 d1)) by (rewrite len_le; reflexivity).
    rewrite take_app_exact by (rewrite len_le; reflexivity).
    rewrite (app_assoc (le 4 d1)). rewrite (drop_app_exact (le 4 d1 ++ le 2 d2)) by (rewrite len_app, !len_le; reflexivity).
    rewrite take_app_exact by (rewrite len_le; reflexivity).
    rewrite (app_assoc (_ ++ _)). rewrite drop_app_exact by (rewrite !len_app, !len_le; reflexivity).
    rewrite !of_le_le_small by assumption. reflexivity.
  - reflexivity.
Qed.

Lemma uuid_wire_stored d1 d2 d3 d4 fl :
  scalar_ok (SUuid d1 d2 d3 d4) ->
  uuid_to_wire (image (SUuid d1 d2 d3 d4)) = stored fl (SUuid d1 d2 d3 d4).
Proof.
  intros (H1 & H2 & H3 & H4). cbn [image stored]. unfold uuid_to_wire.
  rewrite (take_app_exact (le 4 d1)) by (rewrite len_le; reflexivity).
  rewrite (drop_app_exact (le 4 d1)) by (rewrite len_le; reflexivity).
  rewrite (take_app_exact (le 2 d2)) by (rewrite len_le; reflexivity).
  rewrite (app_assoc (le 4 d1)).
  rewrite (drop_app_exact (le 4 d1 ++ le 2 d2)) by (rewrite len_app, !len_le; reflexivity).
  rewrite (take_app_exact (le 2 d3)) by (rewrite len_le; reflexivity).
  rewrite (app_assoc (_ ++ _)). rewrite drop_app_exact by (rewrite !len_app, !len_le; reflexivity).
  rewrite take_all by lia.
  rewrite !of_le_le_small by assumption. rewrite be32_rev, !be16_rev. reflexivity.
Qed.

Lemma wire_stored fl k xs :
  Forall (fun x => scalar_kind x = k /\ scalar_ok x) xs ->
  wire k fl (len xs) (images xs) = flat_map (stored fl) xs.
Proof.
  intros H. destruct k as [w| |].
  - cbn [wire]. destruct fl.
    + induction H as [|x xs (Hk & Hok) Hall IH]; [reflexivity|].
      unfold images in *. cbn [flat_map].
      destruct x as [w' v| |]; try discriminate. injection Hk as ->.
      replace (N.to_nat (len (SInt w v :: xs))) with (S (N.to_nat (len xs))) by (rewrite len_cons; lia).
      cbn [swap_words]. cbn [image].
      rewrite take_app_exact by (rewrite len_le; lia).
      rewrite drop_app_exact by (rewrite len_le; lia).
      rewrite IH. rewrite swap_word_rev by (rewrite len_le; lia). reflexivity.
    + induction H as [|x xs (Hk & Hok) Hall IH]; [reflexivity|].
      unfold images in *. cbn [flat_map]. rewrite IH.
      destruct x as [w' v| |]; try discriminate. reflexivity.
  - change (wire KUuid fl (len xs) (images xs)) with (uuid_wire (N.to_nat (len xs)) (images xs)).
    induction H as [|x xs (Hk & Hok) Hall IH]; [reflexivity|].
    unfold images in *. cbn [flat_map].
    replace (N.to_nat (len (x :: xs))) with (S (N.to_nat (len xs))) by (rewrite len_cons; lia).
    cbn [uuid_wire].
    assert (Hl : 16 = len (image x)) by (rewrite len_image, Hk by exact Hok; reflexivity).
    rewrite take_app_exact, drop_app_exact by exact Hl.
    rewrite IH. destruct x as [|d1 d2 d3 d4|]; try discriminate.
    rewrite (uuid_wire_stored d1 d2 d3 d4 fl Hok). reflexivity.
  - cbn [wire]. induction H as [|x xs (Hk & Hok) Hall IH]; [reflexivity|].
    unfold images in *. cbn [flat_map]. rewrite IH.
    destruct x as [| |h]; try discriminate. reflexivity.
Qed.

Lemma len_stored fl x : scalar_ok x -> len (stored fl x) = ksize (scalar_kind x).
Proof.
  intros H. pose proof (wire_stored fl (scalar_kind x) [x]) as E. cbn [flat_map] in E.
  rewrite app_nil_r in E. rewrite <- E by (constructor; auto).
  rewrite len_wire; unfold images; cbn [flat_map]; rewrite app_nil_r, len_image by exact H; [reflexivity|].
  change (len [x]) with 1. lia.
Qed.

(** ** C01 *)
Lemma ws_call_ok o s f :
  wop_ok o -> ws_abs s f ->
  2 * len (f_bytes (fst (f_step (f, ws_flip s) o))) <= ws_lim s ->
  exists s', ws_call o s = Done s' /\
    ws_abs s' (fst (f_step (f, ws_flip s) o)) /\
    ws_flip s' = snd (f_step (f, ws_flip s) o) /\ ws_lim s' = ws_lim s.
Proof.
  intros Hok Habs Hlim. pose proof (ws_abs_pos s f Habs) as Hpos.
  pose proof (ws_abs_size s f Habs) as Hsz. pose proof Habs as (_ & _ & Hp).
  destruct o as [k xs|p|b]; cbn [ws_call f_step fst snd] in *.
  - pose proof (len_images k xs Hok) as Hli.
    pose proof (wire_stored (ws_flip s) k xs Hok) as Hw.
    assert (Hlw : len (flat_map (stored (ws_flip s)) xs) = len (images xs))
      by (rewrite <- Hw; apply len_wire; exact Hli).
    destruct (ws_write_ok k (len xs) (images xs) s f Habs Hli) as (s' & E & A & B & C & _).
    + unfold f_put in Hlim. cbn [f_bytes] in Hlim.
      rewrite !len_app, len_take, len_drop, Hlw in Hlim. lia.
    + exists s'. rewrite Hw in A. repeat split; try assumption; apply A.
  - destruct (ws_setpos_ok p s f Habs) as (s' & E & A & B & C & _).
    + unfold f_seek in Hlim. cbn [f_bytes] in Hlim. rewrite len_app, len_rep in Hlim. lia.
    + exists s'. rewrite E. repeat split; try assumption; apply A.
  - exists (ws_setflip b s). repeat split; try apply Habs.
Qed.

Lemma ws_calls_ok ops : forall s f,
  Forall wop_ok ops -> ws_abs s f ->
  Forall (fun n => 2 * n <= ws_lim s) (f_sizes (f, ws_flip s) ops) ->
  exists s', ws_calls ops s = Done s' /\
    ws_abs s' (fst (fold_left f_step ops (f, ws_flip s))) /\
    ws_flip s' = snd (fold_left f_step ops (f, ws_flip s)) /\ ws_lim s' = ws_lim s.
Proof.
  induction ops as [|o ops IH]; intros s f Hok Habs Hlim.
  - exists s. repeat split; try apply Habs.
  - inversion Hok as [|? ? Ho Hops]; subst.
    cbn [f_sizes] in Hlim. cbv zeta in Hlim.
    pose proof (Forall_inv Hlim) as Hl. pose proof (Forall_inv_tail Hlim) as Hls. clear Hlim.
    cbv beta in Hl.
    destruct (ws_call_ok o s f Ho Habs Hl) as (s1 & E & A & B & C).
    cbn [ws_calls fold_left]. rewrite E. cbn [bind].
    destruct (f_step (f, ws_flip s) o) as [f1 fl1] eqn:Ef. cbn [fst snd] in *. subst fl1.
    destruct (IH s1 f1 Hops A) as (s2 & E2 & A2 & B2 & C2).
    + rewrite C. exact Hls.
    + exists s2. repeat split; try assumption; try congruence; apply A2.
Qed.

Lemma c01_write_stream_is_file : forall init lim ops,
  0 < init -> init <= lim -> lim < two64 ->
  Forall wop_ok ops ->
  Forall (fun n => 2 * n <= lim) (f_sizes (File [] 0, false) ops) ->
  exists s0 s, ws_new init lim = (true, s0) /\ ws_calls ops s0 = Done s /\
    ws_data s = f_bytes (fst (fold_left f_step ops (File [] 0, false))) /\
    ws_size s = len (f_bytes (fst (fold_left f_step ops (File [] 0, false)))) /\
    ws_pos s = f_pos (fst (fold_left f_step ops (File [] 0, false))) /\
    ws_flip s = snd (fold_left f_step ops (File [] 0, false)).
Proof.
  intros init lim ops H1 H2 H3 Hok Hlim.
  destruct (ws_new_ok init lim H1 H2 H3) as (s0 & E0 & A0 & F0 & L0 & _).
  destruct (ws_calls_ok ops s0 (File [] 0) Hok A0) as (s & E & A & B & C).
  { rewrite L0, F0. exact Hlim. }
  rewrite F0 in A, B.
  exists s0, s. split; [exact E0|]. split; [exact E|].
  split; [apply A|]. split; [apply ws_abs_size; exact A|]. split; [apply A|]. exact B.
Qed.

(** No history, whatever the allocator does, corrupts memory or the file: the calls either all
    complete (then with the same result as without a limit) or one of them throws. *)
Definition setlim (l : N) (s : wstream) : wstream :=
  WS (ws_mem s) (ws_size s) (ws_pos s) (ws_res s) (ws_flip s) l.

Lemma ws_reserve_lim r s s1 l :
  ws_lim s <= l -> ws_reserve r s = (true, s1) -> ws_reserve r (setlim l s) = (true, setlim l s1).
Proof.
  intros Hl. unfold ws_reserve, setlim. cbn [ws_mem ws_size ws_pos ws_res ws_flip ws_lim].
  set (d := if mul64 (ws_res s) 2 <? r then r else mul64 (ws_res s) 2).
  destruct ((0 <? d) && (d <=? ws_lim s)) eqn:E; [|discriminate].
  replace ((0 <? d) && (d <=? l)) with true by lia.
  intros H. injection H as <-. reflexivity.
Qed.
Lemma ws_reserve_lim_same r s ok s1 : ws_reserve r s = (ok, s1) -> ws_lim s1 = ws_lim s.
Proof.
  unfold ws_reserve. set (d := if mul64 (ws_res s) 2 <? r then r else mul64 (ws_res s) 2).
  destruct ((0 <? d) && (d <=? ws_lim s)); intros H; injection H as <- <-; reflexivity.
Qed.
Lemma ws_resize_lim n s s1 l :
  ws_lim s <= l -> ws_resize n s = (true, s1) ->
  ws_resize n (setlim l s) = (true, setlim l s1) /\ ws_lim s1 = ws_lim s.
Proof.
  intros Hl. unfold ws_resize. change (ws_res (setlim l s)) with (ws_res s).
  destruct (ws_res s <? n).
  - destruct (ws_reserve n s) as [ok s2] eqn:E. destruct ok; [|discriminate].
    rewrite (ws_reserve_lim n s s2 l Hl E). pose proof (ws_reserve_lim_same _ _ _ _ E) as HH.
    intros H. injection H as <-. split; [reflexivity|exact HH].
  - intros H. injection H as <-. split; reflexivity.
Qed.
(** [sim small big]: the outcome under the real limit against the outcome under a larger one. *)
Definition sim (l : N) (lim : N) (a b : res wstream) : Prop :=
  match a with
  | Done s1 => b = Done (setlim l s1) /\ ws_lim s1 = lim
  | Throw => True
  | Undef => b = Undef
  end.
Lemma ws_raw_lim src s l :
  ws_lim s <= l ->
  match ws_raw src s with
  | Done (true, s1) => ws_raw src (setlim l s) = Done (true, setlim l s1) /\ ws_lim s1 = ws_lim s
  | Done (false, _) => True
  | Throw => True
  | Undef => ws_raw src (setlim l s) = Undef
  end.
Proof.
  intros Hl. unfold ws_raw. change (ws_pos (setlim l s)) with (ws_pos s).
  change (ws_size (setlim l s)) with (ws_size s).
  assert (HX : forall s1, (if ws_size s <? add64 (ws_pos s) (len src) then ws_resize (add64 (ws_pos s) (len src)) s else (true, s)) = (true, s1) ->
     (if ws_size s <? add64 (ws_pos s) (len src) then ws_resize (add64 (ws_pos s) (len src)) (setlim l s) else (true, setlim l s)) = (true, setlim l s1) /\ ws_lim s1 = ws_lim s).
  { intros s1. destruct (ws_size s <? _); [apply ws_resize_lim; exact Hl|].
    intros H. injection H as <-. split; reflexivity. }
  destruct (if ws_size s <? _ then ws_resize _ s else (true, s)) as [ok s1].
  destruct ok; [|exact I]. destruct (HX s1 eq_refl) as (HA & HB). rewrite HA.
  change (ws_pos (setlim l s1)) with (ws_pos s1). change (ws_mem (setlim l s1)) with (ws_mem s1).
  destruct (_ <=? _); [|reflexivity]. split; [reflexivity|exact HB].
Qed.
Lemma ws_words_lim w count src s l :
  ws_lim s <= l -> sim l (ws_lim s) (thrown_res (ws_words w count src s)) (thrown_res (ws_words w count src (setlim l s))).
Proof.
  intros Hl. unfold ws_words.
  set (n := match w with W8 => count | _ => mul64 count (wbytes w) end).
  destruct (len src <? n); [reflexivity|].
  pose proof (ws_raw_lim (take n src) s l Hl) as HR.
  destruct (ws_raw (take n src) s) as [[[] s1]| |] eqn:E; cbn [bind].
  - destruct HR as (-> & HB). cbn [bind]. change (ws_flip (setlim l s)) with (ws_flip s).
    change (ws_pos (setlim l s)) with (ws_pos s). change (ws_mem (setlim l s1)) with (ws_mem s1).
    destruct w; [split; [reflexivity|exact HB]|..]; cbn [andb]; destruct (ws_flip s);
      try (split; [reflexivity|exact HB]);
      (destruct (_ <=? _); [split; [reflexivity|exact HB]|reflexivity]).
  - destruct w; exact I.
  - exact I.
  - rewrite HR. reflexivity.
Qed.
Lemma sim_bind l lim a b f :
  sim l lim a b -> (forall s, ws_lim s = lim -> sim l lim (f s) (f (setlim l s))) ->
  sim l lim (bind a f) (bind b f).
Proof.
  intros H Hf. destruct a as [s| |]; cbn [sim bind] in *.
  - destruct H as (-> & HB). cbn [bind]. apply Hf. exact HB.
  - exact I.
  - rewrite H. reflexivity.
Qed.
Lemma ws_uuids_lim c : forall src s l,
  ws_lim s <= l -> sim l (ws_lim s) (ws_uuids c src s) (ws_uuids c src (setlim l s)).
Proof.
  induction c as [|c IH]; intros src s l Hl; [split; reflexivity|].
  cbn [ws_uuids]. destruct (len src <? 16); [reflexivity|].
  apply sim_bind; [apply ws_words_lim; exact Hl|].
  intros s1 H1. rewrite <- H1 in *. apply IH. exact Hl.
Qed.
Lemma ws_call_lim o s l :
  ws_lim s <= l -> sim l (ws_lim s) (ws_call o s) (ws_call o (setlim l s)).
Proof.
  intros Hl. destruct o as [[w| |] xs|p|b]; cbn [ws_call ws_write].
  - apply ws_words_lim; exact Hl.
  - apply ws_uuids_lim; exact Hl.
  - apply ws_words_lim; exact Hl.
  - unfold ws_setpos. change (ws_size (setlim l s)) with (ws_size s).
    destruct (ws_size s <? p).
    + destruct (ws_resize p s) as [[] s1] eqn:E; [|exact I].
      destruct (ws_resize_lim p s s1 l Hl E) as (-> & HB). split; [reflexivity|exact HB].
    + split; reflexivity.
  - split; reflexivity.
Qed.
Lemma ws_calls_lim ops : forall s l,
  ws_lim s <= l -> sim l (ws_lim s) (ws_calls ops s) (ws_calls ops (setlim l s)).
Proof.
  induction ops as [|o ops IH]; intros s l Hl; [split; reflexivity|].
  cbn [ws_calls]. apply sim_bind; [apply ws_call_lim; exact Hl|].
  intros s1 H1. rewrite <- H1 in *. apply IH. exact Hl.
Qed.

Lemma c01_any_allocator : forall init lim ops,
  0 < init -> init <= lim -> lim < two64 ->
  Forall wop_ok ops ->
  Forall (fun n => n < 2^63) (f_sizes (File [] 0, false) ops) ->
  exists s0, ws_new init lim = (true, s0) /\
  (ws_calls ops s0 = Throw \/
   exists s, ws_calls ops s0 = Done s /\
    ws_data s = f_bytes (fst (fold_left f_step ops (File [] 0, false))) /\
    ws_size s = len (f_bytes (fst (fold_left f_step ops (File [] 0, false)))) /\
    ws_pos s = f_pos (fst (fold_left f_step ops (File [] 0, false))) /\
    ws_flip s = snd (fold_left f_step ops (File [] 0, false))).
Proof.
  intros init lim ops H1 H2 H3 Hok Hlim.
  destruct (ws_new_ok init lim H1 H2 H3) as (s0 & E0 & A0 & F0 & L0 & _).
  exists s0. split; [exact E0|].
  assert (Abig : ws_abs (setlim (two64 - 1) s0) (File [] 0)).
  { destruct A0 as ((G1 & G2 & G3 & G4 & G5 & G6) & G7 & G8).
    repeat split; try assumption; unfold setlim; cbn [ws_res ws_lim ws_size ws_mem]; unfold two64 in *; lia. }
  destruct (ws_calls_ok ops (setlim (two64 - 1) s0) (File [] 0) Hok Abig) as (s & E & A & B & _).
  { change (ws_flip (setlim (two64 - 1) s0)) with (ws_flip s0). rewrite F0.
    cbn [ws_lim setlim]. eapply Forall_impl; [|exact Hlim].
    intros n Hn. cbv beta in Hn. unfold two64. lia. }
  change (ws_flip (setlim (two64 - 1) s0)) with (ws_flip s0) in *. rewrite F0 in A, B.
  pose proof (ws_calls_lim ops s0 (two64 - 1)) as Hsim. rewrite E in Hsim.
  specialize (Hsim ltac:(unfold two64 in *; lia)).
  destruct (ws_calls ops s0) as [s1| |]; cbn [sim] in Hsim; [right|left; reflexivity|discriminate].
  exists s1. split; [reflexivity|]. destruct Hsim as (Hs & _). injection Hs as ->.
  split; [apply A|]. split; [apply (ws_abs_size _ _ A)|]. split; [apply A|]. exact B.
Qed.

(** ** C02 *)
Lemma rs_scalar_ok x pre post fl :
  scalar_ok x -> len pre + ksize (scalar_kind x) + len post < two64 ->
  rs_scalar (scalar_kind x) (rs_at pre (stored fl x ++ post) fl)
  = Done (x, rs_at (pre ++ stored fl x) post fl).
Proof.
  intros Hok Hsz. unfold rs_scalar, rs_read1.
  pose proof (len_image x Hok) as Hl.
  pose proof (wire_stored fl (scalar_kind x) [x]) as Hw. cbn [flat_map] in Hw.
  unfold images in Hw. cbn [flat_map] in Hw. rewrite !app_nil_r in Hw.
  change (len [x]) with 1 in Hw.
  rewrite <- Hw by (constructor; auto).
  rewrite rs_read_ok.
  - cbn [bind]. rewrite scalar_of_image by exact Hok. reflexivity.
  - lia.
  - rewrite len_rep. lia.
  - lia.
Qed.

Lemma rs_scalars_ok fl xs : forall pre post,
  Forall scalar_ok xs -> len pre + len (flat_map (stored fl) xs) + len post < two64 ->
  rs_scalars (map scalar_kind xs) (rs_at pre (flat_map (stored fl) xs ++ post) fl)
  = Done (xs, rs_at (pre ++ flat_map (stored fl) xs) post fl).
Proof.
  induction xs as [|x xs IH]; intros pre post H Hsz.
  - cbn [flat_map map rs_scalars app]. rewrite app_nil_r. reflexivity.
  - inversion H as [|? ? Hx Hxs]; subst. cbn [flat_map map rs_scalars] in *.
    rewrite len_app, (len_stored fl x Hx) in Hsz.
    rewrite <- app_assoc. rewrite rs_scalar_ok by (try exact Hx; rewrite len_app; lia).
    cbn [bind]. rewrite IH by (try exact Hxs; rewrite len_app, (len_stored fl x Hx); lia).
    cbn [bind]. rewrite <- app_assoc. reflexivity.
Qed.

Lemma fold_write_each fl xs : forall c,
  fold_left f_step (write_each xs) (File c (len c), fl)
  = (File (c ++ flat_map (stored fl) xs) (len (c ++ flat_map (stored fl) xs)), fl).
Proof.
  induction xs as [|x xs IH]; intros c.
  - cbn. rewrite app_nil_r. reflexivity.
  - cbn [write_each map fold_left f_step flat_map]. rewrite f_put_end, app_nil_r.
    change (map _ xs) with (write_each xs). rewrite IH. rewrite <- app_assoc. reflexivity.
Qed.
Lemma f_sizes_write_each fl xs : forall c n,
  len c + len (flat_map (stored fl) xs) <= n ->
  Forall (fun m => m <= n) (f_sizes (File c (len c), fl) (write_each xs)).
Proof.
  induction xs as [|x xs IH]; intros c n H; [constructor|].
  cbn [write_each map f_sizes f_step flat_map] in *. rewrite app_nil_r.
  rewrite f_put_end. cbn [fst f_bytes]. rewrite len_app in H.
  constructor; [rewrite len_app; lia|].
  apply IH. rewrite len_app. lia.
Qed.

Lemma c02_roundtrip : forall init lim fl xs,
  0 < init -> init <= lim -> lim < two64 ->
  Forall scalar_ok xs ->
  2 * len (flat_map (stored fl) xs) <= lim ->
  exists s0 s, ws_new init lim = (true, s0) /\
    ws_calls (OFlip fl :: write_each xs) s0 = Done s /\
    ws_data s = flat_map (stored fl) xs /\
    rs_scalars (map scalar_kind xs) (RS (ws_data s) 0 fl)
    = Done (xs, RS (ws_data s) (len (ws_data s)) fl).
Proof.
  intros init lim fl xs H1 H2 H3 Hok Hlim.
  destruct (c01_write_stream_is_file init lim (OFlip fl :: write_each xs)) as (s0 & s & E0 & E & A & B & C & D).
  - exact H1.
  - exact H2.
  - exact H3.
  - constructor; [exact I|]. apply Forall_map. eapply Forall_impl; [|exact Hok].
    intros x Hx. cbn. constructor; auto.
  - cbn [f_sizes f_step fst f_bytes]. constructor; [change (len (@nil byte)) with 0; lia|].
    eapply Forall_impl; [|apply (f_sizes_write_each fl xs [] (len (flat_map (stored fl) xs)))].
    + intros n Hn. cbv beta in Hn. lia.
    + change (len (@nil byte)) with 0. lia.
  - exists s0, s. split; [exact E0|]. split; [exact E|].
    cbn [fold_left f_step] in A. change (File [] 0) with (File [] (len (@nil byte))) in A.
    rewrite fold_write_each in A. cbn [fst f_bytes app] in A.
    split; [exact A|]. rewrite A.
    pose proof (rs_scalars_ok fl xs [] [] Hok) as Q. rewrite !app_nil_r in Q.
    unfold rs_at in Q. cbn [app] in Q. rewrite !app_nil_r in Q. change (len (@nil byte)) with 0 in Q.
    apply Q. lia.
Qed.

(** ** C03: reading with the other byte order. *)
Lemma byte_swapped_ok : forall x, scalar_ok x -> scalar_ok (byte_swapped x).
Proof.
  intros x Hok. destruct x as [w v| |]; cbn [byte_swapped scalar_ok] in *; try exact Hok.
  pose proof (of_le_bound (rev (le (N.to_nat (wbytes w)) v))) as Hb.
  rewrite len_rev, len_le, Nnat.N2Nat.id in Hb. exact Hb.
Qed.
Lemma stored_swapped : forall fl x, stored fl x = stored (negb fl) (byte_swapped x).
Proof.
  intros fl x. destruct x as [w v| |]; cbn [byte_swapped stored]; [|reflexivity|reflexivity].
  rewrite le_of_le_n by (rewrite rev_length, le_length; reflexivity).
  destruct fl; cbn [negb]; [reflexivity|rewrite rev_involutive; reflexivity].
Qed.
Lemma c03_cross_streams : forall init lim fl xs,
  0 < init -> init <= lim -> lim < two64 ->
  Forall scalar_ok xs ->
  2 * len (flat_map (stored fl) xs) <= lim ->
  exists s0 s, ws_new init lim = (true, s0) /\
    ws_calls (OFlip fl :: write_each xs) s0 = Done s /\
    ws_data s = flat_map (stored fl) xs /\
    rs_scalars (map scalar_kind xs) (RS (ws_data s) 0 (negb fl))
    = Done (map byte_swapped xs, RS (ws_data s) (len (ws_data s)) (negb fl)).
Proof.
  intros init lim fl xs H1 H2 H3 Hok Hlim.
  destruct (c02_roundtrip init lim fl xs H1 H2 H3 Hok Hlim) as (s0 & s & E0 & E & A & _).
  exists s0, s. split; [exact E0|]. split; [exact E|]. split; [exact A|]. rewrite A.
  assert (F : flat_map (stored fl) xs = flat_map (stored (negb fl)) (map byte_swapped xs)).
  { clear. induction xs as [|x r IH]; [reflexivity|]. cbn [flat_map map]. rewrite IH, (stored_swapped fl x). reflexivity. }
  assert (K : map scalar_kind xs = map scalar_kind (map byte_swapped xs)).
  { clear. induction xs as [|x r IH]; [reflexivity|]. cbn [map]. rewrite IH. f_equal. destruct x; reflexivity. }
  rewrite F in *. rewrite K.
  assert (Hok' : Forall scalar_ok (map byte_swapped xs)).
  { apply Forall_map. eapply Forall_impl; [|exact Hok]. intros x Hx. apply byte_swapped_ok. exact Hx. }
  pose proof (rs_scalars_ok (negb fl) (map byte_swapped xs) [] [] Hok') as Q. rewrite !app_nil_r in Q.
  unfold rs_at in Q. cbn [app] in Q. rewrite !app_nil_r in Q. change (len (@nil byte)) with 0 in Q.
  apply Q. lia.
Qed.
Lemma c03_cross_order : forall fl x pre post,
  scalar_ok x -> len pre + ksize (scalar_kind x) + len post < two64 ->
  rs_scalar (scalar_kind x) (RS (pre ++ stored fl x ++ post) (len pre) (negb fl))
  = Done (byte_swapped x, RS (pre ++ stored fl x ++ post) (len pre + ksize (scalar_kind x)) (negb fl)).
Proof.
  intros fl x pre post Hok Hsz.
  assert (Hst : stored fl x = stored (negb fl) (byte_swapped x)).
  { destruct x as [w v| |]; cbn [byte_swapped stored].
    - rewrite le_of_le_n by (rewrite rev_length, le_length; reflexivity).
      destruct fl; cbn [negb]; [reflexivity|rewrite rev_involutive; reflexivity].
    - reflexivity.
    - reflexivity. }
  assert (Hok' : scalar_ok (byte_swapped x)).
  { destruct x as [w v| |]; cbn [byte_swapped scalar_ok] in *; try exact Hok.
    pose proof (of_le_bound (rev (le (N.to_nat (wbytes w)) v))) as Hb.
    rewrite len_rev, len_le, Nnat.N2Nat.id in Hb. exact Hb. }
  assert (Hk : scalar_kind (byte_swapped x) = scalar_kind x) by (destruct x; reflexivity).
  pose proof (rs_scalar_ok (byte_swapped x) pre post (negb fl) Hok') as Q.
  rewrite Hk, <- Hst in Q. specialize (Q Hsz).
  change (RS (pre ++ stored fl x ++ post) (len pre) (negb fl)) with (rs_at pre (stored fl x ++ post) (negb fl)).
  rewrite Q. unfold rs_at. rewrite len_app, <- app_assoc, (len_stored fl x Hok). reflexivity.
Qed.

(** Big-endian helpers. *)
Lemma c03_bigendian_inverse : forall v,
  (v < 2^16 -> from_be16 (be16 v) = v) /\
  (v < 2^32 -> from_be32 (be32 v) = v) /\
  (v < 2^64 -> from_be64 (be64 v) = v).
Proof.
  intros v. repeat split; intros Hv.
  - rewrite be16_rev, from_be16_rev by reflexivity. rewrite rev_involutive. apply of_le_le_small. exact Hv.
  - rewrite be32_rev, from_be32_rev by (rewrite rev_length; apply le_length).
    rewrite rev_involutive. apply of_le_le_small. exact Hv.
  - rewrite be64_rev, from_be64_rev by (rewrite rev_length; apply le_length).
    rewrite rev_involutive. apply of_le_le_small. exact Hv.
Qed.
Lemma c03_bigendian_inverse' : forall l,
  (length l = 2%nat -> be16 (from_be16 l) = l) /\
  (length l = 4%nat -> be32 (from_be32 l) = l) /\
  (length l = 8%nat -> be64 (from_be64 l) = l).
Proof.
  intros l. repeat split; intros Hl.
  - rewrite from_be16_rev, be16_rev by exact Hl.
    rewrite le_of_le_n by (rewrite rev_length; exact Hl). apply rev_involutive.
  - rewrite from_be32_rev, be32_rev by exact Hl.
    rewrite le_of_le_n by (rewrite rev_length; exact Hl). apply rev_involutive.
  - rewrite from_be64_rev, be64_rev by exact Hl.
    rewrite le_of_le_n by (rewrite rev_length; exact Hl). apply rev_involutive.
Qed.
Lemma c03_swap_reverses_words : forall w ws,
  Forall (fun x => len x = wbytes w) ws ->
  swap_words w (length ws) (concat ws) = concat (map (@rev byte) ws).
Proof.
  intros w ws H. induction H as [|x ws Hx H IH]; [reflexivity|].
  cbn [concat map length swap_words].
  rewrite take_app_exact, drop_app_exact by (symmetry; exact Hx).
  rewrite IH, swap_word_rev by exact Hx. reflexivity.
Qed.

(** ** C04: read stream safety *)
Definition rs_inv (s : rstream) : Prop := rs_pos s <= rs_size s /\ rs_size s < two64.

(** Memory image of the items stored in [bs]. *)
Definition uuid_unwire : nat -> list byte -> list byte :=
  fix go (c : nat) (l : list byte) : list byte :=
    match c with O => l | S c' => uuid_from_wire (take 16 l) ++ go c' (drop 16 l) end.
Definition unwire (k : kind) (fl : bool) (count : N) (bs : list byte) : list byte :=
  match k with
  | KW w => if fl then swap_words w (N.to_nat count) bs else bs
  | KUuid => uuid_unwire (N.to_nat count) bs
  | KHash => bs
  end.

Lemma rs_raw_total count dest s :
  rs_inv s -> rs_pos s + count < two64 -> count <= len dest ->
  rs_raw count dest s =
    Done (N.min count (rs_size s - rs_pos s),
          take (N.min count (rs_size s - rs_pos s)) (drop (rs_pos s) (rs_data s))
            ++ drop (N.min count (rs_size s - rs_pos s)) dest,
          RS (rs_data s) (N.min (rs_size s) (rs_pos s + count)) (rs_flip s)).
Proof.
  intros (Hp & Hs) Hc Hd. unfold rs_raw. rewrite add64_small by lia.
  destruct (N.ltb_spec (rs_size s) (rs_pos s + count)) as [H|H].
  - rewrite sub64_small by lia.
    replace ((rs_pos s + (rs_size s - rs_pos s) <=? rs_size s) && (rs_size s - rs_pos s <=? len dest)) with true by lia.
    replace (N.min count (rs_size s - rs_pos s)) with (rs_size s - rs_pos s) by lia.
    replace (N.min (rs_size s) (rs_pos s + count)) with (rs_size s) by lia. reflexivity.
  - replace ((rs_pos s + count <=? rs_size s) && (count <=? len dest)) with true by lia.
    replace (N.min count (rs_size s - rs_pos s)) with count by lia.
    replace (N.min (rs_size s) (rs_pos s + count)) with (rs_pos s + count) by lia. reflexivity.
Qed.

Lemma take_swap_words w c g l :
  (g <= c)%nat -> N.of_nat c * wbytes w <= len l ->
  take (N.of_nat g * wbytes w) (swap_words w c l) = swap_words w g (take (N.of_nat g * wbytes w) l).
Proof.
  intros Hg Hl.
  rewrite <- (take_drop (N.of_nat g * wbytes w) l) at 1.
  replace c with (g + (c - g))%nat by lia.
  rewrite swap_words_add by (rewrite len_take; nia).
  rewrite take_app_exact; [reflexivity|].
  rewrite len_swap_words; rewrite len_take; nia.
Qed.

Definition read_raw_spec (k : kind) (count : N) (dest : list byte) (s : rstream)
  (n : N) (d : list byte) (s' : rstream) : Prop :=
  n = N.min count ((rs_size s - rs_pos s) / ksize k) /\
  len d = len dest /\
  take (n * ksize k) d = unwire k (rs_flip s) n (take (n * ksize k) (drop (rs_pos s) (rs_data s))) /\
  rs_data s' = rs_data s /\ rs_flip s' = rs_flip s /\
  rs_pos s' = N.min (rs_size s) (rs_pos s + count * ksize k).

Lemma min_div count a k : 0 < k -> N.min (count * k) a / k = N.min count (a / k).
Proof.
  intros Hk. destruct (N.le_gt_cases (count * k) a) as [H|H].
  - rewrite N.min_l by exact H. rewrite N.div_mul by lia.
    rewrite N.min_l; [reflexivity|]. apply N.div_le_lower_bound; lia.
  - rewrite N.min_r by lia. rewrite N.min_r; [reflexivity|].
    apply N.lt_le_incl. apply N.div_lt_upper_bound; lia.
Qed.

Lemma rs_words_total w count dest s :
  rs_inv s -> rs_pos s + count * wbytes w < two64 -> count * wbytes w <= len dest ->
  exists n d s', rs_words w count dest s = Done (n, d, s') /\ read_raw_spec (KW w) count dest s n d s'.
Proof.
  intros Hinv Hc Hd. pose proof Hinv as (Hp & Hs). pose proof (wbytes_pos w) as Hw.
  pose proof (rs_raw_total (count * wbytes w) dest s Hinv Hc Hd) as HR.
  set (g := N.min (count * wbytes w) (rs_size s - rs_pos s)) in *.
  assert (Hg : g / wbytes w = N.min count ((rs_size s - rs_pos s) / wbytes w)) by (apply min_div; exact Hw).
  assert (Hlt : len (take g (drop (rs_pos s) (rs_data s))) = g).
  { rewrite len_take, len_drop. unfold rs_size in *. lia. }
  assert (Hgk : (g / wbytes w) * wbytes w <= g)
    by (rewrite N.mul_comm; apply N.mul_div_le; lia).
  assert (Hdiv : g / wbytes w <= count) by lia.
  assert (Hld : len (take g (drop (rs_pos s) (rs_data s)) ++ drop g dest) = len dest).
  { rewrite len_app, Hlt, len_drop. lia. }
  assert (Htk : take (g / wbytes w * wbytes w) (take g (drop (rs_pos s) (rs_data s)) ++ drop g dest)
      = take (g / wbytes w * wbytes w) (drop (rs_pos s) (rs_data s))).
  { rewrite take_app_le by lia. rewrite take_take. f_equal. lia. }
  destruct w; cbn [rs_words].
  1:{ cbn [wbytes] in *. rewrite N.mul_1_r in *.
      rewrite N.div_1_r in Hg. rewrite !N.div_1_r in *.
      do 3 eexists. split; [rewrite HR; reflexivity|]. unfold read_raw_spec. cbn [ksize wbytes unwire].
      rewrite !N.mul_1_r in *. rewrite N.div_1_r. cbn [rs_data rs_flip rs_pos].
      split; [exact Hg|]. split; [exact Hld|]. split.
      - rewrite swap_words_W8. rewrite Htk. destruct (rs_flip s); reflexivity.
      - repeat split. }
  all: rewrite mul64_small by lia; rewrite HR; cbn [bind].
  all: destruct (rs_flip s) eqn:Ef.
  all: try (rewrite Hld; destruct (N.leb_spec (count * wbytes W16) (len dest)) as [_|X]; [|lia]).
  all: try (rewrite Hld; destruct (N.leb_spec (count * wbytes W32) (len dest)) as [_|X]; [|lia]).
  all: try (rewrite Hld; destruct (N.leb_spec (count * wbytes W64) (len dest)) as [_|X]; [|lia]).
  all: do 3 eexists; (split; [reflexivity|]); unfold read_raw_spec; cbn [ksize unwire rs_data rs_flip rs_pos];
       rewrite ?Ef; rewrite <- Hg.
  all: split; [reflexivity|].
  all: split; [first [exact Hld | rewrite len_swap_words by lia; exact Hld]|].
  all: split; [|repeat split].
  all: try exact Htk.
  all: match goal with |- context[swap_words ?w _ _] =>
    generalize dependent g; intros g; intros;
    assert (HX : g / wbytes w * wbytes w = N.of_nat (N.to_nat (g / wbytes w)) * wbytes w) by lia;
    rewrite HX at 1; rewrite take_swap_words by lia; rewrite <- HX, Htk; reflexivity end.
Qed.

Lemma rs_uuids_total c : forall i dest s,
  rs_inv s -> rs_pos s + N.of_nat c * 16 < two64 -> (i + N.of_nat c) * 16 <= len dest ->
  exists n d s', rs_uuids c i dest s = Done (n, d, s') /\
    n = i + N.min (N.of_nat c) ((rs_size s - rs_pos s) / 16) /\ len d = len dest /\
    take (n * 16) d = take (i * 16) dest
       ++ uuid_unwire (N.to_nat (n - i)) (take ((n - i) * 16) (drop (rs_pos s) (rs_data s))) /\
    rs_data s' = rs_data s /\ rs_flip s' = rs_flip s /\
    rs_pos s' = N.min (rs_size s) (rs_pos s + N.of_nat c * 16).
Proof.
  induction c as [|c IH]; intros i dest s Hinv Hc Hd; pose proof Hinv as (Hp & Hs).
  - cbn [rs_uuids]. do 3 eexists. split; [reflexivity|].
    replace (i + N.min (N.of_nat 0) ((rs_size s - rs_pos s) / 16)) with i by lia.
    rewrite N.sub_diag. change (0 * 16) with 0. rewrite take_0. cbn [N.to_nat uuid_unwire].
    rewrite app_nil_r. repeat split. lia.
  - cbn [rs_uuids].
    pose proof (rs_raw_total 16 (rep x00 16) s Hinv) as HR.
    rewrite len_rep in HR. cbn [rs_words]. rewrite HR by lia. clear HR. cbn [bind].
    destruct (N.eqb_spec (N.min 16 (rs_size s - rs_pos s)) 16) as [E|E].
    + destruct (N.leb_spec ((i + 1) * 16) (len dest)) as [_|X]; [|lia].
      rewrite E. rewrite drop_rep, N.sub_diag, rep_0, app_nil_r.
      set (raw := take 16 (drop (rs_pos s) (rs_data s))).
      set (s1 := RS (rs_data s) (N.min (rs_size s) (rs_pos s + 16)) (rs_flip s)).
      assert (Hr : len raw = 16) by (unfold raw; rewrite len_take, len_drop; unfold rs_size in *; lia).
      assert (Hu : len (uuid_from_wire raw) = 16).
      { apply len_length. rewrite len_uuid_from_wire; [reflexivity|]. apply len_length in Hr. exact Hr. }
      set (d1 := take (i * 16) dest ++ uuid_from_wire raw ++ drop ((i + 1) * 16) dest).
      assert (Hd1 : len d1 = len dest) by (unfold d1; rewrite !len_app, Hu, len_take, len_drop; lia).
      assert (Hsz1 : rs_size s1 = rs_size s) by reflexivity.
      assert (Hp1 : rs_pos s1 = rs_pos s + 16) by (unfold s1; cbn [rs_pos]; lia).
      destruct (IH (i + 1) d1 s1) as (n & d & s' & E1 & A1 & A2 & A3 & A4 & A5 & A6).
      * split; lia.
      * lia.
      * lia.
      * do 3 eexists. split; [exact E1|].
        rewrite Hsz1, Hp1 in *. change (rs_data s1) with (rs_data s) in *. change (rs_flip s1) with (rs_flip s) in *.
        assert (Hav : (rs_size s - rs_pos s) / 16 = (rs_size s - (rs_pos s + 16)) / 16 + 1).
        { replace (rs_size s - rs_pos s) with (rs_size s - (rs_pos s + 16) + 1 * 16) by lia.
          rewrite N.div_add by lia. reflexivity. }
        assert (Hmul : (rs_size s - (rs_pos s + 16)) / 16 * 16 <= rs_size s - (rs_pos s + 16)).
        { rewrite N.mul_comm. apply N.mul_div_le. lia. }
        split; [lia|]. split; [lia|]. split; [|split; [exact A4|split; [exact A5|lia]]].
        rewrite A3. unfold d1 at 1. rewrite app_assoc.
        rewrite take_app_exact by (rewrite len_app, Hu, len_take; lia).
        rewrite <- app_assoc. f_equal.
        replace (N.to_nat (n - i)) with (S (N.to_nat (n - (i + 1)))) by lia.
        cbn [uuid_unwire]. f_equal.
        -- f_equal. unfold raw. rewrite take_take. f_equal. lia.
        -- f_equal. rewrite drop_take_comm, drop_drop. f_equal; [lia|]. f_equal. lia.
    + do 3 eexists. split; [reflexivity|].
      assert (Hq : (rs_size s - rs_pos s) / 16 = 0) by (apply N.div_small; lia).
      rewrite Hq, N.min_0_r, N.add_0_r, N.sub_diag. change (0 * 16) with 0.
      rewrite take_0. cbn [uuid_unwire N.to_nat]. rewrite app_nil_r.
      cbn [rs_data rs_flip rs_pos]. repeat split. lia.
Qed.

Lemma rs_read_total k count dest s :
  rs_inv s -> rs_pos s + count * ksize k < two64 -> count * ksize k <= len dest ->
  exists n d s', rs_read k count dest s = Done (n, d, s') /\ read_raw_spec k count dest s n d s'.
Proof.
  intros Hinv Hc Hd. destruct k as [w| |]; cbn [rs_read ksize] in *.
  - apply rs_words_total; assumption.
  - destruct (rs_uuids_total (N.to_nat count) 0 dest s Hinv) as (n & d & s' & E & A1 & A2 & A3 & A4 & A5 & A6).
    + lia.
    + lia.
    + do 3 eexists. split; [exact E|]. unfold read_raw_spec. cbn [ksize unwire].
      change (0 * 16) with 0 in A3. rewrite take_0 in A3. cbn [app] in A3. rewrite N.sub_0_r in A3.
      rewrite Nnat.N2Nat.id in *.
      repeat split; try assumption; lia.
  - rewrite mul64_small by lia.
    destruct (rs_words_total W8 (32 * count) dest s Hinv) as (n & d & s' & E & A1 & A2 & A3 & A4 & A5 & A6).
    + cbn [wbytes]. lia.
    + cbn [wbytes]. lia.
    + rewrite E. cbn [bind]. do 3 eexists. split; [reflexivity|].
      unfold read_raw_spec. cbn [ksize unwire wbytes] in *. rewrite !N.mul_1_r in *. rewrite N.div_1_r in A1.
      assert (Hn : n / 32 = N.min count ((rs_size s - rs_pos s) / 32)).
      { rewrite A1. replace (32 * count) with (count * 32) by lia. apply min_div. lia. }
      split; [exact Hn|]. split; [exact A2|]. split; [|repeat split; try assumption; lia].
      rewrite swap_words_W8 in A3.
      replace (if rs_flip s then take n (drop (rs_pos s) (rs_data s)) else take n (drop (rs_pos s) (rs_data s)))
        with (take n (drop (rs_pos s) (rs_data s))) in A3 by (destruct (rs_flip s); reflexivity).
      assert (Hle : n / 32 * 32 <= n) by (rewrite N.mul_comm; apply N.mul_div_le; lia).
      apply (f_equal (take (n / 32 * 32))) in A3. rewrite !take_take in A3.
      replace (N.min (n / 32 * 32) n) with (n / 32 * 32) in A3 by lia. exact A3.
Qed.

(** From bytes to values. *)
Lemma scalar_of_ok k d : len d = ksize k ->
  scalar_kind (scalar_of k d) = k /\ scalar_ok (scalar_of k d) /\ image (scalar_of k d) = d.
Proof.
  destruct k as [w| |]; cbn [ksize scalar_of scalar_kind scalar_ok image]; intros H.
  - split; [reflexivity|]. pose proof (of_le_bound d) as Hb. rewrite H in Hb. split; [exact Hb|].
    apply le_of_le_n. apply len_length in H. exact H.
  - assert (B4 : forall l : list byte, len l <= 4 -> of_le l < 2^32).
    { intros l Hl. eapply N.lt_le_trans; [apply of_le_bound|].
      change (2^32) with (256^4). apply N.pow_le_mono_r; lia. }
    assert (B2 : forall l : list byte, len l <= 2 -> of_le l < 2^16).
    { intros l Hl. eapply N.lt_le_trans; [apply of_le_bound|].
      change (2^16) with (256^2). apply N.pow_le_mono_r; lia. }
    split; [reflexivity|]. split.
    + repeat split; [apply B4|apply B2|apply B2|]; rewrite ?len_take, ?len_drop; lia.
    + assert (L : forall (l : list byte) n, len l = N.of_nat n -> length l = n) by (unfold len; intros; lia).
      rewrite (le_of_le_n 4) by (apply L; rewrite len_take; lia).
      rewrite (le_of_le_n 2 (take 2 (drop 4 d))) by (apply L; rewrite len_take, len_drop; lia).
      rewrite (le_of_le_n 2 (take 2 (drop 6 d))) by (apply L; rewrite len_take, len_drop; lia).
      rewrite <- (take_drop 4 d) at 5. f_equal.
      rewrite <- (take_drop 2 (drop 4 d)) at 2. f_equal. rewrite drop_drop.
      change (2 + 4) with 6. rewrite <- (take_drop 2 (drop 6 d)) at 2. f_equal. rewrite drop_drop. reflexivity.
  - auto.
Qed.
Lemma scalars_of_image k n : forall img, len img = N.of_nat n * ksize k ->
  exists xs, Forall (fun x => scalar_kind x = k /\ scalar_ok x) xs /\ len xs = N.of_nat n /\ images xs = img.
Proof.
  induction n as [|n IH]; intros img H.
  - exists []. apply (len_0 img) in H. subst. repeat constructor.
  - destruct (IH (drop (ksize k) img)) as (xs & A & B & C); [rewrite len_drop; lia|].
    destruct (scalar_of_ok k (take (ksize k) img)) as (D1 & D2 & D3); [rewrite len_take; lia|].
    exists (scalar_of k (take (ksize k) img) :: xs). split; [constructor; auto|].
    split; [rewrite len_cons; lia|]. unfold images in *. cbn [flat_map]. rewrite C, D3. apply take_drop.
Qed.
Lemma uuid_wire_unwire c : forall bs, len bs = N.of_nat c * 16 -> uuid_wire c (uuid_unwire c bs) = bs.
Proof.
  induction c as [|c IH]; intros bs H; [reflexivity|].
  cbn [uuid_unwire uuid_wire].
  assert (Ht : length (take 16 bs) = 16%nat).
  { assert (X : len (take 16 bs) = 16) by (rewrite len_take; lia). apply len_length in X. exact X. }
  assert (Hu : len (uuid_from_wire (take 16 bs)) = 16).
  { apply len_length. rewrite len_uuid_from_wire by exact Ht. reflexivity. }
  rewrite take_app_exact, drop_app_exact by (symmetry; exact Hu).
  rewrite IH by (rewrite len_drop; lia). rewrite uuid_to_from by exact Ht. apply take_drop.
Qed.
Lemma len_uuid_unwire c : forall bs, len bs = N.of_nat c * 16 -> len (uuid_unwire c bs) = len bs.
Proof.
  induction c as [|c IH]; intros bs H; [reflexivity|].
  cbn [uuid_unwire]. rewrite len_app, IH by (rewrite len_drop; lia).
  assert (Ht : length (take 16 bs) = 16%nat).
  { assert (X : len (take 16 bs) = 16) by (rewrite len_take; lia). apply len_length in X. exact X. }
  assert (Hu : len (uuid_from_wire (take 16 bs)) = 16).
  { apply len_length. rewrite len_uuid_from_wire by exact Ht. reflexivity. }
  rewrite Hu, len_drop. lia.
Qed.
Lemma unwire_scalars k fl n bs : len bs = n * ksize k ->
  exists xs, Forall (fun x => scalar_kind x = k /\ scalar_ok x) xs /\ len xs = n /\
    flat_map (stored fl) xs = bs /\ images xs = unwire k fl n bs.
Proof.
  intros H.
  assert (Hl : len (unwire k fl n bs) = len bs).
  { destruct k as [w| |]; cbn [unwire ksize] in *; [destruct fl; [apply len_swap_words; lia|reflexivity]| |reflexivity].
    apply len_uuid_unwire. lia. }
  destruct (scalars_of_image k (N.to_nat n) (unwire k fl n bs)) as (xs & A & B & C); [lia|].
  exists xs. split; [exact A|]. split; [lia|]. split; [|exact C].
  rewrite <- (wire_stored fl k xs A), C. replace (len xs) with n by lia.
  destruct k as [w| |]; cbn [unwire ksize] in *.
  - cbn [wire]. destruct fl; [|reflexivity]. apply swap_words_invol. lia.
  - change (uuid_wire (N.to_nat n) (uuid_unwire (N.to_nat n) bs) = bs). apply uuid_wire_unwire. lia.
  - reflexivity.
Qed.
Lemma read_raw_spec_spec k count dest s n d s' :
  rs_pos s <= rs_size s -> read_raw_spec k count dest s n d s' -> read_spec k count dest s n d s'.
Proof.
  intros Hp (A1 & A2 & A3 & A4 & A5 & A6). split; [exact A1|]. split; [exact A2|].
  split; [|split; [exact A4|split; [exact A5|exact A6]]].
  destruct (unwire_scalars k (rs_flip s) n (take (n * ksize k) (drop (rs_pos s) (rs_data s)))) as (xs & B1 & B2 & B3 & B4).
  - rewrite len_take, len_drop. change (len (rs_data s)) with (rs_size s).
    pose proof (ksize_pos k). pose proof (N.mul_div_le (rs_size s - rs_pos s) (ksize k)). nia.
  - exists xs. split; [exact B1|]. split; [exact B2|]. split; [exact B3|].
    rewrite A3. symmetry. exact B4.
Qed.

Lemma rs_call_total o s :
  rs_inv s -> rop_ok (rs_size s) o ->
  exists r s', rs_call o s = Done (r, s') /\ rcall_spec o s r s' /\
               rs_inv s' /\ rs_size s' = rs_size s.
Proof.
  intros Hinv Hok. pose proof Hinv as (Hp & Hs).
  destruct o as [k count dest|p|b| |]; cbn [rs_call rop_ok rcall_spec] in *.
  - destruct Hok as (H1 & H2).
    destruct (rs_read_total k count dest s Hinv) as (n & d & s' & E & A); try lia.
    rewrite E. cbn [bind]. do 2 eexists. split; [reflexivity|].
    split; [do 2 eexists; split; [reflexivity|apply read_raw_spec_spec; assumption]|]. destruct A as (_ & _ & _ & A4 & _ & A6).
    assert (Hz : rs_size s' = rs_size s) by (unfold rs_size; rewrite A4; reflexivity).
    split; [split; lia|exact Hz].
  - unfold rs_setpos. destruct (N.ltb_spec (rs_size s) p).
    + do 2 eexists. split; [reflexivity|]. repeat split; try lia.
    + do 2 eexists. split; [reflexivity|]. cbn [rs_data rs_flip rs_pos].
      unfold rs_inv, rs_size in *. cbn [rs_data rs_pos]. repeat split; try lia.
  - do 2 eexists. split; [reflexivity|]. repeat split; try exact Hp; try exact Hs.
  - do 2 eexists. split; [reflexivity|].
    split; [|split; [exact Hinv|reflexivity]].
    split; [reflexivity|]. unfold rs_peek. split; intros H.
    + destruct (N.leb_spec (rs_size s) (rs_pos s)); [lia|].
      destruct (drop (rs_pos s) (rs_data s)) as [|b rest] eqn:E.
      * apply (f_equal (@len byte)) in E. rewrite len_drop, len_nil in E. unfold rs_size in *. lia.
      * exists b, rest. split; [reflexivity|]. f_equal.
        unfold drop in E. rewrite <- (firstn_skipn (N.to_nat (rs_pos s)) (rs_data s)), E.
        rewrite app_nth2; rewrite firstn_length.
        -- unfold rs_size, len in *. replace (_ - _)%nat with 0%nat by lia. reflexivity.
        -- lia.
    + destruct (N.leb_spec (rs_size s) (rs_pos s)); [reflexivity|lia].
  - do 2 eexists. split; [reflexivity|]. split; [|split; [exact Hinv|reflexivity]].
    split; [reflexivity|]. eexists. split; [reflexivity|]. unfold rs_eof.
    assert (E : len (drop (rs_pos s) (rs_data s)) = rs_size s - rs_pos s) by (rewrite len_drop; reflexivity).
    destruct (N.leb_spec (rs_size s) (rs_pos s)) as [H|H].
    + split; [intros _|reflexivity]. destruct (drop (rs_pos s) (rs_data s)); [reflexivity|]. rewrite len_cons in E. lia.
    + split; [discriminate|]. intros X. rewrite X, len_nil in E. lia.
Qed.

Lemma c04_read_stream_safe : forall ops data flip,
  len data < two64 -> Forall (rop_ok (len data)) ops ->
  exists rs s', rs_calls ops (RS data 0 flip) = Done (rs, s') /\
    rcalls_spec ops (RS data 0 flip) rs s'.
Proof.
  intros ops data flip Hlen Hok.
  assert (G : forall s, rs_inv s -> rs_size s = len data ->
     exists rs s', rs_calls ops s = Done (rs, s') /\ rcalls_spec ops s rs s').
  { clear flip. induction ops as [|o ops IH]; intros s Hinv Hs.
    - exists [], s. split; reflexivity.
    - inversion Hok as [|? ? Ho Hops]; subst.
      destruct (rs_call_total o s Hinv) as (r & s1 & E & A & B & C); [rewrite Hs; exact Ho|].
      destruct (IH Hops s1 B) as (rs & s2 & E2 & A2); [congruence|].
      exists (r :: rs), s2. cbn [rs_calls]. rewrite E. cbn [bind]. rewrite E2. cbn [bind].
      split; [reflexivity|]. cbn [rcalls_spec]. exists s1. split; [exact A|]. split; [apply B|exact A2]. }
  apply G; [|reflexivity]. split; cbn [rs_pos]; [lia|exact Hlen].
Qed.

(** The side condition on counts is needed: one byte read, then a count of 2^64-1. *)
Lemma c04_refuted :
  exists ops data, len data < two64 /\ rs_calls ops (RS data 0 false) = Undef /\
    Forall (fun o => match o with RRead k count dest => count <= two64 - 1 | _ => True end) ops.
Proof.
  exists [RRead (KW W8) 1 [x00]; RRead (KW W8) (two64 - 1) []], [x01; x02].
  split; [reflexivity|]. split; [vm_compute; reflexivity|].
  repeat constructor; vm_compute; discriminate.
Qed.

(** bad_alloc leaves the write stream in a state where the next write corrupts memory. *)
Lemma c01_after_bad_alloc_refuted :
  exists s0 s1, ws_new 4 10 = (true, s0) /\
    ws_raw (repeat x01 11) s0 = Done (false, s1) /\
    ws_raw (repeat x02 5) s1 = Undef.
Proof. eexists; eexists. split; [vm_compute; reflexivity|]. split; vm_compute; reflexivity. Qed.
