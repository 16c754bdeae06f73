(** * Facts about histories of section calls. *)
From Verif Require Import Base Bytes BytesFacts Values Streams FileSpec ReadSpec StreamFacts StreamProps Types Format
  EntityWriter EntityReader EntityWriterFacts EntityReaderFacts Sections SectionFacts Protocol ProtocolSpec.
Open Scope N_scope.

Section Chain.
  Context {A : Type} (id sz ix : A -> N).
  Definition frame_ok (g : open_section) (f : A) (nxt : option N) : Prop :=
    os_active g = nxt /\ os_size g = sz f /\ os_begun g = add64 (ix f) 1 /\ sz f < two64.
  Fixpoint inv (G : N -> open_section) (l : list A) : Prop :=
    match l with [] => True | f :: r => frame_ok (G (id f)) f (head_id id r) /\ inv G r end.

  Lemma inv_mid G a f b : inv G (a ++ f :: b) -> frame_ok (G (id f)) f (head_id id b) /\ inv G b.
  Proof. induction a as [|x a IH]; cbn [app inv]; [auto|]. intros (_ & H). exact (IH H). Qed.

  Lemma inv_ext G G' l : (forall x, In x (map id l) -> G' x = G x) -> inv G l -> inv G' l.
  Proof.
    induction l as [|f l IH]; cbn [inv map]; [auto|]. intros E (H1 & H2). split.
    - rewrite E by (left; reflexivity). exact H1.
    - apply IH; [|exact H2]. intros x Hx. apply E. right. exact Hx.
  Qed.

  Lemma inv_update G G' a f b f' b' :
    inv G (a ++ f :: b) -> id f' = id f -> frame_ok (G' (id f)) f' (head_id id b') -> inv G' b' ->
    (forall x, In x (map id a) -> G' x = G x) -> inv G' (a ++ f' :: b').
  Proof.
    intros H Eid Hf Hb E. induction a as [|x a IH]; cbn [app inv] in *.
    - rewrite Eid. split; assumption.
    - destruct H as (H1 & H2). split.
      + rewrite E by (left; reflexivity). destruct a; cbn [app head_id] in *; rewrite ?Eid; exact H1.
      + apply IH; [exact H2|]. intros y Hy. apply E. right. exact Hy.
  Qed.

  Definition chain_ok (G : N -> open_section) (next : N) (l : list A) : Prop :=
    inv G l /\ NoDup (map id l) /\ Forall (fun f => id f < next) l /\ (forall x, next <= x -> G x = no_section).

  Lemma live_split h l : In h (map id l) -> exists a f b, split_at id h l = Some (a, f, b).
  Proof.
    induction l as [|f l IH]; cbn [map In split_at]; [contradiction|].
    intros H. destruct (N.eqb_spec (id f) h) as [E|E]; [eauto|].
    destruct H as [H|H]; [congruence|]. destruct (IH H) as (a & g & b & ->). eauto.
  Qed.

  Lemma split_chain G next h l a f b : chain_ok G next l -> split_at id h l = Some (a, f, b) ->
    l = a ++ f :: b /\ id f = h /\ frame_ok (G h) f (head_id id b) /\ ~ In h (map id a) /\ ~ In h (map id b) /\ h < next.
  Proof.
    intros (H1 & H2 & H3 & H4) Hs. apply split_at_app in Hs. destruct Hs as (-> & Hid & Hn).
    apply inv_mid in H1. destruct H1 as (Hf & _). rewrite map_app in H2. cbn [map] in H2.
    apply NoDup_remove_2 in H2. rewrite Hid in *. split; [reflexivity|]. split; [reflexivity|]. split; [exact Hf|]. split; [exact Hn|].
    split.
    - intros X. apply H2. apply in_or_app. right. exact X.
    - apply Forall_app in H3. destruct H3 as (_ & H3). inversion H3; subst. assumption.
  Qed.

  (** The object changes, what it owns stays or is deleted. *)
  Lemma chain_step G next a f b f' b' h g' :
    chain_ok G next (a ++ f :: b) -> id f = h -> id f' = h -> b' = b \/ b' = [] ->
    frame_ok g' f' (head_id id b') ->
    chain_ok (fun x => if h =? x then g' else G x) next (a ++ f' :: b').
  Proof.
    intros (H1 & H2 & H3 & H4) Hid Hid' Hb Hf.
    assert (Hna : forall x, In x (map id a) -> h <> x).
    { intros x Hx ->. rewrite map_app in H2. cbn [map] in H2. apply NoDup_remove_2 in H2. apply H2. apply in_or_app. left. rewrite Hid. exact Hx. }
    assert (Hnb : forall x, In x (map id b) -> h <> x).
    { intros x Hx ->. rewrite map_app in H2. cbn [map] in H2. apply NoDup_remove_2 in H2. apply H2. apply in_or_app. right. rewrite Hid. exact Hx. }
    split; [|split; [|split]].
    - eapply inv_update; [exact H1|congruence| | |].
      + rewrite Hid, N.eqb_refl. exact Hf.
      + destruct Hb as [-> | ->]; [|exact I]. apply inv_mid in H1. apply (inv_ext G); [|apply H1].
        intros x Hx. destruct (N.eqb_spec h x) as [E|_]; [exfalso; exact (Hnb x Hx E)|reflexivity].
      + intros x Hx. destruct (N.eqb_spec h x) as [E|_]; [exfalso; exact (Hna x Hx E)|reflexivity].
    - rewrite map_app in *. cbn [map] in *. rewrite Hid'. rewrite Hid in H2. destruct Hb as [-> | ->]; [exact H2|].
      cbn [map]. apply NoDup_remove in H2.
      destruct H2 as (N1 & N2). clear - N1 N2.
      induction (map id a) as [|y m IH]; cbn [app] in *; [constructor; [intros []|constructor]|].
      inversion N1; subst. constructor.
      + intros X. apply in_app_or in X. destruct X as [X|[X|[]]].
        * apply H1. apply in_or_app. left. exact X.
        * apply N2. left. congruence.
      + apply IH; [assumption|]. intros X. apply N2. right. exact X.
    - apply Forall_app in H3. destruct H3 as (F1 & F2). inversion F2; subst. apply Forall_app. split; [exact F1|].
      constructor; [congruence|]. destruct Hb as [-> | ->]; [assumption|constructor].
    - intros x Hx. apply Forall_app in H3. destruct H3 as (F1 & F2). inversion F2; subst.
      destruct (N.eqb_spec (id f) x) as [E|_]; [lia|]. apply H4. exact Hx.
  Qed.

  (** A new object at the end. *)
  Lemma chain_grow G next a f f' c h g' :
    chain_ok G next (a ++ [f]) -> id f = h -> id f' = h -> id c = next ->
    frame_ok g' f' (Some next) -> sz c = 0 -> ix c = ones ->
    chain_ok (fun x => if h =? x then g' else G x) (next + 1) (a ++ [f'; c]).
  Proof.
    intros (H1 & H2 & H3 & H4) Hid Hid' Hc Hf S0 I0.
    assert (Hh : h < next). { apply Forall_app in H3. destruct H3 as (_ & F2). inversion F2; subst. congruence. }
    assert (Hna : forall x, In x (map id a) -> h <> x).
    { intros x Hx ->. rewrite map_app in H2. cbn [map] in H2. apply NoDup_remove_2 in H2. apply H2. apply in_or_app. left. rewrite Hid. exact Hx. }
    split; [|split; [|split]].
    - eapply (inv_update _ _ a f [] f' [c]); [exact H1|congruence| | |].
      + rewrite Hid, N.eqb_refl. cbn [head_id]. rewrite Hc. exact Hf.
      + cbn [inv head_id]. split; [|exact I]. rewrite Hc. destruct (N.eqb_spec h next) as [E|_]; [lia|].
        rewrite H4 by lia. unfold frame_ok. rewrite S0, I0. repeat split; reflexivity.
      + intros x Hx. destruct (N.eqb_spec h x) as [E|_]; [exfalso; exact (Hna x Hx E)|reflexivity].
    - replace (a ++ [f'; c]) with ((a ++ [f']) ++ [c]) by (rewrite <- app_assoc; reflexivity).
      rewrite map_app, map_app in *. cbn [map] in *. rewrite Hid', Hc. rewrite Hid in H2.
      assert (N0 : ~ In next (map id a ++ [h])).
      { intros X. apply in_app_or in X. destruct X as [X|[X|[]]]; [|lia].
        apply in_map_iff in X. destruct X as (y & Ey & Hy). apply Forall_app in H3. destruct H3 as (F1 & _).
        rewrite Forall_forall in F1. specialize (F1 y Hy). lia. }
      apply NoDup_Add with (a := next) (l := map id a ++ [h]); [|split; assumption].
      rewrite <- (app_nil_r (map id a ++ [h])) at 1. apply Add_app.
    - replace (a ++ [f'; c]) with ((a ++ [f']) ++ [c]) by (rewrite <- app_assoc; reflexivity).
      apply Forall_app in H3. destruct H3 as (F1 & F2). rewrite !Forall_app. split; [split|].
      + eapply Forall_impl; [|exact F1]. cbn beta. intros; lia.
      + constructor; [lia|constructor].
      + constructor; [lia|constructor].
    - intros x Hx. destruct (N.eqb_spec h x) as [E|_]; [lia|]. apply H4. lia.
  Qed.

  Lemma chain_eq G G' next l : (forall x, G' x = G x) -> chain_ok G next l -> chain_ok G' next l.
  Proof.
    intros E (H1 & H2 & H3 & H4). split; [|split; [exact H2|split; [exact H3|]]].
    - eapply inv_ext; [|exact H1]. intros; apply E.
    - intros x Hx. rewrite E. apply H4. exact Hx.
  Qed.
End Chain.

Lemma track_snoc x l e : track x (l ++ [e]) = track1 x (track x l) e.
Proof. unfold track. rewrite fold_left_app. reflexivity. Qed.

Lemma hdl_eqb_eq a b : hdl_eqb a b = true <-> a = b.
Proof.
  destruct a, b; cbn [hdl_eqb]; rewrite ?N.eqb_eq; split; intros H; congruence.
Qed.
Lemma hdl_eqb_neq a b : a <> b -> hdl_eqb a b = false.
Proof. intros H. destruct (hdl_eqb a b) eqn:E; [apply hdl_eqb_eq in E; contradiction|reflexivity]. Qed.

(** ** Positions after writes: a write that returns moved the position by its size *)
Lemma ws_raw_pos src s s' ok : ws_raw src s = Done (ok, s') -> ok = true -> ws_pos s' = add64 (ws_pos s) (len src).
Proof.
  unfold ws_raw. destruct (if ws_size s <? _ then _ else _) as [ok1 s1]. destruct ok1.
  - destruct (_ <=? _); [|discriminate]. intros E _. injection E as <- <-. reflexivity.
  - intros E H. injection E as <- <-. discriminate H.
Qed.
Lemma ws_write_pos w count src s s' : ws_write (KW w) count src s = Done s' ->
  ws_pos s' = add64 (ws_pos s) (match w with W8 => count | _ => mul64 count (wbytes w) end).
Proof.
  cbn [ws_write]. unfold thrown_res, ws_words.
  set (n := match w with W8 => count | _ => mul64 count (wbytes w) end).
  destruct (N.ltb_spec (len src) n) as [X|X]; [discriminate|].
  destruct (ws_raw (take n src) s) as [[ok s1]| |] eqn:E; cbn [bind]; [|discriminate|discriminate].
  assert (P : ok = true -> ws_pos s1 = add64 (ws_pos s) n).
  { intros Hok. rewrite (ws_raw_pos _ _ _ _ E Hok), len_take, N.min_l by exact X. reflexivity. }
  destruct w; cbn [bind].
  1: destruct ok; cbn [thrown]; [|discriminate]; intros H; injection H as <-; apply P; reflexivity.
  all: destruct ok; cbn [andb]; [|cbn [bind thrown]; discriminate];
    destruct (ws_flip s); cbn [bind thrown]; [destruct (_ <=? _); cbn [bind thrown]; [|discriminate]|];
    intros H; injection H as <-; cbn [ws_pos]; apply P; reflexivity.
Qed.
Lemma add64_assoc a b c : add64 (add64 a b) c = add64 a (b + c).
Proof. unfold add64, w64. rewrite N.add_mod_idemp_l by (unfold two64; lia). f_equal. lia. Qed.
Lemma add64_w a b : add64 a (w64 b) = add64 a b.
Proof. unfold add64, w64. rewrite N.add_mod_idemp_r by (unfold two64; lia). reflexivity. Qed.

Lemma ws_u8_pos v s s' : ws_u8 v s = Done s' -> ws_pos s' = add64 (ws_pos s) 1.
Proof. intros H. apply (ws_write_pos W8) in H. exact H. Qed.
Lemma ws_u16_pos v s s' : ws_u16 v s = Done s' -> ws_pos s' = add64 (ws_pos s) 2.
Proof. intros H. apply (ws_write_pos W16) in H. exact H. Qed.
Lemma ws_u64_pos v s s' : ws_u64 v s = Done s' -> ws_pos s' = add64 (ws_pos s) 8.
Proof. intros H. apply (ws_write_pos W64) in H. exact H. Qed.

Lemma begin_write_true vt key s ok s' : begin_write vt key s = Done (ok, s') -> ok = true.
Proof.
  unfold begin_write.
  destruct (ws_u8 vt s) as [s1| |] eqn:E1; cbn [bind]; [|discriminate|discriminate].
  destruct (ws_u64 maxint64 s1) as [s2| |] eqn:E2; cbn [bind]; [|discriminate|discriminate].
  destruct (ws_u8 (klen key) s2) as [s3| |] eqn:E3; cbn [bind]; [|discriminate|discriminate].
  destruct (ws_write (KW W8) (klen key) (kbytes key) s3) as [s4| |] eqn:E4; cbn [bind]; [|discriminate|discriminate].
  intros H. injection H as <- <-. apply ws_u8_pos in E1. apply ws_u64_pos in E2. apply ws_u8_pos in E3. apply ws_write_pos in E4.
  rewrite E4, E3, E2, E1. rewrite !add64_assoc. apply N.eqb_eq. f_equal. lia.
Qed.
Lemma write_meta_true p n ix s ok s' : write_meta p n ix s = Done (ok, s') -> ok = true.
Proof.
  unfold write_meta.
  destruct (ws_u16 _ s) as [s1| |] eqn:E1; cbn [bind]; [|discriminate|discriminate].
  destruct (ws_u64 n s1) as [s2| |] eqn:E2; cbn [bind]; [|discriminate|discriminate].
  apply ws_u16_pos in E1. apply ws_u64_pos in E2.
  destruct ix as [l|].
  - destruct (ws_u64 (len l) s2) as [s3| |] eqn:E3; cbn [bind]; [|discriminate|discriminate].
    destruct (ws_write (KW W32) (len l) _ s3) as [s4| |] eqn:E4; cbn [bind]; [|discriminate|discriminate].
    intros H. injection H as <- <-. apply ws_u64_pos in E3. apply ws_write_pos in E4.
    rewrite E4, E3, E2, E1. apply N.eqb_eq. cbn [wbytes].
    change (add64 (mul64 (len l) 4) 8) with (w64 (mul64 (len l) 4 + 8)). rewrite add64_w, !add64_assoc. f_equal. lia.
  - intros H. injection H as <- <-. rewrite E2, E1. apply N.eqb_refl.
Qed.
