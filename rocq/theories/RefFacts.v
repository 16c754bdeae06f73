(** * RefFacts: references behave as handles. Proofs. *)
From Verif Require Import Base Bytes Values Types Keys KeyFacts Refs RefSpec.
Open Scope N_scope.

Lemma zeros_iff id : zeros id = true <-> id = rep x00 (len id).
Proof.
  unfold zeros, rep, len. rewrite Nat2N.id. induction id as [|b l IH]; [split; reflexivity|]. cbn [forallb length repeat].
  rewrite andb_true_iff, IH. split.
  - intros [Hb Hl]. rewrite <- Hl. destruct b; try discriminate Hb; reflexivity.
  - intros E. injection E as -> E. split; [reflexivity|exact E].
Qed.
Lemma len_zero k : len (id_zero k) = rsize k.
Proof. destruct k; reflexivity. Qed.
Lemma id_eq_iff k a b : len a = rsize k -> len b = rsize k -> (id_eq k a b = true <-> a = b).
Proof. intros A B. destruct k; cbn [id_eq]; apply words_eq_iff; assumption. Qed.
Lemma id_ne_neg k a b : id_ne k a b = negb (id_eq k a b).
Proof. destruct k; [reflexivity|]. cbn [id_ne id_eq]. apply words_ne_spec. Qed.
Lemma id_eq_zero k a : len a = rsize k -> id_eq k a (id_zero k) = zeros a.
Proof.
  intros A. destruct (zeros a) eqn:Z.
  - apply id_eq_iff; [exact A|apply len_zero|]. apply zeros_iff in Z. rewrite Z, A. reflexivity.
  - destruct (id_eq k a (id_zero k)) eqn:E; [|reflexivity].
    apply id_eq_iff in E; [|exact A|apply len_zero]. exfalso.
    assert (T : zeros a = true) by (apply zeros_iff; rewrite A; exact E). congruence.
Qed.

Lemma make_ref_spec r : len (rp_id r) = 16 ->
  make_ref r = if rp_ok r && negb (zeros (rp_id r)) then Done (rp_id r) else Throw.
Proof.
  intros L. unfold make_ref. rewrite (id_eq_zero ERef) by exact L. destruct (rp_ok r), (zeros (rp_id r)); reflexivity.
Qed.

Lemma at_map {A B} (f : A -> B) s x : at_ (map (option_map f) s) x = option_map f (at_ s x).
Proof. unfold at_. rewrite nth_error_map. destruct (nth_error s x) as [[a|]|]; reflexivity. Qed.
Lemma put_map {A B} (f : A -> B) s x a : put (map (option_map f) s) x (option_map f a) = map (option_map f) (put s x a).
Proof. revert x. induction s as [|o s IH]; intros [|x]; cbn [put map]; try reflexivity. rewrite IH. reflexivity. Qed.
Lemma at_in {A} (s : list (option A)) x a : at_ s x = Some a -> In (Some a) s.
Proof.
  unfold at_. destruct (nth_error s x) as [[b|]|] eqn:E; try discriminate. intros H. injection H as <-.
  exact (nth_error_In _ _ E).
Qed.
Lemma in_put {A} (s : list (option A)) x a b : In b (put s x a) -> b = a \/ In b s.
Proof.
  revert x. induction s as [|o s IH]; intros [|x]; cbn [put In]; try tauto.
  - intros [->|H]; auto.
  - intros [->|H]; auto. destruct (IH _ H); auto.
Qed.

Section Run.
  Context (k : rkind) (os : nat -> reply) (G : list (list byte)) (B : nat).
  Context (OS : os_sized os) (GL : forall id, In id G -> len id = rsize k).

  (** The handles a program can hold. *)
  Definition fit (h : handle) : Prop :=
    match h with
    | Null => True
    | Made n => created os n = true /\ k = ERef /\ (n < B)%nat
    | Given id => In id G /\ zeros id = false
    end.
  Definition fits (L : list (option handle)) : Prop := forall h, In (Some h) L -> fit h.
  Definition conc (L : list (option handle)) : list (option (list byte)) := map (option_map (id_of k os)) L.

  Lemma fit_len h : fit h -> len (id_of k os h) = rsize k.
  Proof.
    destruct h as [|n|id]; cbn [fit id_of]; [intros _; apply len_zero| |].
    - intros (_ & -> & _). apply OS.
    - intros [H _]. apply GL, H.
  Qed.
  Lemma fit_bool h : fit h -> ref_bool k (id_of k os h) = negb (same h Null).
  Proof.
    intros F. unfold ref_bool. rewrite id_ne_neg, id_eq_zero by (apply fit_len, F). f_equal.
    unfold same. destruct (handle_dec h Null) as [->|N].
    - cbn [id_of]. apply zeros_iff. rewrite len_zero. reflexivity.
    - destruct h as [|n|id]; cbn [fit id_of] in *; [congruence| |apply F].
      destruct F as [C _]. unfold created in C. apply andb_true_iff in C. destruct C as [_ C].
      apply negb_true_iff in C. exact C.
  Qed.

  Definition unique : Prop :=
    (forall n m, (n < B)%nat -> (m < B)%nat -> created os n = true -> created os m = true ->
       rp_id (os n) = rp_id (os m) -> n = m) /\
    (forall n, (n < B)%nat -> created os n = true -> ~ In (rp_id (os n)) G).

  Lemma zero_not h : fit h -> h <> Null -> id_of k os h <> id_zero k.
  Proof.
    intros F N E. pose proof (fit_bool h F) as Bo. rewrite E in Bo. unfold same in Bo.
    destruct (handle_dec h Null); [contradiction|]. cbn in Bo. unfold ref_bool in Bo.
    rewrite id_ne_neg in Bo. assert (T : id_eq k (id_zero k) (id_zero k) = true) by (apply id_eq_iff; auto using len_zero).
    rewrite T in Bo. discriminate.
  Qed.
  Lemma fit_eq a b : unique -> fit a -> fit b -> ref_eq k (id_of k os a) (id_of k os b) = same a b.
  Proof.
    intros [U1 U2] Fa Fb. unfold ref_eq, same. destruct (handle_dec a b) as [->|N].
    - apply id_eq_iff; auto using fit_len.
    - destruct (id_eq k (id_of k os a) (id_of k os b)) eqn:E; [|reflexivity].
      apply id_eq_iff in E; auto using fit_len. exfalso. apply N.
      destruct (handle_dec a Null) as [->|Na].
      { destruct (handle_dec b Null) as [->|Nb]; [reflexivity|]. destruct (zero_not b Fb Nb). rewrite <- E. reflexivity. }
      destruct (handle_dec b Null) as [->|Nb]; [destruct (zero_not a Fa Na); exact E|].
      destruct a as [|n|i], b as [|m|j]; try congruence; cbn [id_of fit] in *.
      + f_equal. apply U1; tauto.
      + destruct (U2 n); [tauto|tauto|]. rewrite E. tauto.
      + destruct (U2 m); [tauto|tauto|]. rewrite <- E. tauto.
      + f_equal. exact E.
  Qed.

  Lemma fits_app L a : fits L -> fit a -> fits (L ++ [Some a]).
  Proof. intros F A h H. apply in_app_or in H. destruct H as [H|[H|[]]]; [auto|]. injection H as <-. exact A. Qed.
  Lemma fits_put L x a : fits L -> (forall h, a = Some h -> fit h) -> fits (put L x a).
  Proof. intros F A h H. destruct (in_put _ _ _ _ H) as [E|E]; auto. Qed.
  Lemma fits_at L x h : fits L -> at_ L x = Some h -> fit h.
  Proof. intros F E. apply F, (at_in _ _ _ E). Qed.

  Definition agree (s : rstore) (a : hstore) : Prop :=
    r_objs s = conc (h_objs a) /\ r_calls s = h_calls a /\ fits (h_objs a).

  Lemma conc_app L a : conc L ++ [Some (id_of k os a)] = conc (L ++ [Some a]).
  Proof. unfold conc. rewrite map_app. reflexivity. Qed.
  Lemma conc_put L x a : put (conc L) x (option_map (id_of k os) a) = conc (put L x a).
  Proof. apply put_map. Qed.
  Lemma conc_at L x : at_ (conc L) x = option_map (id_of k os) (at_ L x).
  Proof. apply at_map. Qed.
  Lemma given_id id : In id G -> id_of k os (given id) = id /\ fit (given id).
  Proof.
    intros H. unfold given. destruct (zeros id) eqn:Z.
    - split; [|exact Logic.I]. cbn [id_of]. apply zeros_iff in Z. rewrite (GL _ H) in Z. symmetry. exact Z.
    - split; [reflexivity|]. split; assumption.
  Qed.

  Ltac fin := solve [assumption | reflexivity | exact Logic.I
    | apply fits_app; [fin|fin] | apply fits_put; [fin|intros ? FF; injection FF as <-; fin]
    | apply fits_put; [fin|intros ? FF; discriminate] | eapply fits_at; eassumption ].

  Lemma step_agree s a o : (forall id, In id (gives_id o) -> In id G) -> (makes o = true -> k = ERef) -> agree s a -> (h_calls a < B)%nat ->
    match h_step (created os) a o with
    | None => r_step k os s o = Undef
    | Some a' => exists s', r_step k os s o = Done s' /\ agree s' a' /\
                   (unique -> r_seen s = h_seen a -> r_seen s' = h_seen a') /\ (h_calls a' <= S (h_calls a))%nat
    end.
  Proof.
    intros OG OM (A1 & A2 & A3) NB. destruct s as [so sc sn], a as [L n tr]. cbn [r_objs r_calls h_objs h_calls r_seen h_seen] in *. subst so sc.
    assert (MK : forall n, make_ref (os n) = if created os n then Done (rp_id (os n)) else Throw)
      by (intros m; apply make_ref_spec, OS).
    destruct o as [| |y|y|x y|x y|id| |x|x|x y|x y|x]; cbn [h_step r_step]; unfold r_get; cbn [r_objs r_calls]; rewrite ?conc_at, ?MK.
    - eexists. split; [reflexivity|]. split; [|split; [auto|cbn; lia]]. split; [|split]; cbn [r_new r_objs r_calls h_objs h_calls];
        [apply (conc_app L Null)|reflexivity|fin].
    - eexists. split; [reflexivity|]. split; [|split; [auto|cbn; lia]]. split; [|split]; cbn [r_new r_objs r_calls h_objs h_calls];
        [apply (conc_app L Null)|reflexivity|fin].
    - destruct (at_ L y) as [h|] eqn:Ey; cbn [option_map bind]; [|reflexivity].
      eexists. split; [reflexivity|]. split; [|split; [auto|cbn; lia]]. split; [|split]; cbn [r_new r_objs r_calls h_objs h_calls];
        [apply conc_app|reflexivity|fin].
    - destruct (at_ L y) as [h|] eqn:Ey; cbn [option_map bind]; [|reflexivity].
      eexists. split; [reflexivity|]. split; [|split; [auto|cbn; lia]]. split; [|split]; cbn [r_new r_set r_objs r_calls h_objs h_calls];
        [unfold ref_copy; rewrite conc_app; apply (conc_put _ y (Some Null))|reflexivity|fin].
    - destruct (at_ L y) as [h|] eqn:Ey, (at_ L x) as [h'|] eqn:Ex; cbn [option_map bind]; try reflexivity.
      eexists. split; [reflexivity|]. split; [|split; [auto|cbn; lia]]. split; [|split]; cbn [r_new r_set r_objs r_calls h_objs h_calls];
        [apply (conc_put _ x (Some h))|reflexivity|fin].
    - destruct (at_ L y) as [h|] eqn:Ey, (at_ L x) as [h'|] eqn:Ex; cbn [option_map bind]; try reflexivity.
      eexists. split; [reflexivity|]. split; [|split; [auto|cbn; lia]]. split; [|split]; cbn [r_new r_set r_objs r_calls h_objs h_calls];
        [|reflexivity|fin].
      unfold ref_copy. rewrite (conc_put _ x (Some h)). apply (conc_put _ y (Some Null)).
    - destruct (given_id id (OG id (or_introl eq_refl))) as [E F].
      eexists. split; [reflexivity|]. split; [|split; [auto|cbn; lia]]. split; [|split]; cbn [r_new r_objs r_calls h_objs h_calls];
        [rewrite <- E at 1; apply conc_app|reflexivity|fin].
    - destruct (created os n) eqn:C.
      + assert (F : fit (Made n)) by (split; [|split]; auto).
        eexists. split; [reflexivity|]. split; [|split; [intros _ <-; reflexivity|cbn; lia]].
        split; [|split]; cbn [r_new r_see r_call r_objs r_calls h_objs h_calls];
          [apply (conc_app L (Made n))|reflexivity|fin].
      + eexists. split; [reflexivity|]. split; [|split; [intros _ <-; reflexivity|cbn; lia]]. split; [|split]; cbn; [reflexivity|reflexivity|fin].
    - destruct (at_ L x) as [h|] eqn:Ex; cbn [option_map bind]; [|reflexivity].
      destruct (created os n) eqn:C.
      + assert (F : fit (Made n)) by (split; [|split]; auto).
        eexists. split; [reflexivity|]. split; [|split; [intros _ <-; reflexivity|cbn; lia]].
        split; [|split]; cbn [r_new r_set r_see r_call r_objs r_calls h_objs h_calls];
          [apply (conc_put L x (Some (Made n)))|reflexivity|fin].
      + eexists. split; [reflexivity|]. split; [|split; [intros _ <-; reflexivity|cbn; lia]]. split; [|split]; cbn; [reflexivity|reflexivity|fin].
    - destruct (at_ L x) as [h|] eqn:Ex; cbn [option_map bind]; [|reflexivity].
      eexists. split; [reflexivity|]. split; [|split; [auto|cbn; lia]]. split; [|split]; cbn [r_new r_set r_objs r_calls h_objs h_calls];
        [apply (conc_put _ x None)|reflexivity|fin].
    - destruct (at_ L x) as [h|] eqn:Ex, (at_ L y) as [h'|] eqn:Ey; cbn [option_map bind]; try reflexivity.
      eexists. split; [reflexivity|]. split; [split; [|split]; [reflexivity|reflexivity|exact A3]|]. split; [|cbn; lia].
      intros U <-. cbn. rewrite fit_eq; [reflexivity|exact U|fin|fin].
    - destruct (at_ L x) as [h|] eqn:Ex, (at_ L y) as [h'|] eqn:Ey; cbn [option_map bind]; try reflexivity.
      eexists. split; [reflexivity|]. split; [split; [|split]; [reflexivity|reflexivity|exact A3]|]. split; [|cbn; lia].
      intros U <-. cbn. unfold ref_ne. rewrite id_ne_neg. fold (ref_eq k (id_of k os h) (id_of k os h')).
      rewrite fit_eq; [reflexivity|exact U|fin|fin].
    - destruct (at_ L x) as [h|] eqn:Ex; cbn [option_map bind]; [|reflexivity].
      eexists. split; [reflexivity|]. split; [split; [|split]; [reflexivity|reflexivity|exact A3]|]. split; [|cbn; lia].
      intros U <-. cbn. rewrite fit_bool; [reflexivity|fin].
  Qed.

  Lemma run_agree p : forall s a, (forall id, In id (flat_map gives_id p) -> In id G) ->
    (forall o, In o p -> makes o = true -> k = ERef) -> agree s a -> (h_calls a + length p <= B)%nat ->
    match h_run (created os) a p with
    | None => r_run k os s p = Undef
    | Some a' => exists s', r_run k os s p = Done s' /\ agree s' a' /\
                   (unique -> r_seen s = h_seen a -> r_seen s' = h_seen a')
    end.
  Proof.
    induction p as [|o p IH]; intros s a OG OM A NB; cbn [h_run r_run length] in *; [eauto|].
    pose proof (step_agree s a o) as H. cbn [flat_map] in OG.
    specialize (H ltac:(intros i Hi; apply OG, in_or_app; auto) (OM o (or_introl eq_refl)) A ltac:(lia)).
    destruct (h_step (created os) a o) as [a1|]; [|rewrite H; reflexivity].
    destruct H as (s1 & E1 & A1 & T1 & N1). rewrite E1. cbn [bind].
    specialize (IH s1 a1 ltac:(intros i Hi; apply OG, in_or_app; auto) ltac:(intros q Hq; apply OM; right; exact Hq) A1 ltac:(lia)).
    destruct (h_run (created os) a1 p) as [a2|]; [|exact IH].
    destruct IH as (s2 & E2 & A2 & T2). exists s2. auto.
  Qed.
End Run.

Lemma start_agree k os p : agree k os (given_ids k p) (length p) (r_start k) (h_start k).
Proof.
  destruct k.
  - split; [reflexivity|split; [reflexivity|]]. intros h [E|[E|[]]]; injection E as <-; [exact Logic.I|].
    split; [left; reflexivity|reflexivity].
  - split; [reflexivity|split; [reflexivity|]]. intros h [].
Qed.
Lemma t_refs k os p : os_sized os -> for_kind k p ->
  match h_run (created os) (h_start k) p with
  | None => r_run k os (r_start k) p = Undef
  | Some a => exists s, r_run k os (r_start k) p = Done s /\
      r_objs s = map (option_map (id_of k os)) (h_objs a) /\
      (os_fresh k os p -> r_seen s = h_seen a) /\
      (forall h, In (Some h) (h_objs a) -> h = Null \/ (exists n, h = Made n /\ created os n = true) \/
                 (exists id, h = Given id /\ In id (given_ids k p) /\ zeros id = false))
  end.
Proof.
  intros OS [GL PM].
  pose proof (run_agree k os (given_ids k p) (length p) OS GL p (r_start k) (h_start k)) as H.
  specialize (H ltac:(intros i Hi; unfold given_ids; apply in_or_app; auto)).
  specialize (H ltac:(intros o Ho Mo; destruct k; [reflexivity|rewrite (PM eq_refl o Ho) in Mo; discriminate])).
  specialize (H (start_agree k os p) ltac:(destruct k; cbn; lia)).
  destruct (h_run (created os) (h_start k) p) as [a|]; [|exact H].
  destruct H as (s & E & (A1 & A2 & A3) & T). exists s. split; [exact E|]. split; [exact A1|]. split.
  - intros [U1 U2]. apply T; [split; assumption|]. destruct k; reflexivity.
  - intros h Hh. specialize (A3 h Hh). destruct h as [|n|id]; [auto| |]; right; [left|right]; cbn [fit] in A3; eexists; split; try reflexivity; tauto.
Qed.
