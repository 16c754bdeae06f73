(** * ContainerFacts: proofs about the containers. *)
From Verif Require Import Base Containers ContainerSpec.

Lemma put_length {A} i (a : A) l : length (put i a l) = length l.
Proof. revert i; induction l; destruct i; cbn; auto. Qed.
Lemma put_same {A} i (a : A) l : i < length l -> nth_error (put i a l) i = Some a.
Proof. revert i; induction l; destruct i; cbn; intros; try lia; auto. apply IHl; lia. Qed.
Lemma put_other {A} i j (a : A) l : i <> j -> nth_error (put i a l) j = nth_error l j.
Proof. revert i j; induction l; destruct i, j; cbn; intros; try lia; auto. Qed.
Lemma put_put {A} i (a b : A) l : put i a (put i b l) = put i a l.
Proof. revert i; induction l; destruct i; cbn; f_equal; auto. Qed.
Lemma put_id {A} i (a : A) l : nth_error l i = Some a -> put i a l = l.
Proof. revert i; induction l; destruct i; cbn; intros; inversion H; subst; f_equal; auto. Qed.
Lemma map_put {A B} (f : A -> B) i a l : map f (put i a l) = put i (f a) (map f l).
Proof. revert i; induction l; destruct i; cbn; f_equal; auto. Qed.
Lemma nth_nth_error {A} i (l : list A) d a : nth_error l i = Some a -> nth i l d = a.
Proof. revert i; induction l; destruct i; cbn; intros; inversion H; subst; auto. Qed.
Lemma nth_error_lt {A} i (l : list A) : i < length l -> exists a, nth_error l i = Some a.
Proof. intros H; destruct (nth_error l i) eqn:E; eauto. apply nth_error_None in E; lia. Qed.
Lemma put_app {A} i (a : A) l r : i < length l -> put i a (l ++ r) = put i a l ++ r.
Proof. revert i; induction l; destruct i; cbn; intros; try lia; auto. f_equal; apply IHl; lia. Qed.
Lemma put_oob {A} i (a : A) l : length l <= i -> put i a l = l.
Proof. revert i; induction l; destruct i; cbn; intros; auto; try lia. f_equal; apply IHl; lia. Qed.

Lemma nth_error_ext {A} (l r : list A) : (forall k, nth_error l k = nth_error r k) -> l = r.
Proof.
  revert r; induction l as [|a l IH]; intros [|b r] H; auto; try (specialize (H 0); discriminate).
  pose proof (H 0) as H0; inversion H0; subst. f_equal. apply IH. intros k; exact (H (S k)).
Qed.

Lemma alter_put {A} i (f : A -> A) l a : nth_error l i = Some a -> alter i f l = put i (f a) l.
Proof. unfold alter; intros ->; reflexivity. Qed.
Lemma nth_map_none {A B} (f : A -> B) j l d a : nth_error l j = Some a -> nth j (map f l) d = f a.
Proof. intros H. apply nth_nth_error. rewrite nth_error_map, H. reflexivity. Qed.

(** ** Pool containers: a generic simulation argument. *)
Lemma crun_sim {A St S} (step : cop A -> St -> res St) (view : St -> list S)
  (K : kind A S) (inv : St -> Prop) :
  (forall o s, inv s -> legal_step K o (view s) ->
     exists s', step o s = Done s' /\ inv s' /\ view s' = spec_step K o (view s)) ->
  forall p s, inv s -> legal K p (view s) ->
  exists s', crun step p s = Done s' /\ inv s' /\ view s' = spec_run K p (view s).
Proof.
  intros Hs p; induction p as [|o p IH]; intros s Hi Hl.
  - exists s; cbn; auto.
  - destruct Hl as [H1 H2]. destruct (Hs o s Hi H1) as (s1 & E1 & I1 & V1).
    rewrite <- V1 in H2. destruct (IH s1 I1 H2) as (s2 & E2 & I2 & V2).
    exists s2. cbn. rewrite E1. cbn. split; [exact E2|]. split; [exact I2|].
    rewrite V2, V1. reflexivity.
Qed.

Ltac var i l H a E :=
  let H' := fresh in
  assert (H' : i < length l) by (first [exact H | rewrite map_length in H; exact H]);
  destruct (nth_error_lt i l H') as [a E].

Section OVec.
Context {T : Type} (sm : list T -> list T).
Notation view := (map (@ovx_look T)).
Notation K := (@vector_kind T).
Notation sstep := (spec_step K).

Lemma ovx_sim (o : cop (list T)) (s : list (ovec T)) : legal_step K o (view s) ->
  exists s', ovx_step sm o s = Done s' /\ True /\ view s' = sstep o (view s).
Proof.
  intros [OF H]. destruct o; try discriminate OF; clear OF.
  - eexists; split; [reflexivity|]; split; [exact I|]. cbn. rewrite map_app. reflexivity.
  - var j s H a E. unfold ovx_step, ovx_new_copy, ovx_obj. rewrite E. cbn.
    eexists; split; [reflexivity|]; split; [exact I|]. rewrite map_app. cbn.
    rewrite (nth_map_none _ _ _ _ _ E). destruct a; reflexivity.
  - var j s H a E. unfold ovx_step, ovx_new_move, ovx_obj. rewrite E. cbn.
    eexists; split; [reflexivity|]; split; [exact I|]. rewrite map_app. cbn.
    rewrite (alter_put _ _ _ _ E).
    rewrite (alter_put _ _ _ _ (put_same _ _ _ H0)), put_put, map_put.
    rewrite (nth_map_none _ _ _ _ _ E). destruct a; reflexivity.
  - destruct H as [H1 H2]. var i s H1 a E. var j s H2 b F.
    unfold ovx_step, ovx_copy_assign, ovx_obj. rewrite E, F. cbn.
    rewrite (alter_put _ _ _ _ E).
    destruct (Nat.eq_dec i j) as [->|N].
    + rewrite (put_same _ _ _ H). cbn. eexists; split; [reflexivity|]; split; [exact I|].
      rewrite (alter_put _ _ _ _ (put_same _ _ _ H)), put_put, map_put. cbn.
      rewrite (nth_map_none _ _ _ _ _ F). rewrite E in F; inversion F; subst. destruct b; reflexivity.
    + rewrite (put_other _ _ _ _ N), F. cbn. eexists; split; [reflexivity|]; split; [exact I|].
      rewrite (alter_put _ _ _ _ (put_same _ _ _ H)), put_put, map_put. cbn.
      rewrite (nth_map_none _ _ _ _ _ F). destruct b; reflexivity.
  - destruct H as [H1 H2]. var i s H1 a E. var j s H2 b F.
    unfold ovx_step, ovx_move_assign, ovx_obj. rewrite E, F. cbn.
    rewrite (alter_put _ _ _ _ E).
    destruct (Nat.eqb_spec i j) as [->|N].
    + rewrite (put_same _ _ _ H). cbn. eexists; split; [reflexivity|]; split; [exact I|].
      rewrite (alter_put _ _ _ _ (put_same _ _ _ H)), put_put.
      rewrite (alter_put _ _ _ _ (put_same _ _ _ H)), put_put, map_put. reflexivity.
    + rewrite (put_other _ _ _ _ N), F. cbn. eexists; split; [reflexivity|]; split; [exact I|].
      rewrite (alter_put _ _ _ _ (put_same _ _ _ H)), put_put.
      assert (G : nth_error (put i (with_vec (ov_vec b) (with_has (ov_has b) a)) s) j = Some b)
        by (rewrite put_other; auto).
      rewrite (alter_put _ _ _ _ G).
      rewrite (alter_put j _ _ (with_vec [] b)) by (apply put_same; rewrite put_length; auto).
      rewrite put_put, !map_put. cbn. rewrite (nth_map_none _ _ _ _ _ F). destruct b; reflexivity.
  - var i s H a E. unfold ovx_step, ovx_reset, ovx_obj. rewrite E. cbn.
    eexists; split; [reflexivity|]; split; [exact I|].
    rewrite (alter_put _ _ _ _ E), (alter_put _ _ _ _ (put_same _ _ _ H0)), put_put, map_put. reflexivity.
  - var i s H a E. unfold ovx_step, ovx_set, ovx_obj. rewrite E. cbn.
    eexists; split; [reflexivity|]; split; [exact I|].
    rewrite (alter_put _ _ _ _ E), (alter_put _ _ _ _ (put_same _ _ _ H0)), put_put, map_put. reflexivity.
  - var i s H b E. unfold ovx_step, ovx_set_values, ovx_obj. rewrite E. cbn.
    eexists; split; [reflexivity|]; split; [exact I|].
    rewrite (alter_put _ _ _ _ E), (alter_put _ _ _ _ (put_same _ _ _ H0)), put_put, map_put. reflexivity.
  - destruct H as [H F]. var i s H b E. unfold ovx_step, ovx_store, ovx_obj. rewrite E. cbn.
    eexists; split; [reflexivity|]; split; [exact I|].
    rewrite (alter_put _ _ _ _ E), map_put. cbn. f_equal.
    cbn in F. rewrite (nth_map_none _ _ _ _ _ E) in F. unfold ovx_look in *. cbn.
    destruct (ov_has b); [reflexivity|discriminate].
Qed.

Lemma t_ovec p s : legal K p (view s) ->
  exists s', crun (ovx_step sm) p s = Done s' /\ view s' = spec_run K p (view s).
Proof.
  intros H.
  destruct (crun_sim (ovx_step sm) view K (fun _ => True)
    (fun o s _ Hl => ovx_sim o s Hl) p s I H) as (s' & E & _ & V). eauto.
Qed.
End OVec.

Section IVecS.
Context {T : Type} (sm : list T -> list T) (smx : list N -> list N).
Notation view := (map (@ivx_look T)).
Notation K := (idx_kind sm smx).
Notation sstep := (spec_step K).

Lemma ivx_sim o (s : list (ivec T)) : legal_step K o (view s) ->
  exists s', ivx_step sm smx o s = Done s' /\ True /\ view s' = sstep o (view s).
Proof.
  intros [OF H]. destruct o; try discriminate OF; clear OF.
  - eexists; split; [reflexivity|]; split; [exact I|]. cbn. rewrite map_app. reflexivity.
  - var j s H a E. unfold ivx_step, ivx_new_copy, ivx_obj. rewrite E. cbn.
    eexists; split; [reflexivity|]; split; [exact I|]. rewrite map_app. cbn.
    rewrite (nth_map_none _ _ _ _ _ E). destruct a; reflexivity.
  - var j s H a E. unfold ivx_step, ivx_new_move, ivx_obj. rewrite E. cbn.
    eexists; split; [reflexivity|]; split; [exact I|]. rewrite map_app. cbn.
    rewrite (alter_put _ _ _ _ E).
    rewrite (alter_put _ _ _ _ (put_same _ _ _ H0)), put_put, map_put.
    rewrite (nth_map_none _ _ _ _ _ E). destruct a; reflexivity.
  - destruct H as [H1 H2]. var i s H1 a E. var j s H2 b F.
    unfold ivx_step, ivx_copy_assign, ivx_obj. rewrite E, F. cbn.
    rewrite (alter_put _ _ _ _ E).
    destruct (Nat.eq_dec i j) as [->|N].
    + rewrite (put_same _ _ _ H). cbn. eexists; split; [reflexivity|]; split; [exact I|].
      rewrite (alter_put _ _ _ _ (put_same _ _ _ H)), put_put, map_put. cbn.
      rewrite (nth_map_none _ _ _ _ _ F). rewrite E in F; inversion F; subst. destruct b; reflexivity.
    + rewrite (put_other _ _ _ _ N), F. cbn. eexists; split; [reflexivity|]; split; [exact I|].
      rewrite (alter_put _ _ _ _ (put_same _ _ _ H)), put_put, map_put. cbn.
      rewrite (nth_map_none _ _ _ _ _ F). destruct b; reflexivity.
  - destruct H as [H1 H2]. var i s H1 a E. var j s H2 b F.
    unfold ivx_step, ivx_move_assign, ivx_obj. rewrite E, F. cbn.
    destruct (Nat.eqb_spec i j) as [->|N].
    + rewrite (alter_put _ _ _ _ E), (put_same _ _ _ H). cbn. eexists; split; [reflexivity|]; split; [exact I|].
      rewrite (alter_put _ _ _ _ (put_same _ _ _ H)), put_put, map_put. cbn.
      rewrite E in F; inversion F; subst. rewrite (nth_map_none _ _ _ _ _ E). reflexivity.
    + rewrite (alter_put _ _ _ _ E).
      assert (G : forall x, nth_error (put i x s) j = Some b) by (intros; rewrite put_other; auto).
      rewrite (alter_put _ _ _ _ (G _)).
      rewrite put_same by (rewrite put_length; auto). cbn.
      eexists; split; [reflexivity|]; split; [exact I|].
      rewrite (alter_put i _ _ (with_values (iv_values b) a)).
      2:{ rewrite put_other by auto. apply put_same; auto. }
      rewrite (alter_put j _ _ (with_values [] b)).
      2:{ rewrite put_other by auto. apply put_same; rewrite put_length; auto. }
      rewrite !map_put, (nth_map_none _ _ _ _ _ F). unfold ivx_look; cbn.
      apply nth_error_ext; intros k.
      destruct (Nat.eq_dec k j) as [->|K].
      * rewrite !put_same by (rewrite ?put_length, ?map_length; auto). reflexivity.
      * destruct (Nat.eq_dec k i) as [->|K2].
        -- rewrite !(put_other j i) by auto.
           rewrite !put_same by (rewrite ?put_length, ?map_length; auto). reflexivity.
        -- rewrite !(put_other j k), !(put_other i k), (put_other j k), (put_other i k) by auto. reflexivity.
  - var i s H a E. unfold ivx_step, ivx_clear, ivx_obj. rewrite E. cbn.
    eexists; split; [reflexivity|]; split; [exact I|].
    rewrite (alter_put _ _ _ _ E), (alter_put _ _ _ _ (put_same _ _ _ H0)), put_put, map_put. reflexivity.
  - destruct H as [H _]. destruct a as [v x]. var i s H b E. unfold ivx_step, ivx_store, ivx_obj. rewrite E. cbn.
    eexists; split; [reflexivity|]; split; [exact I|].
    rewrite (alter_put _ _ _ _ E), (alter_put _ _ _ _ (put_same _ _ _ H0)), put_put, map_put. reflexivity.
Qed.

Lemma t_ivec p s : legal K p (view s) ->
  exists s', crun (ivx_step sm smx) p s = Done s' /\ view s' = spec_run K p (view s).
Proof.
  intros H.
  destruct (crun_sim (ivx_step sm smx) view K (fun _ => True)
    (fun o s _ Hl => ivx_sim o s Hl) p s I H) as (s' & E & _ & V). eauto.
Qed.
End IVecS.

Section OIVecS.
Context {T : Type} (sm : list T -> list T) (smx : list N -> list N).
Notation view := (map (@oix_look T)).
Notation K := (@opt_idx_kind T).
Notation sstep := (spec_step K).

Lemma oix_sim o (s : list (oivec T)) : legal_step K o (view s) ->
  exists s', oix_step sm smx o s = Done s' /\ True /\ view s' = sstep o (view s).
Proof.
  intros [OF H]. destruct o; try discriminate OF; clear OF.
  - eexists; split; [reflexivity|]; split; [exact I|]. cbn. rewrite map_app. reflexivity.
  - var j s H a E. unfold oix_step, oix_new_copy, oix_obj. rewrite E. cbn.
    eexists; split; [reflexivity|]; split; [exact I|]. rewrite map_app. cbn.
    rewrite (nth_map_none _ _ _ _ _ E). destruct a; reflexivity.
  - var j s H a E. unfold oix_step, oix_new_move, oix_obj. rewrite E. cbn.
    eexists; split; [reflexivity|]; split; [exact I|]. rewrite map_app. cbn.
    rewrite (alter_put _ _ _ _ E).
    rewrite (alter_put _ _ _ _ (put_same _ _ _ H0)), put_put, map_put.
    rewrite (nth_map_none _ _ _ _ _ E). destruct a; reflexivity.
  - destruct H as [H1 H2]. var i s H1 a E. var j s H2 b F.
    unfold oix_step, oix_copy_assign, oix_obj. rewrite E, F. cbn.
    rewrite (alter_put _ _ _ _ E).
    destruct (Nat.eq_dec i j) as [->|N].
    + rewrite (put_same _ _ _ H). cbn. eexists; split; [reflexivity|]; split; [exact I|].
      rewrite (alter_put _ _ _ _ (put_same _ _ _ H)), put_put, map_put. cbn.
      rewrite (nth_map_none _ _ _ _ _ F). rewrite E in F; inversion F; subst. destruct b; reflexivity.
    + rewrite (put_other _ _ _ _ N), F. cbn. eexists; split; [reflexivity|]; split; [exact I|].
      rewrite (alter_put _ _ _ _ (put_same _ _ _ H)), put_put, map_put. cbn.
      rewrite (nth_map_none _ _ _ _ _ F). destruct b; reflexivity.
  - destruct H as [H1 H2]. var i s H1 a E. var j s H2 b F.
    unfold oix_step, oix_move_assign, oix_obj. rewrite E, F. cbn.
    destruct (Nat.eqb_spec i j) as [->|N].
    + rewrite (alter_put _ _ _ _ E), (put_same _ _ _ H). cbn. eexists; split; [reflexivity|]; split; [exact I|].
      rewrite (alter_put _ _ _ _ (put_same _ _ _ H)), put_put.
      rewrite (alter_put _ _ _ _ (put_same _ _ _ H)), put_put, map_put. reflexivity.
    + rewrite (alter_put _ _ _ _ E).
      assert (G : forall x, nth_error (put i x s) j = Some b) by (intros; rewrite put_other; auto).
      rewrite (alter_put _ _ _ _ (G _)).
      rewrite put_same by (rewrite put_length; auto). cbn.
      eexists; split; [reflexivity|]; split; [exact I|].
      rewrite (alter_put i _ _ (with_ivec (oi_vec b) a)).
      2:{ rewrite put_other by auto. apply put_same; auto. }
      rewrite (alter_put j _ _ (with_ivec (IVec [] []) b)).
      2:{ rewrite put_other by auto. apply put_same; rewrite put_length; auto. }
      rewrite !map_put, (nth_map_none _ _ _ _ _ F). unfold oix_look; cbn.
      apply nth_error_ext; intros k.
      destruct (Nat.eq_dec k j) as [->|K].
      * rewrite !put_same by (rewrite ?put_length, ?map_length; auto). reflexivity.
      * destruct (Nat.eq_dec k i) as [->|K2].
        -- rewrite !(put_other j i) by auto.
           rewrite !put_same by (rewrite ?put_length, ?map_length; auto). reflexivity.
        -- rewrite !(put_other j k), !(put_other i k), (put_other j k), (put_other i k) by auto. reflexivity.
  - var i s H a E. unfold oix_step, oix_reset, oix_obj. rewrite E. cbn.
    eexists; split; [reflexivity|]; split; [exact I|].
    rewrite (alter_put _ _ _ _ E), (alter_put _ _ _ _ (put_same _ _ _ H0)), put_put, map_put. reflexivity.
  - var i s H a E. unfold oix_step, oix_set, oix_obj. rewrite E. cbn.
    eexists; split; [reflexivity|]; split; [exact I|].
    rewrite (alter_put _ _ _ _ E), (alter_put _ _ _ _ (put_same _ _ _ H0)), put_put, map_put. reflexivity.
  - destruct a as [v x]. var i s H b E. unfold oix_step, oix_set_values, oix_obj. rewrite E. cbn.
    eexists; split; [reflexivity|]; split; [exact I|].
    rewrite (alter_put _ _ _ _ E), (alter_put _ _ _ _ (put_same _ _ _ H0)), put_put.
    rewrite (alter_put _ _ _ _ (put_same _ _ _ H0)), put_put, map_put. reflexivity.
  - destruct a as [v x]. var i s H b E. unfold oix_step, oix_set_vector, oix_obj. rewrite E. cbn.
    eexists; split; [reflexivity|]; split; [exact I|].
    rewrite (alter_put _ _ _ _ E), (alter_put _ _ _ _ (put_same _ _ _ H0)), put_put, map_put. reflexivity.
  - destruct H as [H F]. destruct a as [v x]. var i s H b E. unfold oix_step, oix_store, oix_obj. rewrite E. cbn.
    eexists; split; [reflexivity|]; split; [exact I|].
    rewrite (alter_put _ _ _ _ E), map_put. cbn. f_equal. cbn in F.
    rewrite (nth_map_none _ _ _ _ _ E) in F. unfold oix_look in *. cbn.
    destruct (oi_has b); [reflexivity|discriminate].
Qed.

Lemma t_oivec p s : legal K p (view s) ->
  exists s', crun (oix_step sm smx) p s = Done s' /\ view s' = spec_run K p (view s).
Proof.
  intros H.
  destruct (crun_sim (oix_step sm smx) view K (fun _ => True)
    (fun o s _ Hl => oix_sim o s Hl) p s I H) as (s' & E & _ & V). eauto.
Qed.
End OIVecS.
