(** * TableHeapProofs: programs over tables on the heap. Lemmas. *)
From Coq Require Import Sorting.Permutation.
From Verif Require Import Base Values Keys KeySpec Classes Table TableSpec TableFacts TableHeap TableHeapSpec TableHeapFacts.
Local Open Scope N_scope.

Section F.
Context {K T : Type} (Ko : keyops K) (KL : key_laws Ko) (U : umap_impl K) (M : mf T) (left_state : N -> N).
Notation htab := (table K N).
Notation eqk := (k_eq Ko).

(** ** Equals *)
Definition peq (m : hmem T) (p q : option N) : Prop :=
  match p, q with
  | None, None => True
  | Some a, Some b => exists x y, cells m a = Some x /\ cells m b = Some y /\ m_eq M x y = true
  | _, _ => False end.
Lemma equals_loop_ok (r : htab) (m : hmem T) l :
  (forall k a, In (k, Some a) l -> cells m a <> None) -> (forall k b, t_find Ko k r = Some (Some b) -> cells m b <> None) ->
  (forall k k' a, In (k, Some a) l -> t_find Ko k' r <> Some (Some a)) ->
  exists b, h_equals_loop Ko M l r m = Done b /\ (b = true <-> forall k p, In (k, p) l -> exists q, t_find Ko k r = Some q /\ peq m p q).
Proof.
  intros HL HR HD. induction l as [|[k p] l IH].
  - exists true. split; [reflexivity|]. split; [|reflexivity]. intros _ k p [].
  - destruct IH as (b & E & IH); [intros k' a H; exact (HL k' a (or_intror H))|intros k1 k2 a H; exact (HD k1 k2 a (or_intror H))|].
    cbn [h_equals_loop]. destruct (t_find Ko k r) as [q|] eqn:Ek.
    + assert (Q : exists c, h_entry_eq M p q m = Done c /\ (c = true <-> peq m p q)).
      { destruct p as [a|], q as [a'|]; cbn [h_entry_eq peq].
        - destruct (N.eqb_spec a a') as [->|D]; [destruct (HD k k a' (or_introl eq_refl) Ek)|]. unfold h_load.
          destruct (cells m a) as [x|] eqn:Ea; [|destruct (HL k a (or_introl eq_refl) Ea)]. destruct (cells m a') as [y|] eqn:Eb; [|destruct (HR k a' Ek Eb)].
          cbn [bind]. exists (m_eq M x y). split; [reflexivity|]. split; [intros H; exists x, y; auto|]. intros (x' & y' & H1 & H2 & H3). congruence.
        - exists false. split; [reflexivity|]. split; [discriminate|contradiction].
        - exists false. split; [reflexivity|]. split; [discriminate|contradiction].
        - exists true. split; [reflexivity|]. split; auto. }
      destruct Q as (c & -> & Q). cbn [bind]. destruct c.
      * exists b. split; [exact E|]. rewrite IH. split.
        -- intros H k' p' [X|X]; [injection X as <- <-; exists q; split; [exact Ek|apply Q; reflexivity]|exact (H k' p' X)].
        -- intros H k' p' X. exact (H k' p' (or_intror X)).
      * exists false. split; [reflexivity|]. split; [discriminate|]. intros H. destruct (H k p (or_introl eq_refl)) as (q' & E1 & E2). rewrite Ek in E1. injection E1 as <-.
        apply Q. exact E2.
    + exists false. split; [reflexivity|]. split; [discriminate|]. intros H. destruct (H k p (or_introl eq_refl)) as (q' & E1 & _). congruence.
Qed.
Lemma equals_ok s (S : astate K T) i j t r : represents Ko s S -> i <> j -> h_tabs s i = Some t -> h_tabs s j = Some r ->
  exists b, h_equals Ko M false t r (h_mem s) = Done b /\
  (b = true <-> forall k, match a_map i S k, a_map j S k with
                          | None, None | Some None, Some None => True
                          | Some (Some x), Some (Some y) => m_eq M x y = true
                          | _, _ => False end).
Proof.
  intros R Dij Ei Ej. destruct (tab_exists Ko s S R i t Ei) as (f & Ef & Ht & Q). destruct (tab_exists Ko s S R j r Ej) as (g & Eg & Hr & Q').
  unfold a_map. rewrite Ef, Eg. unfold h_equals.
  assert (Ai : forall k, address Ko s i k = pt Ko t k) by (intros k; rewrite address_opt, Ei; reflexivity).
  assert (Aj : forall k, address Ko s j k = pt Ko r k) by (intros k; rewrite address_opt, Ej; reflexivity).
  destruct (equals_loop_ok r (h_mem s) (t_list t)) as (b & E & B).
  { intros k a H. apply (pt_in Ko KL t k a Ht) in H. rewrite <- Ai in H. destruct (live Ko s S R i k a H) as (x & Hx & _). congruence. }
  { intros k a H. assert (A : address Ko s j k = Some a) by (rewrite Aj; unfold pt; rewrite H; reflexivity). destruct (live Ko s S R j k a A) as (x & Hx & _). congruence. }
  { intros k k' a H H'. apply (pt_in Ko KL t k a Ht) in H. rewrite <- Ai in H. assert (A : address Ko s j k' = Some a) by (rewrite Aj; unfold pt; rewrite H'; reflexivity).
    destruct (rp_unique _ _ _ R _ _ _ _ _ H A) as [X _]. contradiction. }
  assert (KI : forall (x : htab), is_table x -> forall k, In k (map fst (t_list x)) <-> t_find Ko k x <> None).
  { intros x Hx k. split; [intros H E'; apply (find_none Ko KL) in E'; contradiction|]. intros H. destruct (t_find Ko k x) as [v|] eqn:E'; [|congruence].
    apply (find_in Ko KL k v x Hx) in E'. exact (in_map fst _ _ E'). }
  destruct (Nat.eqb_spec (length (t_list t)) (length (t_list r))) as [EL|NL]; cbn [negb].
  - exists b. split; [exact E|]. rewrite B. split.
    + intros H k. specialize (Q k). specialize (Q' k). destruct (t_find Ko k t) as [p|] eqn:Ek.
      * apply (find_in Ko KL k p t Ht) in Ek. destruct (H k p Ek) as (q & Eq & Pq). rewrite Eq in Q'.
        destruct p as [a|], q as [a'|]; cbn in Pq; try contradiction; destruct (f k) as [[x|]|]; try contradiction; destruct (g k) as [[y|]|]; try contradiction; try exact Logic.I.
        destruct Pq as (x' & y' & H1 & H2 & H3). congruence.
      * destruct (f k) as [[x|]|]; try contradiction. destruct (t_find Ko k r) as [q|] eqn:Er; [exfalso|destruct (g k) as [[y|]|]; try contradiction; exact Logic.I].
        assert (I : incl (map fst (t_list r)) (map fst (t_list t))).
        { apply NoDup_length_incl; [exact Ht|rewrite !map_length; lia|]. intros k' Hk'. apply (KI t Ht) in Hk'. destruct (t_find Ko k' t) as [p|] eqn:Ep; [|congruence].
          apply (find_in Ko KL k' p t Ht) in Ep. destruct (H k' p Ep) as (q' & Eq' & _). apply (KI r Hr). congruence. }
        assert (X : In k (map fst (t_list t))) by (apply I, (KI r Hr); congruence). apply (KI t Ht) in X. congruence.
    + intros H k p Hp. apply (find_in Ko KL k p t Ht) in Hp. specialize (H k). specialize (Q k). specialize (Q' k). rewrite Hp in Q.
      destruct p as [a|]; destruct (f k) as [[x|]|]; try contradiction; destruct (g k) as [[y|]|]; try contradiction; destruct (t_find Ko k r) as [[a'|]|]; try contradiction.
      * exists (Some a'). split; [reflexivity|]. exists x, y. auto.
      * exists None. split; [reflexivity|exact Logic.I].
  - exists false. split; [reflexivity|]. split; [discriminate|]. intros H. exfalso. apply NL.
    assert (I : forall k, In k (map fst (t_list t)) <-> In k (map fst (t_list r))).
    { intros k. rewrite (KI t Ht), (KI r Hr). specialize (H k). specialize (Q k). specialize (Q' k).
      destruct (t_find Ko k t) as [[a|]|], (f k) as [[x|]|]; try contradiction; destruct (g k) as [[y|]|]; try contradiction; destruct (t_find Ko k r) as [[a'|]|]; try contradiction;
        split; congruence. }
    rewrite <- (map_length fst (t_list t)), <- (map_length fst (t_list r)). apply Nat.le_antisymm; apply NoDup_incl_length; try assumption; intros k Hk; apply I; exact Hk.
Qed.

(** ** Every operation *)
Lemma a_map_upd i f (A : N -> option (@fmap K T)) rf : a_map i (AState (upd i (Some f) A) rf) = f.
Proof. unfold a_map. cbn [a_tabs]. rewrite upd_same. reflexivity. Qed.
Lemma a_map_tab i f (S : astate K T) : a_tabs S i = Some f -> a_map i S = f.
Proof. intros E. unfold a_map. rewrite E. reflexivity. Qed.

Lemma clear_ok s (S : astate K T) i : represents Ko s S -> a_exists i S -> exists t m', h_tabs s i = Some t /\ h_tab i s = Done t /\
  h_drops (t_list t) (h_mem s) = Done m' /\
  (forall t', t_list t' = [] -> represents Ko (HState (upd i (Some t') (h_tabs s)) (h_refs s) m') (lose_tab i (with_tab i (Some empty_map) S))) /\
  represents Ko (HState (upd i None (h_tabs s)) (h_refs s) m') (lose_tab i (with_tab i None S)).
Proof.
  intros R X. destruct (tab_get Ko s S R i X) as (t & f & Et & Ht & _). destruct (drop_tab Ko KL s S R i t Et) as (m' & Em).
  exists t, m'. split; [exact Et|]. split; [exact Ht|]. split; [exact Em|]. split.
  - intros t' Ht'. apply (empty_tab Ko KL s S R i t m' (Some t')); auto.
  - apply (empty_tab Ko KL s S R i t m' None); auto.
Qed.
Lemma deep_copy_ok P s (S : astate K T) i j : copies_in M P -> represents Ko s S -> holds P S -> a_exists i S -> a_exists j S ->
  exists s', h_deep_copy Ko U M i j s = Done s' /\ represents Ko s' (a_next Ko M (HAssign i j) S).
Proof.
  intros CP R HP Xi Xj. destruct (clear_ok s S i R Xi) as (t & m1 & Et & Ht & Em & C & _). unfold h_deep_copy. rewrite Ht. cbn [bind]. unfold h_clear. rewrite Em. cbn [bind].
  specialize (C (t_clear U t) eq_refl).
  set (s1 := HState (upd i (Some (t_clear U t)) (h_tabs s)) (h_refs s) m1) in *. unfold h_tab. change (set_tab i (Some (t_clear U t)) (set_mem m1 s)) with s1. change (h_tabs s1) with (upd i (Some (t_clear U t)) (h_tabs s)).
  cbn [a_next]. destruct (N.eqb_spec i j) as [<-|D].
  - rewrite upd_same. cbn [bind t_list t_clear h_copy_loop]. eexists. split; [reflexivity|]. eapply represents_ext; [| |exact C].
    + split; [|split; reflexivity]. intros x. cbn [set_tab set_mem h_tabs s1]. unfold s1. cbn [h_tabs]. unfold upd. destruct (x =? i); reflexivity.
    + split; [|reflexivity]. intros x. destruct (a_tabs (lose_tab i (with_tab i (Some empty_map) S)) x); auto.
  - apply not_eq_sym in D. rewrite (upd_other i j _ _ D).
    destruct (tab_get Ko s S R j Xj) as (src & g & Es & _ & Eg & Mg & _ & _). rewrite Es. cbn [bind].
    destruct (copy_tab Ko KL U M P s1 (lose_tab i (with_tab i (Some empty_map) S)) i j (t_clear U t) src (lose_tab i (with_tab i (Some (copy_map M (a_map j S))) S)) CP C) as (d' & m2 & EL & RR).
    + intros x k y. unfold a_map. cbn [lose_tab with_tab a_tabs]. unfold upd. destruct (x =? i); [discriminate|]. apply (HP x k y).
    + congruence.
    + apply upd_same.
    + reflexivity.
    + change (h_tabs s1) with (upd i (Some (t_clear U t)) (h_tabs s)). rewrite upd_other by exact D. exact Es.
    + intros x. unfold a_map. cbn [lose_tab with_tab a_tabs]. rewrite (upd_other i j _ _ D). unfold upd. destruct (x =? i); reflexivity.
    + reflexivity.
    + change (h_mem s1) with m1 in EL. rewrite EL. cbn [bind]. eexists. split; [reflexivity|]. exact RR.
Qed.

(** No valid reference names an entry without an entity. *)
Lemma no_ref s (S : astate K T) i k r : represents Ko s S -> (forall x, a_map i S k <> Some (Some x)) -> a_refs S r <> Some (i, k).
Proof.
  intros R H E. pose proof (rp_refs _ _ _ R r) as P. rewrite E in P. destruct P as (a & _ & Ha). destruct (live Ko s S R i k a Ha) as (x & _ & Hx & _). exact (H x Hx).
Qed.
(** Entries()[k] = p, where p is null or a new object. *)
Lemma put_ok s (S : astate K T) i k (w : option T) : represents Ko s S -> a_exists i S ->
  exists t t1 m1 m', h_tabs s i = Some t /\ h_tab i s = Done t /\
    (let '(p, m0) := match w with Some x => let '(a, m0) := h_alloc x (h_mem s) in (Some a, m0) | None => (None, h_mem s) end in
     m0 = m1 /\ h_put Ko U k p t m0 = Done (t1, m')) /\
    represents Ko (HState (upd i (Some t1) (h_tabs s)) (h_refs s) m') (lose_key Ko i k (with_tab i (Some (f_set Ko k (Some w) (a_map i S))) S)).
Proof.
  intros R X. destruct (tab_get Ko s S R i X) as (t & f & Et & Ht & Ef & Mf & It & Q).
  set (p := match w with Some _ => Some (nexta (h_mem s)) | None => None end).
  set (m0 := match w with Some x => Mem (upd (nexta (h_mem s)) (Some x) (cells (h_mem s))) (nexta (h_mem s) + 1) | None => h_mem s end).
  assert (E0 : match w with Some x => let '(a, m0) := h_alloc x (h_mem s) in (Some a, m0) | None => (None, h_mem s) end = (p, m0)) by (destruct w; reflexivity).
  assert (Lo : forall a, a < nexta (h_mem s) -> cells m0 a = cells (h_mem s) a) by (intros a L; unfold m0; destruct w; [apply upd_other; lia|reflexivity]).
  assert (Hi : forall a, nexta (h_mem s) <= a -> p <> Some a -> cells m0 a = None).
  { intros a L D. unfold m0, p in *. destruct w; [cbn [cells]; rewrite upd_other by congruence|]; apply (rp_fresh _ _ _ R); exact L. }
  assert (Nx : nexta (h_mem s) <= nexta m0) by (unfold m0; destruct w; cbn; lia).
  assert (W : forall x, w = Some x -> nexta (h_mem s) < nexta m0 /\ cells m0 (nexta (h_mem s)) = Some x).
  { intros x ->. unfold m0. cbn. split; [lia|apply upd_same]. }
  assert (Ai : forall k', address Ko s i k' = pt Ko t k') by (intros k'; rewrite address_opt, Et; reflexivity).
  (* the state after the old object is gone *)
  assert (G : exists told t', t_at Ko U k t = (t', told) /\ told = pt Ko t k /\ is_table t' /\ t_find Ko k t' <> None /\ forall x, x <> k -> t_find Ko x t' = t_find Ko x t).
  { pose proof (t_at_find Ko KL U k t It) as A. unfold pt. destruct (t_find Ko k t) as [q|] eqn:Eq.
    - exists q, t. repeat split; auto. congruence.
    - destruct A as (t' & A1 & A2 & A3). exists None, t'. split; [exact A1|]. split; [reflexivity|]. split; [exact A2|]. split.
      + rewrite A3, (eqk_refl Ko KL). discriminate.
      + intros x D. rewrite A3, (eqk_neq Ko KL x k D). reflexivity. }
  destruct G as (told & t' & A1 & A2 & A3 & A4 & A5).
  assert (D : exists m', h_drop told m0 = Done m' /\ nexta m' = nexta m0 /\ (forall a, told = Some a -> cells m' a = None) /\ forall a, told <> Some a -> cells m' a = cells m0 a).
  { destruct told as [a|]; cbn [h_drop].
    - symmetry in A2. rewrite <- Ai in A2. destruct (live Ko s S R i k a A2) as (x & Hx & _ & L). unfold h_free. rewrite (Lo a L), Hx. eexists. split; [reflexivity|]. split; [reflexivity|].
      split; [intros b E; injection E as <-; apply upd_same|]. intros b E. apply upd_other. congruence.
    - exists m0. repeat split; auto. discriminate. }
  destruct D as (m' & D1 & D2 & D3 & D4).
  assert (Fin : forall x, t_find Ko x (t_assign Ko k p t') = if eqk x k then Some p else t_find Ko x t).
  { intros x. rewrite (find_assign Ko KL). destruct (eqk x k) eqn:Ex; [destruct (t_find Ko k t'); congruence|]. apply A5. intros ->. rewrite (eqk_refl Ko KL) in Ex. discriminate. }
  assert (Told : forall a, told = Some a -> a < nexta (h_mem s)).
  { intros a ->. symmetry in A2. rewrite <- Ai in A2. destruct (live Ko s S R i k a A2) as (x & _ & _ & L). exact L. }
  exists t, (t_assign Ko k p t'), m0, m'. split; [exact Et|]. split; [exact Ht|]. rewrite E0. split; [split; [reflexivity|]; unfold h_put; rewrite A1, D1; reflexivity|].
  eapply (set_entry Ko KL s S R i k t f (t_assign Ko k p t') (Some p) (Some w) m').
  - exact Et.
  - exact Ef.
  - apply (assign_ok Ko). exact A3.
  - exact Fin.
  - unfold p. destruct w as [x|]; [|exact Logic.I]. destruct (W x eq_refl) as [W1 W2]. split; [lia|]. split; [lia|]. rewrite D4; [exact W2|]. intros E. pose proof (Told _ E). lia.
  - intros a (j & k' & Ha & Hn). destruct (live Ko s S R j k' a Ha) as (x & _ & _ & L). rewrite D4; [apply Lo; exact L|]. intros ->. symmetry in A2. rewrite <- Ai in A2.
    destruct (rp_unique _ _ _ R _ _ _ _ _ Ha A2) as [-> ->]. apply Hn. split; reflexivity.
  - intros a Ha. apply D3. rewrite A2, <- Ai. exact Ha.
  - intros a L E. rewrite D4; [apply Hi; [exact L|congruence]|]. intros E'. pose proof (Told _ E'). lia.
  - intros a L E. destruct told as [b|] eqn:Eb; [destruct (N.eq_dec a b) as [->|Dn]; [apply D3; reflexivity|]|]; rewrite D4 by congruence; rewrite (Lo a L); exact E.
  - lia.
  - intros x. cbn [lose_key with_tab a_tabs]. rewrite Mf. reflexivity.
  - intros r. reflexivity.
Qed.
Lemma holds_tab (P : T -> Prop) (S S' : astate K T) i f : holds P S -> (forall x, a_tabs S' x = upd i f (a_tabs S) x) ->
  (forall g k x, f = Some g -> g k = Some (Some x) -> P x) -> holds P S'.
Proof.
  intros H E F j k x. unfold a_map. rewrite E. unfold upd. destruct (j =? i).
  - destruct f as [g|]; [|discriminate]. exact (F g k x eq_refl).
  - apply (H j k x).
Qed.
Lemma map_holds (P : T -> Prop) (S : astate K T) i : holds P S -> forall k x, a_map i S k = Some (Some x) -> P x.
Proof. intros H k x. apply H. Qed.
Lemma set_holds (P : T -> Prop) (f : @fmap K T) k w : (forall k x, f k = Some (Some x) -> P x) -> (forall x, w = Some (Some x) -> P x) ->
  forall k' x, f_set Ko k w f k' = Some (Some x) -> P x.
Proof. intros H W k' x. unfold f_set. destruct (eqk k' k); [apply W|apply H]. Qed.
Lemma copy_of_ok P x : copies_in M P -> P x -> P (copy_of M x).
Proof. intros [_ C] H. destruct (C x H) as (y & E & Py). unfold copy_of. rewrite E. exact Py. Qed.
Lemma copy_holds P (f : @fmap K T) : copies_in M P -> (forall k x, f k = Some (Some x) -> P x) -> forall k x, copy_map M f k = Some (Some x) -> P x.
Proof.
  intros C H k x. unfold copy_map. destruct (f k) as [[y|]|] eqn:E; try discriminate. intros X. injection X as <-. apply copy_of_ok; [exact C|]. exact (H k y E).
Qed.
Lemma next_holds P (S : astate K T) o : copies_in M P -> uses P o -> holds P S -> holds P (a_next Ko M o S).
Proof.
  intros C HU H. destruct o as [i|i j|i j|i j|i j|i|i k r|i k r|i k r|i k|i k|i k x|i|i j|i|r|r x]; cbn [a_next]; try exact H.
  - eapply holds_tab; [exact H|reflexivity|]. intros g k x E. injection E as <-. discriminate.
  - eapply holds_tab; [exact H|reflexivity|]. intros g k x E. injection E as <-. apply copy_holds; [exact C|]. apply H.
  - eapply (holds_tab P (with_tab i (Some (a_map j S)) S)); [|reflexivity|].
    + eapply holds_tab; [exact H|reflexivity|]. intros g k x E. injection E as <-. apply H.
    + intros g k x E. injection E as <-. discriminate.
  - destruct (i =? j); (eapply holds_tab; [exact H|reflexivity|]; intros g k x E; injection E as <-).
    + discriminate.
    + apply copy_holds; [exact C|]. apply H.
  - eapply (holds_tab P (with_tab i (Some (a_map j S)) S)); [|reflexivity|].
    + eapply holds_tab; [exact H|reflexivity|]. intros g k x E. injection E as <-. apply H.
    + intros g k x E. injection E as <-. discriminate.
  - eapply holds_tab; [exact H|reflexivity|]. discriminate.
  - destruct (a_map i S k); [exact H|]. eapply holds_tab; [exact H|reflexivity|]. intros g k' x E. injection E as <-. apply set_holds; [apply H|]. intros y E. injection E as <-. apply C.
  - destruct (a_map i S k) as [[y|]|]; exact H.
  - eapply holds_tab; [exact H|reflexivity|]. intros g k' x E. injection E as <-. apply set_holds; [apply H|discriminate].
  - eapply holds_tab; [exact H|reflexivity|]. intros g k' x E. injection E as <-. apply set_holds; [apply H|discriminate].
  - eapply holds_tab; [exact H|reflexivity|]. intros g k' y E. injection E as <-. apply set_holds; [apply H|]. intros z E. injection E as <-. exact HU.
  - eapply holds_tab; [exact H|reflexivity|]. intros g k x E. injection E as <-. discriminate.
  - destruct (a_refs S r) as [[i k]|]; [|exact H]. eapply holds_tab; [exact H|reflexivity|]. intros g k' y E. injection E as <-. apply set_holds; [apply H|]. intros z E. injection E as <-. exact HU.
Qed.

Lemma mem_ext s (S : astate K T) tabs refs m' : represents Ko s S -> (forall i, tabs i = h_tabs s i) -> (forall r, refs r = h_refs s r) ->
  (forall a, cells m' a = cells (h_mem s) a) -> nexta (h_mem s) <= nexta m' -> represents Ko (HState tabs refs m') S.
Proof.
  intros [R1 R2 R3 R4 [R5 R6]] E1 E2 E3 E4.
  assert (A : forall i k, address Ko (HState tabs refs m') i k = address Ko s i k) by (intros i k; unfold address; cbn [h_tabs]; rewrite E1; reflexivity).
  split; cbn [h_tabs h_refs h_mem].
  - intros i. specialize (R1 i). rewrite E1. destruct (h_tabs s i) as [t|], (a_tabs S i) as [f|]; try contradiction; [|exact Logic.I]. destruct R1 as [Ra Rb]. split; [exact Ra|].
    intros k. specialize (Rb k). destruct (t_find Ko k t) as [[a|]|]; try exact Rb. rewrite E3. exact Rb.
  - intros i k j k' a. rewrite !A. apply R2.
  - intros a x. rewrite E3. intros H. destruct (R3 a x H) as (i & k & Hi). exists i, k. rewrite A. exact Hi.
  - intros r. specialize (R4 r). rewrite E2. destruct (a_refs S r) as [[i k]|]; [rewrite A; exact R4|]. destruct (h_refs s r); [|exact Logic.I]. rewrite E3. exact R4.
  - split; [intros a L; rewrite E3; apply R5; lia|]. intros r a. rewrite E2. intros H. pose proof (R6 r a H). lia.
Qed.
Lemma abs_ext s (S S' : astate K T) : represents Ko s S -> (forall i, a_tabs S' i = a_tabs S i) -> (forall r, a_refs S' r = a_refs S r) -> represents Ko s S'.
Proof.
  intros R E1 E2. eapply represents_ext; [| |exact R].
  - repeat split; reflexivity.
  - split; [|intros r; rewrite E2; reflexivity]. intros i. rewrite E1. destruct (a_tabs S i); auto.
Qed.
Lemma insert_ok s (S : astate K T) i k r : represents Ko s S -> a_legal (HInsert i k r) S ->
  exists s', h_step Ko U M left_state (HInsert i k r) s = Done (AVoid, s') /\ represents Ko s' (a_next Ko M (HInsert i k r) S).
Proof.
  intros R (f & Ef & Hk). assert (X : a_exists i S) by (unfold a_exists; congruence). destruct (tab_get Ko s S R i X) as (t & f' & Et & Ht & Ef' & Mf & It & Q).
  rewrite Ef in Ef'. injection Ef' as <-. cbn [h_step]. rewrite Ht. cbn [bind]. unfold h_insert. cbn [h_alloc]. pose proof (emplace_spec Ko KL U k (Some (nexta (h_mem s))) t It) as E.
  pose proof (Q k) as Qk. cbn [a_next]. rewrite Mf. destruct (t_find Ko k t) as [p|] eqn:Ek.
  - (* the key exists *) destruct (f k) as [[x|]|] eqn:Efk; [|congruence|destruct p; contradiction]. destruct p as [a|]; [|contradiction].
    unfold h_emplace. rewrite E. cbn [h_drop bind]. unfold h_free. cbn [cells]. rewrite upd_same. cbn [bind nexta]. unfold h_index, t_at. rewrite Ek. cbn [bind]. eexists. split; [reflexivity|].
    apply add_ref.
    + unfold set_tab, set_mem. cbn [h_tabs h_refs h_mem]. apply (mem_ext s S); [exact R| |reflexivity| |cbn; lia].
      * intros j. unfold upd. destruct (N.eqb_spec j i) as [->|]; [symmetry; exact Et|reflexivity].
      * intros b. cbn [cells]. unfold upd. destruct (N.eqb_spec b (nexta (h_mem s))) as [->|]; [|reflexivity]. symmetry. apply (rp_fresh _ _ _ R). lia.
    + unfold address. cbn [set_tab set_mem h_tabs]. rewrite upd_same, Ek. reflexivity.
  - (* a new entry *) destruct (f k) as [[x|]|] eqn:Efk; try contradiction. destruct E as (t1 & E & It1 & _ & F1). unfold h_emplace. rewrite E. cbn [bind].
    unfold h_index, t_at. rewrite F1, (eqk_refl Ko KL). cbn [bind]. eexists. split; [reflexivity|]. apply add_ref.
    + unfold set_tab, set_mem; cbn [h_tabs h_refs h_mem].
      apply (set_entry Ko KL s S R i k t f t1 (Some (Some (nexta (h_mem s)))) (Some (Some (m_new M)))); cbn [nexta cells].
      * exact Et.
      * exact Ef.
      * exact It1.
      * exact F1.
      * split; [lia|]. split; [lia|]. apply upd_same.
      * intros a (j & k' & Ha & _). destruct (live Ko s S R j k' a Ha) as (y & _ & _ & L). apply upd_other. lia.
      * intros a Ha. rewrite address_opt, Et in Ha. unfold opt, pt in Ha. rewrite Ek in Ha. discriminate.
      * intros a L D. rewrite upd_other by congruence. apply (rp_fresh _ _ _ R). exact L.
      * intros a L D. rewrite upd_other by lia. exact D.
      * lia.
      * intros y. reflexivity.
      * intros r'. cbn [with_tab a_refs]. pose proof (no_ref s S i k r' R) as NR. destruct (a_refs S r') as [[j k']|]; [|reflexivity].
        destruct ((j =? i) && eqk k' k) eqn:B; [|reflexivity]. exfalso. apply andb_prop in B. destruct B as [B1 B2]. apply N.eqb_eq in B1. apply (eqk_spec Ko KL) in B2. subst.
        apply NR; [|reflexivity]. intros y. rewrite Efk. discriminate.
    + unfold address. cbn [set_tab set_mem h_tabs]. rewrite upd_same, F1, (eqk_refl Ko KL). reflexivity.
Qed.
Lemma erase_step_ok s (S : astate K T) i k : represents Ko s S -> a_exists i S ->
  exists s', h_step Ko U M left_state (HErase i k) s = Done (AVoid, s') /\ represents Ko s' (a_next Ko M (HErase i k) S).
Proof.
  intros R X. destruct (tab_get Ko s S R i X) as (t & f & Et & Ht & Ef & Mf & It & Q). cbn [h_step]. rewrite Ht. cbn [bind]. unfold h_erase.
  assert (A : address Ko s i k = pt Ko t k) by (rewrite address_opt, Et; reflexivity).
  assert (D : exists m', match t_find Ko k t with Some p => h_drop p (h_mem s) | None => Done (h_mem s) end = Done m' /\ nexta m' = nexta (h_mem s) /\
     (forall a, pt Ko t k = Some a -> cells m' a = None) /\ forall a, pt Ko t k <> Some a -> cells m' a = cells (h_mem s) a).
  { unfold pt in *. destruct (t_find Ko k t) as [[a|]|]; cbn [h_drop].
    - destruct (live Ko s S R i k a A) as (x & Hx & _). unfold h_free. rewrite Hx. eexists. split; [reflexivity|]. split; [reflexivity|].
      split; [intros b E; injection E as <-; apply upd_same|]. intros b E. apply upd_other. congruence.
    - exists (h_mem s). repeat split; auto. discriminate.
    - exists (h_mem s). repeat split; auto. discriminate. }
  destruct D as (m' & -> & D2 & D3 & D4). cbn [bind]. eexists. split; [reflexivity|]. unfold set_tab, set_mem; cbn [a_next h_tabs h_refs h_mem].
  apply (set_entry Ko KL s S R i k t f (t_erase Ko U k t) None None).
  - exact Et.
  - exact Ef.
  - apply (erase_ok Ko U). exact It.
  - apply (find_erase Ko KL U).
  - exact Logic.I.
  - intros a (j & k' & Ha & Hn). apply D4. intros E. rewrite <- A in E. destruct (rp_unique _ _ _ R _ _ _ _ _ Ha E) as [-> ->]. apply Hn. split; reflexivity.
  - intros a Ha. apply D3. rewrite <- A. exact Ha.
  - intros a L _. rewrite D4; [apply (rp_fresh _ _ _ R); exact L|]. intros E. rewrite <- A in E. destruct (live Ko s S R i k a E) as (x & _ & _ & L'). lia.
  - intros a L E. destruct (pt Ko t k) as [b|] eqn:Eb; [destruct (N.eq_dec a b) as [->|Dn]; [apply D3; reflexivity|]|]; rewrite D4 by congruence; exact E.
  - lia.
  - intros x. cbn [lose_key with_tab a_tabs]. rewrite Mf. reflexivity.
  - intros r. reflexivity.
Qed.

(** Every legal operation does what the specification says. *)
Lemma step_ok P s (S : astate K T) o : copies_in M P -> represents Ko s S -> holds P S -> a_legal o S ->
  exists a s', h_step Ko U M left_state o s = Done (a, s') /\ represents Ko s' (a_next Ko M o S) /\ a_answer M o S a.
Proof.
  intros CP R HP L. destruct o as [i|i j|i j|i j|i j|i|i k r|i k r|i k r|i k|i k|i k x|i|i j|i|r|r x]; cbn [a_legal] in L.
  - (* new *) cbn [h_step a_next a_answer]. pose proof (proj2 (tab_none Ko s S R i) L) as E. unfold h_none. rewrite E. cbn [bind]. eexists _, _. split; [reflexivity|]. split; [|reflexivity].
    cbn [set_tab]. apply (change_tab Ko s S R i (Some t_new) (h_mem s) (h_refs s)).
    + intros j D. apply upd_other. exact D.
    + cbn [with_tab a_tabs]. rewrite upd_same. split; [constructor|]. intros k. exact Logic.I.
    + reflexivity.
    + intros k k' a H. discriminate.
    + intros k a H. discriminate.
    + intros a x H. right. destruct (rp_no_leak _ _ _ R a x H) as (j & k & Hj). exists j, k. split; [|exact Hj]. intros ->. rewrite address_opt, E in Hj. discriminate.
    + lia.
    + apply (rp_fresh _ _ _ R).
    + intros r. cbn [with_tab a_refs]. pose proof (rp_refs _ _ _ R r) as Hr. destruct (a_refs S r) as [[j k]|]; [|exact Hr]. destruct Hr as (a & Ha & Hb). exists a. split; [exact Ha|].
      destruct (N.eqb_spec j i) as [->|]; [|exact Hb]. rewrite address_opt, E in Hb. discriminate.
    + apply (rp_fresh _ _ _ R).
  - (* copy constructor *) destruct L as [Li Xj]. pose proof (proj2 (tab_none Ko s S R i) Li) as E. destruct (tab_get Ko s S R j Xj) as (t & f & Et & Ht & Ef & Mf & It & Q).
    cbn [h_step a_next a_answer]. unfold h_none. rewrite E, Ht. cbn [bind].
    assert (Dij : i <> j) by congruence.
    assert (R1 : represents Ko (set_tab i (Some t_new) s) (with_tab i (Some empty_map) S)).
    { cbn [set_tab]. apply (change_tab Ko s S R i (Some t_new) (h_mem s) (h_refs s)).
      + intros j' D. apply upd_other. exact D.
      + cbn [with_tab a_tabs]. rewrite upd_same. split; [constructor|]. intros k. exact Logic.I.
      + reflexivity.
      + intros k k' a H. discriminate.
      + intros k a H. discriminate.
      + intros a x H. right. destruct (rp_no_leak _ _ _ R a x H) as (j' & k & Hj). exists j', k. split; [|exact Hj]. intros ->. rewrite address_opt, E in Hj. discriminate.
      + lia.
      + apply (rp_fresh _ _ _ R).
      + intros r. cbn [with_tab a_refs]. pose proof (rp_refs _ _ _ R r) as Hr. destruct (a_refs S r) as [[j' k]|]; [|exact Hr]. destruct Hr as (a & Ha & Hb). exists a. split; [exact Ha|].
        destruct (N.eqb_spec j' i) as [->|]; [|exact Hb]. rewrite address_opt, E in Hb. discriminate.
      + apply (rp_fresh _ _ _ R). }
    destruct (deep_copy_ok P _ _ i j CP R1) as (s' & Es & R').
    + eapply holds_tab; [exact HP|reflexivity|]. intros g k x X. injection X as <-. discriminate.
    + unfold a_exists. cbn [with_tab a_tabs]. rewrite upd_same. discriminate.
    + unfold a_exists. cbn [with_tab a_tabs]. rewrite upd_other by congruence. exact Xj.
    + rewrite Es. cbn [bind]. eexists _, _. split; [reflexivity|]. split; [|reflexivity]. eapply abs_ext; [exact R'| |].
      * intros x. cbn [a_next]. destruct (N.eqb_spec i j); [contradiction|]. unfold a_map. cbn [lose_tab with_tab a_tabs].
        rewrite (upd_other i j (Some empty_map)) by congruence. unfold upd. destruct (x =? i); reflexivity.
      * intros r. cbn [a_next]. destruct (N.eqb_spec i j); [contradiction|]. cbn [lose_tab with_tab a_refs]. pose proof (no_ref s S i) as NR.
        destruct (a_refs S r) as [[y k]|] eqn:Er; [|reflexivity]. destruct (N.eqb_spec y i) as [->|]; [|reflexivity]. exfalso.
        apply (NR k r R); [|exact Er]. intros z. unfold a_map. rewrite Li. discriminate.
  - (* move constructor *) destruct L as [Li Xj]. pose proof (proj2 (tab_none Ko s S R i) Li) as E. destruct (tab_get Ko s S R j Xj) as (t & f & Et & Ht & Ef & Mf & It & Q).
    cbn [h_step a_next a_answer]. unfold h_none. rewrite E, Ht. cbn [bind]. eexists _, _. split; [reflexivity|]. split; [|reflexivity].
    apply (move_tab Ko s S R left_state i j t); auto.
  - (* assignment *) destruct L as [Xi Xj]. destruct (deep_copy_ok P s S i j CP R HP Xi Xj) as (s' & Es & R').
    destruct (tab_get Ko s S R i Xi) as (t & f & _ & Ht & _). destruct (tab_get Ko s S R j Xj) as (t' & f' & _ & Ht' & _).
    cbn [h_step]. rewrite Ht, Ht'. cbn [bind]. rewrite Es. cbn [bind]. eexists _, _. split; [reflexivity|]. split; [exact R'|reflexivity].
  - (* move assignment *) destruct L as (Xi & Xj & D). destruct (clear_ok s S i R Xi) as (d & m1 & Ed & Hd & Em & _ & C).
    destruct (tab_get Ko s S R j Xj) as (t & f & Et & Ht & Ef & Mf & It & Q). cbn [h_step a_next a_answer]. pose proof D as D'. apply N.eqb_neq in D'. rewrite D', Hd, Ht. cbn [bind].
    rewrite Em. cbn [bind]. eexists _, _. split; [reflexivity|]. split; [|reflexivity]. unfold set_tab, set_mem; cbn [h_tabs h_refs h_mem].
    eapply mem_ext; [eapply (move_tab Ko _ _ C left_state i j t)|..]; cbn [h_tabs h_refs h_mem].
    + apply upd_same.
    + rewrite upd_other by congruence. exact Et.
    + intros x. cbn [with_tab follow lose_tab a_tabs]. unfold a_map. cbn [lose_tab with_tab a_tabs]. rewrite (upd_other i j None) by congruence.
      unfold upd. destruct (x =? j); [reflexivity|]. destruct (x =? i); reflexivity.
    + intros r. reflexivity.
    + intros x. unfold upd. destruct (x =? j); [reflexivity|]. destruct (x =? i); reflexivity.
    + reflexivity.
    + reflexivity.
    + lia.
  - (* destructor *) destruct (clear_ok s S i R L) as (d & m1 & Ed & Hd & Em & _ & C). cbn [h_step]. rewrite Hd. cbn [bind]. rewrite Em. cbn [bind].
    eexists _, _. split; [reflexivity|]. split; [exact C|reflexivity].
  - (* Insert *) destruct (insert_ok s S i k r R L) as (s' & E & R'). eexists _, _. split; [exact E|]. split; [exact R'|reflexivity].
  - (* operator[] *) destruct L as (f & x & Ef & Ex). assert (X : a_exists i S) by (unfold a_exists; congruence). destruct (tab_get Ko s S R i X) as (t & f' & Et & Ht & Ef' & Mf & It & Q).
    rewrite Ef in Ef'. injection Ef' as <-. specialize (Q k). rewrite Ex in Q. destruct (t_find Ko k t) as [[a|]|] eqn:Ek; try contradiction.
    cbn [h_step a_next a_answer]. rewrite Ht. cbn [bind]. unfold h_index, t_at. rewrite Ek. cbn [bind]. eexists _, _. split; [reflexivity|]. split; [|reflexivity].
    apply add_ref; [|unfold address; cbn [set_tab h_tabs]; rewrite upd_same, Ek; reflexivity]. cbn [set_tab]. apply (mem_ext s S); [exact R| |reflexivity|reflexivity|lia].
    intros j. unfold upd. destruct (N.eqb_spec j i) as [->|]; [symmetry; exact Et|reflexivity].
  - (* find *) destruct (tab_get Ko s S R i L) as (t & f & Et & Ht & Ef & Mf & It & Q). cbn [h_step a_next a_answer]. rewrite Ht. cbn [bind]. rewrite Mf. specialize (Q k).
    destruct (t_find Ko k t) as [[a|]|] eqn:Ek, (f k) as [[x|]|]; try contradiction; eexists _, _; (split; [reflexivity|]); (split; [|reflexivity]); try exact R.
    apply add_ref; [exact R|]. unfold address. rewrite Et, Ek. reflexivity.
  - (* erase *) destruct (erase_step_ok s S i k R L) as (s' & E & R'). eexists _, _. split; [exact E|]. split; [exact R'|reflexivity].
  - (* null *) destruct (put_ok s S i k None R L) as (t & t1 & m1 & m' & Et & Ht & [_ E] & R'). cbn [h_step]. rewrite Ht. cbn [bind]. rewrite E. cbn [bind].
    eexists _, _. split; [reflexivity|]. split; [exact R'|reflexivity].
  - (* put *) destruct (put_ok s S i k (Some x) R L) as (t & t1 & m1 & m' & Et & Ht & E & R'). cbn [h_step]. rewrite Ht. cbn [bind]. cbn [h_alloc] in E |- *. destruct E as [_ E]. rewrite E. cbn [bind].
    eexists _, _. split; [reflexivity|]. split; [exact R'|reflexivity].
  - (* clear *) destruct (clear_ok s S i R L) as (d & m1 & Ed & Hd & Em & C & _). cbn [h_step]. rewrite Hd. cbn [bind]. unfold h_clear. rewrite Em. cbn [bind].
    eexists _, _. split; [reflexivity|]. split; [exact (C (t_clear U d) eq_refl)|reflexivity].
  - (* equals *) destruct L as [Xi Xj]. destruct (tab_get Ko s S R i Xi) as (t & f & Et & Ht & Ef & Mf & It & Q). destruct (tab_get Ko s S R j Xj) as (t' & f' & Et' & Ht' & Ef' & Mf' & It' & Q').
    cbn [h_step a_next a_answer]. rewrite Ht, Ht'. cbn [bind]. destruct (N.eqb_spec i j) as [->|D].
    + cbn [h_equals bind]. eexists _, _. split; [reflexivity|]. split; [exact R|]. exists true. split; [reflexivity|]. split; auto.
    + destruct (equals_ok s S i j t t' R D Et Et') as (b & E & B). rewrite E. cbn [bind]. eexists _, _. split; [reflexivity|]. split; [exact R|].
      exists b. split; [reflexivity|]. rewrite B. split; [intros H; right; exact H|]. intros [H|H]; [contradiction|exact H].
  - (* size *) destruct (tab_get Ko s S R i L) as (t & f & Et & Ht & Ef & Mf & It & Q). cbn [h_step a_next a_answer]. rewrite Ht. cbn [bind]. eexists _, _. split; [reflexivity|]. split; [exact R|].
    exists (map fst (t_list t)). split; [f_equal; unfold len; rewrite map_length; reflexivity|]. split; [exact It|]. rewrite Mf. intros k. specialize (Q k). split.
    + intros H E. rewrite E in Q. destruct (t_find Ko k t) as [[a|]|] eqn:Ek; try contradiction. apply (find_none Ko KL) in Ek. contradiction.
    + intros H. destruct (t_find Ko k t) as [v|] eqn:Ek; [apply (find_in Ko KL k v t It) in Ek; exact (in_map fst _ _ Ek)|]. destruct (f k) as [[y|]|]; contradiction || congruence.
  - (* load *) destruct (a_refs S r) as [[i k]|] eqn:Er; [|congruence]. pose proof (rp_refs _ _ _ R r) as P0. rewrite Er in P0. destruct P0 as (a & Ha & Hb).
    destruct (live Ko s S R i k a Hb) as (x & Hx & Hm & _). cbn [h_step a_next a_answer]. unfold h_ref. rewrite Ha. cbn [bind]. unfold h_load. rewrite Hx. cbn [bind].
    eexists _, _. split; [reflexivity|]. split; [exact R|]. exists i, k, x. rewrite Er. auto.
  - (* store *) destruct (a_refs S r) as [[i k]|] eqn:Er; [|congruence]. pose proof (rp_refs _ _ _ R r) as P0. rewrite Er in P0. destruct P0 as (a & Ha & Hb).
    destruct (live Ko s S R i k a Hb) as (x0 & Hx & Hm & _). cbn [h_step a_next a_answer]. rewrite Er. unfold h_ref. rewrite Ha. cbn [bind]. unfold h_store. rewrite Hx. cbn [bind].
    eexists _, _. split; [reflexivity|]. split; [|reflexivity]. exact (store_ok Ko KL s S R r i k a x0 x Er Ha Hb Hx).
Qed.
(** An operation that is not legal has undefined behaviour. *)
Lemma step_undef s (S : astate K T) o : represents Ko s S -> ~ a_legal o S -> h_step Ko U M left_state o s = Undef.
Proof.
  intros R NL.
  assert (TN : forall i, ~ a_exists i S -> h_tab i s = Undef).
  { intros i H. assert (E : a_tabs S i = None) by (unfold a_exists in H; destruct (a_tabs S i); [destruct H; discriminate|reflexivity]). apply (tab_none Ko s S R) in E. unfold h_tab. rewrite E. reflexivity. }
  assert (TS : forall i, a_exists i S -> exists t, h_tab i s = Done t) by (intros i H; destruct (tab_get Ko s S R i H) as (t & f & _ & Ht & _); exists t; exact Ht).
  assert (TD : forall i, a_exists i S \/ ~ a_exists i S) by (intros i; unfold a_exists; destruct (a_tabs S i); [left; discriminate|right; congruence]).
  assert (NN : forall i, a_tabs S i <> None -> h_none i s = Undef).
  { intros i H. destruct (tab_get Ko s S R i H) as (t & f & Et & _). unfold h_none. rewrite Et. reflexivity. }
  assert (N0 : forall i, a_tabs S i = None -> h_none i s = Done tt) by (intros i H; apply (tab_none Ko s S R) in H; unfold h_none; rewrite H; reflexivity).
  destruct o as [i|i j|i j|i j|i j|i|i k r|i k r|i k r|i k|i k|i k x|i|i j|i|r|r x]; cbn [a_legal] in NL; cbn [h_step]; try (rewrite (TN i NL); reflexivity).
  - rewrite (NN i NL). reflexivity.
  - destruct (a_tabs S i) eqn:E; [rewrite (NN i) by congruence; reflexivity|]. rewrite (N0 i E). cbn [bind]. rewrite (TN j) by tauto. reflexivity.
  - destruct (a_tabs S i) eqn:E; [rewrite (NN i) by congruence; reflexivity|]. rewrite (N0 i E). cbn [bind]. rewrite (TN j) by tauto. reflexivity.
  - destruct (TD i) as [X|X]; [|rewrite (TN i X); reflexivity]. destruct (TS i X) as (t & ->). cbn [bind]. rewrite (TN j) by tauto. reflexivity.
  - destruct (N.eqb_spec i j) as [|D]; [reflexivity|]. destruct (TD i) as [X|X]; [|rewrite (TN i X); reflexivity]. destruct (TS i X) as (t & ->). cbn [bind]. rewrite (TN j) by tauto. reflexivity.
  - destruct (TD i) as [X|X]; [|rewrite (TN i X); reflexivity]. destruct (tab_get Ko s S R i X) as (t & f & Et & Ht & Ef & Mf & It & Q). rewrite Ht. cbn [bind].
    assert (Efk : f k = Some None) by (destruct (f k) as [[y|]|] eqn:E; [destruct NL; exists f; split; [exact Ef|congruence]|reflexivity|destruct NL; exists f; split; [exact Ef|congruence]]).
    specialize (Q k). rewrite Efk in Q. destruct (t_find Ko k t) as [[a|]|] eqn:Ek; try contradiction.
    unfold h_insert. cbn [h_alloc]. unfold h_emplace. pose proof (emplace_spec Ko KL U k (Some (nexta (h_mem s))) t It) as E. rewrite Ek in E. rewrite E. cbn [h_drop bind].
    unfold h_free. cbn [cells]. rewrite upd_same. cbn [bind]. unfold h_index, t_at. rewrite Ek. reflexivity.
  - destruct (TD i) as [X|X]; [|rewrite (TN i X); reflexivity]. destruct (tab_get Ko s S R i X) as (t & f & Et & Ht & Ef & Mf & It & Q). rewrite Ht. cbn [bind].
    specialize (Q k). unfold h_index. pose proof (t_at_find Ko KL U k t It) as A. destruct (t_find Ko k t) as [[a|]|].
    + destruct (f k) as [[x|]|] eqn:Efk; try contradiction. destruct NL. exists f, x. split; assumption.
    + rewrite A. reflexivity.
    + destruct A as (t' & A & _). rewrite A. reflexivity.
  - destruct (TD i) as [X|X]; [|rewrite (TN i X); reflexivity]. destruct (TS i X) as (t & ->). cbn [bind]. rewrite (TN j) by tauto. reflexivity.
  - pose proof (rp_refs _ _ _ R r) as P0. destruct (a_refs S r) as [[i k]|]; [destruct NL; discriminate|]. unfold h_ref. destruct (h_refs s r) as [a|]; [|reflexivity]. cbn [bind]. unfold h_load. rewrite P0. reflexivity.
  - pose proof (rp_refs _ _ _ R r) as P0. destruct (a_refs S r) as [[i k]|]; [destruct NL; discriminate|]. unfold h_ref. destruct (h_refs s r) as [a|]; [|reflexivity]. cbn [bind]. unfold h_store. rewrite P0. reflexivity.
Qed.
Lemma run_ok P l : copies_in M P -> forall s (S : astate K T), represents Ko s S -> holds P S -> Forall (uses P) l -> a_legals Ko M l S ->
  exists as' s', h_run Ko U M left_state l s = Done (as', s') /\ represents Ko s' (a_nexts Ko M l S) /\ a_answers Ko M l S as'.
Proof.
  intros CP. induction l as [|o l IH]; intros s S R HP HU L.
  - exists [], s. split; [reflexivity|]. split; [exact R|exact Logic.I].
  - destruct L as [L1 L2]. inversion HU as [|? ? U1 U2]; subst. destruct (step_ok P s S o CP R HP L1) as (a & s1 & E & R1 & A1).
    destruct (IH s1 (a_next Ko M o S) R1 (next_holds P S o CP U1 HP) U2 L2) as (as' & s' & E' & R' & A').
    exists (a :: as'), s'. cbn [h_run]. rewrite E. cbn [bind]. rewrite E'. cbn [bind]. split; [reflexivity|]. split; [exact R'|]. split; assumption.
Qed.
Lemma start_ok : represents Ko h_start (a_start : astate K T).
Proof.
  split; cbn; auto.
  - discriminate.
  - discriminate.
  - split; [reflexivity|discriminate].
Qed.

Lemma legal_dec o (S : astate K T) : a_legal o S \/ ~ a_legal o S.
Proof.
  assert (TD : forall i, a_exists i S \/ ~ a_exists i S) by (intros i; unfold a_exists; destruct (a_tabs S i); [left; discriminate|right; congruence]).
  assert (TN : forall i, a_tabs S i = None \/ a_tabs S i <> None) by (intros i; destruct (a_tabs S i); [right; discriminate|left; reflexivity]).
  assert (RD : forall r, a_refs S r <> None \/ ~ a_refs S r <> None) by (intros r; destruct (a_refs S r); [left; discriminate|right; congruence]).
  destruct o as [i|i j|i j|i j|i j|i|i k r|i k r|i k r|i k|i k|i k x|i|i j|i|r|r x]; cbn [a_legal]; auto.
  - destruct (TN i), (TD j); tauto.
  - destruct (TN i), (TD j); tauto.
  - destruct (TD i), (TD j); tauto.
  - destruct (TD i), (TD j), (N.eq_dec i j); tauto.
  - destruct (a_tabs S i) as [f|] eqn:E; [|right; intros (g & H & _); discriminate]. destruct (f k) as [[y|]|] eqn:Ek.
    + left. exists f. split; [reflexivity|congruence].
    + right. intros (g & H & H'). injection H as <-. contradiction.
    + left. exists f. split; [reflexivity|congruence].
  - destruct (a_tabs S i) as [f|] eqn:E; [|right; intros (g & y & H & _); discriminate]. destruct (f k) as [[y|]|] eqn:Ek.
    + left. exists f, y. split; [reflexivity|exact Ek].
    + right. intros (g & z & H & H'). injection H as <-. congruence.
    + right. intros (g & z & H & H'). injection H as <-. congruence.
  - destruct (TD i), (TD j); tauto.
Qed.
Lemma run_undef P l : copies_in M P -> forall s (S : astate K T), represents Ko s S -> holds P S -> Forall (uses P) l -> ~ a_legals Ko M l S ->
  h_run Ko U M left_state l s = Undef.
Proof.
  intros CP. induction l as [|o l IH]; intros s S R HP HU NL; [destruct NL; exact Logic.I|]. inversion HU as [|? ? U1 U2]; subst. cbn [h_run].
  destruct (legal_dec o S) as [L|L]; [|rewrite (step_undef s S o R L); reflexivity].
  destruct (step_ok P s S o CP R HP L) as (a & s1 & E & R1 & A1). rewrite E. cbn [bind].
  rewrite (IH s1 (a_next Ko M o S) R1 (next_holds P S o CP U1 HP) U2); [reflexivity|]. intros X. apply NL. split; assumption.
Qed.
(** References stay valid. *)
Lemma keeps_ref i k r (S : astate K T) o : keeps i k r o -> a_refs S r = Some (i, k) -> a_refs (a_next Ko M o S) r = Some (i, k).
Proof.
  intros HK E. destruct o as [j|j j'|j j'|j j'|j j'|j|j k' r'|j k' r'|j k' r'|j k'|j k'|j k' x|j|j j'|j|r'|r' x]; cbn [keeps] in HK; cbn [a_next with_tab with_ref lose_tab lose_key follow a_refs]; try exact E.
  - rewrite E. apply not_eq_sym, N.eqb_neq in HK. rewrite HK. reflexivity.
  - destruct (j =? j'); cbn [lose_tab with_tab a_refs]; rewrite E; apply not_eq_sym, N.eqb_neq in HK; rewrite HK; reflexivity.
  - destruct HK as [H1 H2]. apply not_eq_sym, N.eqb_neq in H1. apply not_eq_sym, N.eqb_neq in H2. rewrite E, H1, H2. reflexivity.
  - rewrite E. apply not_eq_sym, N.eqb_neq in HK. rewrite HK. reflexivity.
  - destruct (a_map j S k'); cbn [a_refs with_tab]; rewrite upd_other by congruence; exact E.
  - rewrite upd_other by congruence. exact E.
  - destruct (a_map j S k') as [[y|]|]; cbn [with_ref a_refs]; try exact E. rewrite upd_other by congruence. exact E.
  - rewrite E. destruct (N.eqb_spec i j) as [->|]; [|reflexivity]. cbn [andb]. rewrite (eqk_neq Ko KL k k'); [reflexivity|]. intros ->. apply HK. auto.
  - rewrite E. destruct (N.eqb_spec i j) as [->|]; [|reflexivity]. cbn [andb]. rewrite (eqk_neq Ko KL k k'); [reflexivity|]. intros ->. apply HK. auto.
  - rewrite E. destruct (N.eqb_spec i j) as [->|]; [|reflexivity]. cbn [andb]. rewrite (eqk_neq Ko KL k k'); [reflexivity|]. intros ->. apply HK. auto.
  - rewrite E. apply not_eq_sym, N.eqb_neq in HK. rewrite HK. reflexivity.
  - destruct (a_refs S r') as [[i' k']|]; exact E.
Qed.
Lemma keeps_refs i k r l : Forall (keeps i k r) l -> forall (S : astate K T), a_refs S r = Some (i, k) -> a_refs (a_nexts Ko M l S) r = Some (i, k).
Proof.
  induction 1 as [|o l H _ IH]; intros S E; [exact E|]. cbn [a_nexts fold_left]. apply IH. apply keeps_ref; assumption.
Qed.
Lemma nexts_app l l' (S : astate K T) : a_nexts Ko M (l ++ l') S = a_nexts Ko M l' (a_nexts Ko M l S).
Proof. unfold a_nexts. apply fold_left_app. Qed.
End F.
