(** * EntityTable: finite map, equality, copy, validation. Proofs. *)
From Coq Require Import Sorting.Permutation.
From Verif Require Import Base Types Keys KeySpec Classes Validator Table TableSpec.
Local Open Scope nat_scope.

Section S.
Context {K T : Type} (Ko : keyops K) (KL : key_laws Ko) (U : umap_impl K) (zero : K) (M : mf T).
Notation tb := (table K T).
Notation eqk := (k_eq Ko).

(** Lookup in a list of entries. *)
Definition lookup (k : K) (l : list (K * option T)) : option (option T) :=
  match find (fun p => eqk k (fst p)) l with Some p => Some (snd p) | None => None end.
Lemma find_lookup k (m : tb) : t_find Ko k m = lookup k (t_list m).
Proof. reflexivity. Qed.
Lemma lookup_cons k p l : lookup k (p :: l) = if eqk k (fst p) then Some (snd p) else lookup k l.
Proof. unfold lookup. cbn. destruct (eqk k (fst p)); auto. Qed.
Lemma eqk_spec a b : eqk a b = true <-> a = b.
Proof. apply KL. Qed.
Lemma eqk_refl a : eqk a a = true.
Proof. apply eqk_spec; auto. Qed.
Lemma eqk_neq a b : a <> b -> eqk a b = false.
Proof. intros H. destruct (eqk a b) eqn:E; auto. apply eqk_spec in E. tauto. Qed.
Lemma eq_dec_k (a b : K) : {a = b} + {a <> b}.
Proof. destruct (eqk a b) eqn:E; [left; apply eqk_spec; auto|right; intros H; apply eqk_spec in H; congruence]. Qed.

Lemma lookup_in k v l : NoDup (map fst l) -> (lookup k l = Some v <-> In (k, v) l).
Proof.
  induction l as [|[k' v'] l IH]; [cbn; split; [discriminate|tauto]|]. cbn [map]. intros H. inversion H as [|? ? H1 H2]; subst.
  rewrite lookup_cons. cbn [fst snd In] in *. destruct (eqk k k') eqn:E.
  - apply eqk_spec in E. subst k'. split; [intros X; inversion X; auto|]. intros [X|X]; [inversion X; auto|].
    destruct H1. apply in_map_iff. exists (k, v); auto.
  - rewrite IH by auto. split; auto. intros [X|X]; auto. inversion X; subst. rewrite eqk_refl in E. discriminate.
Qed.
Lemma lookup_none k l : lookup k l = None <-> ~ In k (map fst l).
Proof.
  induction l as [|[k' v'] l IH]; [cbn; tauto|]. rewrite lookup_cons. cbn [fst snd map In].
  destruct (eqk k k') eqn:E.
  - apply eqk_spec in E. subst. split; [discriminate|tauto].
  - rewrite IH. split; [intros H [X|X]; auto; subst; rewrite eqk_refl in E; discriminate|tauto].
Qed.
Lemma find_in k v (m : tb) : is_table m -> (t_find Ko k m = Some v <-> In (k, v) (t_list m)).
Proof. intros H. apply lookup_in. exact H. Qed.
Lemma find_none k (m : tb) : t_find Ko k m = None <-> ~ In k (map fst (t_list m)).
Proof. apply lookup_none. Qed.
Lemma lookup_perm k l l' : NoDup (map fst l) -> Permutation l l' -> lookup k l = lookup k l'.
Proof.
  intros H P. assert (H' : NoDup (map fst l')) by (eapply Permutation_NoDup; [apply Permutation_map; exact P|exact H]).
  destruct (lookup k l') as [v|] eqn:E.
  - apply lookup_in; auto. apply lookup_in in E; auto. eapply Permutation_in; [apply Permutation_sym; exact P|exact E].
  - apply lookup_none. apply lookup_none in E. intros X. apply E. eapply Permutation_in; [apply Permutation_map; exact P|exact X].
Qed.
Lemma new_ok : is_table (t_new : tb).
Proof. constructor. Qed.
Lemma clear_ok (m : tb) : is_table (t_clear U m).
Proof. constructor. Qed.
Lemma find_clear k (m : tb) : t_find Ko k (t_clear U m) = None.
Proof. reflexivity. Qed.

(** emplace *)
Lemma emplace_spec k v (m : tb) : is_table m ->
  match t_find Ko k m with
  | Some _ => t_emplace Ko U k v m = (m, false)
  | None => exists m', t_emplace Ko U k v m = (m', true) /\ is_table m' /\ Permutation (t_list m') ((k, v) :: t_list m) /\
            forall x, t_find Ko x m' = if eqk x k then Some v else t_find Ko x m
  end.
Proof.
  intros S. unfold t_emplace. destruct (t_find Ko k m) eqn:E; auto.
  pose proof (u_put_perm U (t_state m) (t_list m) (k, v)) as P. destruct (u_put U (t_state m) (t_list m) (k, v)) as [l s]. cbn [fst] in P.
  exists (UMap l s). split; auto.
  assert (S1 : NoDup (map fst ((k, v) :: t_list m))) by (cbn; constructor; [apply find_none; exact E|exact S]).
  split; [|split; [exact P|]].
  - eapply Permutation_NoDup; [apply Permutation_map, Permutation_sym; exact P|exact S1].
  - intros x. rewrite !find_lookup. cbn [t_list]. rewrite <- (lookup_perm x _ _ S1 (Permutation_sym P)). apply lookup_cons.
Qed.
Lemma emplace_ok k v (m : tb) : is_table m -> is_table (fst (t_emplace Ko U k v m)).
Proof.
  intros S. pose proof (emplace_spec k v m S) as H. destruct (t_find Ko k m); [rewrite H; exact S|]. destruct H as (m' & -> & H & _). exact H.
Qed.
Lemma find_emplace k v (m : tb) x : is_table m ->
  t_find Ko x (fst (t_emplace Ko U k v m)) =
  if eqk x k then (match t_find Ko k m with Some w => Some w | None => Some v end) else t_find Ko x m.
Proof.
  intros S. pose proof (emplace_spec k v m S) as H. destruct (t_find Ko k m) eqn:E.
  - rewrite H. cbn [fst]. destruct (eqk x k) eqn:Ex; auto. apply eqk_spec in Ex. subst. auto.
  - destruct H as (m' & -> & _ & _ & H). apply H.
Qed.

(** assign *)
Lemma assign_keys k v (m : tb) : map fst (t_list (t_assign Ko k v m)) = map fst (t_list m).
Proof. unfold t_assign. cbn [t_list]. rewrite map_map. apply map_ext. intros p. destruct (eqk k (fst p)); auto. Qed.
Lemma assign_ok k v (m : tb) : is_table m -> is_table (t_assign Ko k v m).
Proof. intros H. unfold is_table. rewrite assign_keys. exact H. Qed.
Lemma find_assign k v (m : tb) x :
  t_find Ko x (t_assign Ko k v m) = if eqk x k then (match t_find Ko k m with Some _ => Some v | None => None end) else t_find Ko x m.
Proof.
  rewrite !find_lookup. unfold t_assign. cbn [t_list]. induction (t_list m) as [|[k' v'] l IH]; [cbn; destruct (eqk x k); auto|].
  cbn [map fst]. rewrite !lookup_cons. cbn [fst snd].
  destruct (eqk k k') eqn:E1.
  - apply eqk_spec in E1. subst k'. cbn [fst snd]. rewrite IH. destruct (eqk x k) eqn:Ex; auto.
  - cbn [fst snd]. rewrite IH. destruct (eqk x k') eqn:Ex; auto.
    apply eqk_spec in Ex. subst k'. destruct (eqk x k) eqn:E; auto. apply eqk_spec in E. subst. rewrite eqk_refl in E1. discriminate.
Qed.
Lemma erase_ok k (m : tb) : is_table m -> is_table (t_erase Ko U k m).
Proof.
  unfold t_erase, is_table. cbn [t_list]. generalize (t_list m) as l. induction l as [|p l IH]; cbn; [constructor|].
  intros H. inversion H as [|? ? H1 H2]; subst. destruct (negb _); auto. cbn. constructor; auto.
  intros X. apply H1. apply in_map_iff in X. destruct X as (q & <- & X). apply filter_In in X. apply in_map, X.
Qed.
Lemma find_erase k (m : tb) x : t_find Ko x (t_erase Ko U k m) = if eqk x k then None else t_find Ko x m.
Proof.
  rewrite !find_lookup. unfold t_erase. cbn [t_list]. induction (t_list m) as [|[k' v'] l IH]; [cbn; destruct (eqk x k); auto|].
  cbn [filter fst]. rewrite lookup_cons. cbn [fst snd].
  destruct (eqk k k') eqn:E1; cbn [negb].
  - apply eqk_spec in E1. subst k'. rewrite IH. destruct (eqk x k); auto.
  - rewrite lookup_cons. cbn [fst snd]. rewrite IH. destruct (eqk x k') eqn:Ex; auto.
    apply eqk_spec in Ex. subst k'. rewrite eqk_neq; auto. intros ->. rewrite eqk_refl in E1. discriminate.
Qed.

(** ** Histories *)
Definition sim (m : tb) (f : @fmap K T) : Prop := is_table m /\ forall k, t_find Ko k m = f k.

Lemma step_sim m f o : sim m f -> f_legal f o -> exists m', t_step Ko U M m o = Done m' /\ sim m' (f_step Ko M f o).
Proof.
  intros [S F] L. 
  assert (Ins : forall k, f k <> Some None -> exists x m1, t_insert Ko U M k m = Done (x, m1) /\ is_table m1 /\
     t_find Ko k m1 = Some (Some x) /\ forall y, t_find Ko y m1 = match f k with None => f_set Ko k (Some (Some (m_new M))) f y | Some _ => f y end).
  { intros k Hk. unfold t_insert, t_index, t_at. set (m1 := fst (t_emplace Ko U k (Some (m_new M)) m)).
    assert (F1 : forall y, t_find Ko y m1 = match f k with None => f_set Ko k (Some (Some (m_new M))) f y | Some _ => f y end).
    { intros y. unfold m1. rewrite find_emplace by auto. unfold f_set. rewrite !F. destruct (f k) eqn:Ek; auto.
      destruct (eqk y k) eqn:Ey; auto. apply eqk_spec in Ey. subst. auto. }
    assert (F2 : exists x, t_find Ko k m1 = Some (Some x)).
    { rewrite F1. destruct (f k) as [[x|]|] eqn:Ek; [eauto|tauto|]. unfold f_set. rewrite eqk_refl. eauto. }
    destruct F2 as [x F2]. rewrite F2. exists x, m1. split; [auto|]. split; [apply emplace_ok; auto|]. split; auto. }
  destruct o as [k|k x|k x|k|k|]; cbn [t_step f_legal f_step] in *.
  - destruct (Ins k L) as (x & m1 & E & S1 & F1 & F2). rewrite E. cbn [bind snd]. exists m1. split; auto. split; auto.
    intros y. rewrite F2. destruct (f k); auto.
  - destruct (Ins k L) as (x1 & m1 & E & S1 & F1 & F2). rewrite E. cbn [bind snd]. eexists. split; [reflexivity|].
    split; [apply assign_ok; auto|]. intros y. rewrite find_assign, F1. unfold f_set.
    destruct (eqk y k) eqn:Ey; auto. rewrite F2. unfold f_set. rewrite Ey. destruct (f k); auto.
  - destruct L as [x1 L]. unfold t_index, t_at. rewrite F, L. cbn [bind snd]. eexists. split; [reflexivity|].
    split; [apply assign_ok; auto|]. intros y. rewrite find_assign, F, L. unfold f_set. rewrite F. auto.
  - eexists. split; [reflexivity|]. unfold t_at. rewrite F. destruct (f k) as [v|] eqn:Ek; cbn [fst].
    + split; [apply assign_ok; auto|]. intros y. rewrite find_assign, F, Ek. unfold f_set. rewrite F. auto.
    + split; [apply assign_ok, emplace_ok; auto|]. intros y. rewrite find_assign, !find_emplace, eqk_refl, !F, Ek by auto.
      unfold f_set. destruct (eqk y k); auto.
  - eexists. split; [reflexivity|]. split; [apply erase_ok; auto|]. intros y. rewrite find_erase. unfold f_set. rewrite F. auto.
  - eexists. split; [reflexivity|]. split; [constructor|]. reflexivity.
Qed.
Lemma run_sim h : forall m f, sim m f -> legal_run Ko M h f -> exists m', t_run Ko U M h m = Done m' /\ sim m' (f_run Ko M h f).
Proof.
  induction h as [|o h IH]; intros m f S L; [exists m; auto|]. destruct L as [L1 L2].
  destruct (step_sim m f o S L1) as (m1 & E & S1). destruct (IH m1 _ S1 L2) as (m2 & E2 & S2).
  exists m2. cbn [t_run]. rewrite E. cbn [bind]. auto.
Qed.
Lemma t_history h : legal_run Ko M h (fun _ => None) ->
  exists m, t_run Ko U M h t_new = Done m /\ is_table m /\ forall k, t_find Ko k m = f_run Ko M h (fun _ => None) k.
Proof. intros L. destruct (run_sim h t_new (fun _ => None)) as (m & E & S1 & S2); auto; [split; [constructor|reflexivity]|]. exists m; auto. Qed.

(** ** Equality *)
Lemma t_equals_iff l r : is_table l -> is_table r ->
  (t_equals Ko M l r = true <-> same_map Ko (fun a b => m_eq M a b = true) l r).
Proof.
  intros SL SR. unfold t_equals. destruct (Nat.eqb_spec (length (t_list l)) (length (t_list r))) as [EL|EL]; cbn [negb].
  - rewrite forallb_forall. split.
    + intros H. assert (Inc : incl (map fst (t_list l)) (map fst (t_list r))).
      { intros k Hk. apply in_map_iff in Hk. destruct Hk as ((k', v) & <- & Hk). specialize (H _ Hk). cbn [fst] in *.
        destruct (t_find Ko k' r) eqn:E; [|discriminate]. apply find_in in E; auto. apply in_map_iff. exists (k', o); auto. }
      assert (Inc2 : incl (map fst (t_list r)) (map fst (t_list l))).
      { apply NoDup_length_incl; auto. rewrite !map_length. lia. }
      intros k. destruct (t_find Ko k l) as [v|] eqn:E.
      * apply find_in in E; auto. specialize (H _ E). cbn [fst snd] in H. destruct (t_find Ko k r) as [w|]; [|discriminate].
        destruct v, w; cbn in H; try discriminate; auto.
      * destruct (t_find Ko k r) as [w|] eqn:E2; [|exact I]. apply find_in in E2; auto. apply find_none in E.
        destruct E. apply Inc2. apply in_map_iff. exists (k, w); auto.
    + intros H [k v] Hp. cbn [fst snd]. specialize (H k). apply (find_in k v l SL) in Hp. rewrite Hp in H.
      destruct (t_find Ko k r) as [w|]; [|destruct v; tauto]. destruct v, w; cbn; auto; tauto.
  - split; [discriminate|]. intros H. destruct EL.
    assert (P : forall a b : tb, is_table a -> (forall k, t_find Ko k b = None -> t_find Ko k a = None) -> length (t_list a) <= length (t_list b)).
    { intros a b Sa Hab. rewrite <- (map_length fst (t_list a)), <- (map_length fst (t_list b)). apply NoDup_incl_length; [exact Sa|].
      intros k Hk. destruct (in_dec eq_dec_k k (map fst (t_list b))) as [|N]; auto. apply find_none, Hab, find_none in N. tauto. }
    apply Nat.le_antisymm; apply P; auto; intros k E; specialize (H k); rewrite E in H.
    + destruct (t_find Ko k l) as [[|]|]; tauto.
    + destruct (t_find Ko k r) as [[|]|]; tauto.
Qed.

(** ** Copy *)
Definition entries (P : T -> Prop) (l : list (K * option T)) : Prop := forall k x, In (k, Some x) l -> P x.
Definition copies (R : T -> T -> Prop) (x : T) : Prop := exists y, m_copy M (m_new M) (Some x) = Done y /\ R y x.
(** Related values of entries. *)
Definition orel (R : T -> T -> Prop) (a b : option T) : Prop :=
  match a, b with Some x, Some y => R x y | None, None => True | _, _ => False end.
Lemma copy_loop R s : forall d, NoDup (map fst s) -> is_table d -> (forall k, In k (map fst s) -> t_find Ko k d = None) -> entries (copies R) s ->
  exists m, t_copy_loop Ko U M s d = Done m /\ is_table m /\
    forall k, match lookup k s with
              | Some o => exists o', t_find Ko k m = Some o' /\ orel R o' o
              | None => t_find Ko k m = t_find Ko k d
              end.
Proof.
  induction s as [|[k o] s IH]; intros d Ns Sd Dis C; [exists d; cbn; auto|]. cbn [t_copy_loop].
  cbn [map fst] in Ns. inversion Ns as [|? ? N1 N2]; subst.
  assert (V : exists o', (match o with Some x => do y <- m_copy M (m_new M) (Some x); Done (Some y) | None => Done None end) = Done o' /\ orel R o' o).
  { destruct o as [x|]; [|exists None; cbn; auto]. destruct (C k x) as (y & E & Ry); [left; auto|]. exists (Some y). rewrite E. cbn. auto. }
  destruct V as (o' & V & Ro). rewrite V. cbn [bind].
  pose proof (emplace_spec k o' d Sd) as Em. rewrite (Dis k (or_introl eq_refl)) in Em. destruct Em as (d' & Em & Sd' & _ & Fd').
  rewrite Em. cbn [fst]. destruct (IH d' N2 Sd') as (m & E & Sm & Fm).
  - intros k' Hk'. rewrite Fd'. rewrite eqk_neq by (intros ->; contradiction). apply Dis. right; auto.
  - intros k' x H. apply (C k'). right; auto.
  - exists m. split; [exact E|]. split; [exact Sm|]. intros x. rewrite lookup_cons. cbn [fst snd]. specialize (Fm x).
    destruct (eqk x k) eqn:Ex.
    + apply eqk_spec in Ex. subst x. rewrite (proj2 (lookup_none k s) N1) in Fm. rewrite Fd', eqk_refl in Fm. eauto.
    + destruct (lookup x s); [exact Fm|]. rewrite Fm, Fd', Ex. reflexivity.
Qed.
Lemma same_orel R (l r : tb) : (forall k, match t_find Ko k r with Some o => exists o', t_find Ko k l = Some o' /\ orel R o' o | None => t_find Ko k l = None end) ->
  same_map Ko R l r.
Proof.
  intros H k. specialize (H k). destruct (t_find Ko k r) as [o|]; [|rewrite H; exact I]. destruct H as (o' & -> & H). destruct o, o'; auto.
Qed.
Lemma t_copy R d s : is_table s -> entries (copies R) (t_list s) ->
  exists m, t_deep_copy Ko U M d (Some s) = Done m /\ is_table m /\ same_map Ko R m s.
Proof.
  intros S C. destruct (copy_loop R (t_list s) (t_clear U d) S (clear_ok d) (fun _ _ => eq_refl) C) as (m & E & Sm & Fm).
  exists m. split; [exact E|]. split; [exact Sm|]. apply same_orel. intros k. rewrite find_lookup. exact (Fm k).
Qed.

(** ** Validation *)
Lemma t_validate_iff f n (m : tb) : is_table m -> entries (fun x => exists l, m_validate M n x = Some l) (t_list m) ->
  exists log, t_validate Ko zero M f n m = Some log /\
    (log = [] <-> (no_zero_keys f = true -> t_find Ko zero m = None) /\
                  (no_null_entities f = true -> forall k, t_find Ko k m <> Some None) /\
                  (forall k x, t_find Ko k m = Some (Some x) -> m_validate M n x = Some [])).
Proof.
  intros S C.
  assert (X : forall r, (forall p, In p r -> In p (t_list m)) -> exists l, t_validate_entries M n f r = Some l /\
    (l = [] <-> (forall k, In (k, None) r -> no_null_entities f = false) /\ (forall k x, In (k, Some x) r -> m_validate M n x = Some []))).
  { induction r as [|[k o] r IH]; intros Inc; [exists []; cbn; tauto|].
    destruct IH as (l & El & Hl); [intros; apply Inc; right; auto|]. cbn [t_validate_entries]. rewrite El.
    destruct o as [x|].
    - destruct (C k x) as (lx & Ex); [apply Inc; left; auto|]. rewrite Ex. eexists. split; [reflexivity|]. split.
      + intros H. apply app_eq_nil in H. destruct H as [-> H]. apply Hl in H. destruct H as [H1 H2]. split.
        * intros k' [Y|Y]; [discriminate|eauto].
        * intros k' x' [Y|Y]; [inversion Y; subst; auto|eauto].
      + intros [H1 H2]. rewrite (proj2 Hl).
        * rewrite (H2 k x) in Ex by (left; auto). inversion Ex; reflexivity.
        * split; intros; [eapply H1|eapply H2]; right; eauto.
    - eexists. split; [reflexivity|]. split.
      + intros H. apply app_eq_nil in H. destruct H as [H ->]. destruct (proj1 Hl eq_refl) as [H1 H2].
        destruct (no_null_entities f) eqn:Ef; [discriminate|]. split; auto. intros k' x' [Y|Y]; [discriminate|eauto].
      + intros [H1 H2]. rewrite (H1 k) by (left; auto). rewrite (proj2 Hl); auto.
        split; intros; [eapply H1|eapply H2]; right; eauto. }
  destruct (X (t_list m)) as (l & El & Hl); auto. unfold t_validate. rewrite El. eexists. split; [reflexivity|].
  split.
  - intros H. apply app_eq_nil in H. destruct H as [H ->]. destruct (proj1 Hl eq_refl) as [H1 H2].
    split; [intros Ez; rewrite Ez in H; destruct (t_find Ko zero m); [discriminate|auto]|].
    split; [intros Ef k Hk; apply find_in in Hk; auto; rewrite (H1 _ Hk) in Ef; discriminate|].
    intros k x Hk. apply find_in in Hk; auto. eauto.
  - intros (H1 & H2 & H3). rewrite (proj2 Hl).
    + destruct (no_zero_keys f); auto. rewrite H1; auto.
    + split.
      * intros k Hk. apply find_in in Hk; auto. destruct (no_null_entities f); auto. destruct (H2 eq_refl k Hk).
      * intros k x Hk. apply find_in in Hk; auto. eauto.
Qed.
End S.
