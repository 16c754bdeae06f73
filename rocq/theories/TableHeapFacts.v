(** * TableHeapFacts: the heap of EntityTable refines finite maps. Lemmas. *)
From Coq Require Import Sorting.Permutation.
From Verif Require Import Base Values Keys KeySpec Classes Table TableSpec TableFacts TableHeap TableHeapSpec.
Local Open Scope N_scope.

Section F.
Context {K T : Type} (Ko : keyops K) (KL : key_laws Ko) (U : umap_impl K) (M : mf T).
Notation htab := (table K N).
Notation eqk := (k_eq Ko).

Lemma upd_same {A} i (x : A) f : upd i x f i = x.
Proof. unfold upd. rewrite N.eqb_refl. reflexivity. Qed.
Lemma upd_other {A} i j (x : A) f : j <> i -> upd i x f j = f j.
Proof. intros H. unfold upd. apply N.eqb_neq in H. rewrite H. reflexivity. Qed.

(** ** Pointers of a table *)
Definition pt (t : htab) (k : K) : option N := match t_find Ko k t with Some p => p | None => None end.
Definition opt (o : option htab) (k : K) : option N := match o with Some t => pt t k | None => None end.
Definition ptrs (l : list (K * option N)) : list N := flat_map (fun e => match snd e with Some a => [a] | None => [] end) l.
Lemma address_opt (s : hstate K T) i k : address Ko s i k = opt (h_tabs s i) k.
Proof. unfold address, opt, pt. destruct (h_tabs s i); reflexivity. Qed.

Lemma in_ptrs a l : In a (ptrs l) <-> exists k, In (k, Some a) l.
Proof.
  unfold ptrs. rewrite in_flat_map. split.
  - intros ([k [b|]] & H & H'); cbn in H'; [|destruct H']. destruct H' as [->|[]]. exists k. exact H.
  - intros (k & H). exists (k, Some a). split; [exact H|]. left. reflexivity.
Qed.
Lemma pt_in t k a : is_table t -> (pt t k = Some a <-> In (k, Some a) (t_list t)).
Proof.
  intros Ht. unfold pt. rewrite <- (find_in Ko KL k (Some a) t Ht). destruct (t_find Ko k t) as [[b|]|]; split; congruence.
Qed.
Lemma in_ptrs_pt a t : is_table t -> (In a (ptrs (t_list t)) <-> exists k, pt t k = Some a).
Proof. intros Ht. rewrite in_ptrs. split; intros [k H]; exists k; apply (pt_in t k a Ht); exact H. Qed.
Lemma ptrs_nodup l : NoDup (map fst l) -> (forall k k' a, In (k, Some a) l -> In (k', Some a) l -> k = k') -> NoDup (ptrs l).
Proof.
  induction l as [|[k p] l IH]; intros ND J; [constructor|]. inversion ND as [|? ? Hk ND']; subst. cbn in Hk.
  cbn. destruct p as [a|]; [|apply IH; [exact ND'|]; intros k1 k2 a H1 H2; apply (J k1 k2 a); right; assumption].
  constructor; [|apply IH; [exact ND'|]; intros k1 k2 b H1 H2; apply (J k1 k2 b); right; assumption].
  intros H. apply in_ptrs in H. destruct H as [k' H]. assert (k = k') by (apply (J k k' a); [left; reflexivity|right; exact H]). subst k'.
  apply Hk. exact (in_map fst _ _ H).
Qed.

(** ** Deleting all objects of a table *)
Lemma drops_ok l : forall (m : hmem T), NoDup (ptrs l) -> (forall a, In a (ptrs l) -> cells m a <> None) ->
  exists m', h_drops l m = Done m' /\ nexta m' = nexta m /\ (forall a, In a (ptrs l) -> cells m' a = None) /\ (forall a, ~ In a (ptrs l) -> cells m' a = cells m a).
Proof.
  induction l as [|[k p] l IH]; intros m ND HL.
  - exists m. repeat split; auto. intros a [].
  - cbn in ND, HL |- *. destruct p as [a|]; cbn [h_drop bind snd].
    + inversion ND as [|? ? Ha ND']; subst. unfold h_free. destruct (cells m a) as [x|] eqn:E; [|destruct (HL a (or_introl eq_refl) E)]. cbn [bind].
      destruct (IH (Mem (upd a None (cells m)) (nexta m)) ND') as (m' & E' & Nx & D & O).
      { intros b Hb. cbn. rewrite upd_other by (intros ->; contradiction). apply HL. right. exact Hb. }
      exists m'. split; [exact E'|]. split; [exact Nx|]. split.
      * intros b [<-|Hb]; [|apply D, Hb]. destruct (in_dec N.eq_dec a (ptrs l)) as [H|H]; [contradiction|]. rewrite (O _ H). cbn. apply upd_same.
      * intros b Hb. rewrite O by (intros H; apply Hb; right; exact H). cbn. apply upd_other. intros ->. apply Hb. left. reflexivity.
    + apply IH; assumption.
Qed.

(** ** Consequences of [represents] *)
Section R.
Context (s : hstate K T) (S : astate K T) (R : represents Ko s S).
Lemma tab_exists i t : h_tabs s i = Some t -> exists f, a_tabs S i = Some f /\ is_table t /\
  forall k, match t_find Ko k t, f k with None, None | Some None, Some None => True | Some (Some a), Some (Some x) => cells (h_mem s) a = Some x | _, _ => False end.
Proof. intros E. pose proof (rp_tables _ _ _ R i) as P. rewrite E in P. destruct (a_tabs S i) as [f|]; [|contradiction]. exists f. split; [reflexivity|exact P]. Qed.
Lemma tab_none i : h_tabs s i = None <-> a_tabs S i = None.
Proof. pose proof (rp_tables _ _ _ R i) as P. destruct (h_tabs s i), (a_tabs S i); try contradiction; split; congruence. Qed.
Lemma tab_get i : a_exists i S -> exists t f, h_tabs s i = Some t /\ h_tab i s = Done t /\ a_tabs S i = Some f /\ a_map i S = f /\ is_table t /\
  forall k, match t_find Ko k t, f k with None, None | Some None, Some None => True | Some (Some a), Some (Some x) => cells (h_mem s) a = Some x | _, _ => False end.
Proof.
  unfold a_exists. intros H. pose proof (rp_tables _ _ _ R i) as P. unfold h_tab, a_map. destruct (h_tabs s i) as [t|], (a_tabs S i) as [f|]; try contradiction; try congruence.
  exists t, f. destruct P as [P1 P2]. repeat split; auto.
Qed.
Lemma live i k a : address Ko s i k = Some a -> exists x, cells (h_mem s) a = Some x /\ a_map i S k = Some (Some x) /\ a < nexta (h_mem s).
Proof.
  rewrite address_opt. unfold opt. destruct (h_tabs s i) as [t|] eqn:E; [|discriminate]. intros P.
  destruct (tab_exists i t E) as (f & Ef & _ & Q). specialize (Q k). unfold pt in P. unfold a_map. rewrite Ef.
  destruct (t_find Ko k t) as [[b|]|]; try discriminate. injection P as ->. destruct (f k) as [[x|]|]; try contradiction.
  exists x. split; [exact Q|]. split; [reflexivity|]. destruct (N.lt_ge_cases a (nexta (h_mem s))) as [H|H]; [exact H|].
  rewrite (proj1 (rp_fresh _ _ _ R) a H) in Q. discriminate.
Qed.
Lemma entity_at i k x : a_map i S k = Some (Some x) -> exists a, address Ko s i k = Some a /\ cells (h_mem s) a = Some x.
Proof.
  unfold a_map. pose proof (rp_tables _ _ _ R i) as P. rewrite address_opt. unfold opt. destruct (h_tabs s i) as [t|], (a_tabs S i) as [f|]; try contradiction; [|discriminate].
  intros E. destruct P as [_ P]. specialize (P k). rewrite E in P. unfold pt. destruct (t_find Ko k t) as [[a|]|]; try contradiction. exists a. split; [reflexivity|exact P].
Qed.
Lemma ptrs_ok i t : h_tabs s i = Some t -> NoDup (ptrs (t_list t)) /\ (forall a, In a (ptrs (t_list t)) <-> exists k, address Ko s i k = Some a) /\
  forall a, In a (ptrs (t_list t)) -> cells (h_mem s) a <> None.
Proof.
  intros E. destruct (tab_exists i t E) as (f & Ef & Ht & Q).
  assert (A : forall k, address Ko s i k = pt t k) by (intros k; rewrite address_opt, E; reflexivity).
  assert (I : forall a, In a (ptrs (t_list t)) <-> exists k, address Ko s i k = Some a).
  { intros a. rewrite (in_ptrs_pt a t Ht). split; intros [k H]; exists k; rewrite A in *; exact H. }
  split; [|split; [exact I|]].
  - apply ptrs_nodup; [exact Ht|]. intros k k' a H1 H2. apply (pt_in t k a Ht) in H1. apply (pt_in t k' a Ht) in H2. rewrite <- A in H1, H2.
    exact (proj2 (rp_unique _ _ _ R i k i k' a H1 H2)).
  - intros a H. apply I in H. destruct H as [k H]. destruct (live i k a H) as (x & E' & _). congruence.
Qed.

(** ** Replacing one table *)
Lemma change_tab i ot' m' refs' S' :
  (forall j, j <> i -> a_tabs S' j = a_tabs S j) ->
  (match ot', a_tabs S' i with
   | None, None => True
   | Some t, Some f => is_table t /\ forall k, match t_find Ko k t, f k with None, None | Some None, Some None => True
                                               | Some (Some a), Some (Some x) => cells m' a = Some x | _, _ => False end
   | _, _ => False end) ->
  (forall j k a, j <> i -> address Ko s j k = Some a -> cells m' a = cells (h_mem s) a) ->
  (forall k k' a, opt ot' k = Some a -> opt ot' k' = Some a -> k = k') ->
  (forall k a, opt ot' k = Some a -> nexta (h_mem s) <= a \/ exists k', address Ko s i k' = Some a) ->
  (forall a x, cells m' a = Some x -> (exists k, opt ot' k = Some a) \/ exists j k, j <> i /\ address Ko s j k = Some a) ->
  nexta (h_mem s) <= nexta m' -> (forall a, nexta m' <= a -> cells m' a = None) ->
  (forall r, match a_refs S' r with
             | Some (j, k) => exists a, refs' r = Some a /\ (if j =? i then opt ot' k else address Ko s j k) = Some a
             | None => match refs' r with Some a => cells m' a = None | None => True end end) ->
  (forall r a, refs' r = Some a -> a < nexta m') ->
  represents Ko (HState (upd i ot' (h_tabs s)) refs' m') S'.
Proof.
  intros HO HI HC HJ HN HL Hn Hf Hr Hrn.
  assert (A : forall j k, address Ko (HState (upd i ot' (h_tabs s)) refs' m') j k = if j =? i then opt ot' k else address Ko s j k).
  { intros j k. rewrite !address_opt. cbn [h_tabs]. unfold upd. destruct (j =? i); reflexivity. }
  split; cbn [h_tabs h_refs h_mem].
  - intros j. unfold upd. destruct (N.eqb_spec j i) as [->|D]; [exact HI|]. rewrite (HO j D). pose proof (rp_tables _ _ _ R j) as P.
    destruct (h_tabs s j) as [t|] eqn:E, (a_tabs S j) as [f|] eqn:Ef; try contradiction; [|exact Logic.I]. destruct P as [P1 P2]. split; [exact P1|].
    intros k. specialize (P2 k). destruct (t_find Ko k t) as [[a|]|] eqn:Ek, (f k) as [[x|]|]; try contradiction; try exact Logic.I.
    rewrite (HC j k a D); [exact P2|]. rewrite address_opt, E. unfold opt, pt. rewrite Ek. reflexivity.
  - intros j k j' k' a. rewrite !A. destruct (N.eqb_spec j i) as [->|D], (N.eqb_spec j' i) as [->|D']; intros H1 H2.
    + split; [reflexivity|]. exact (HJ k k' a H1 H2).
    + exfalso. destruct (live j' k' a H2) as (x & _ & _ & L). destruct (HN k a H1) as [L'|[k2 H3]]; [lia|].
      destruct (rp_unique _ _ _ R _ _ _ _ _ H2 H3) as [E _]. congruence.
    + exfalso. destruct (live j k a H1) as (x & _ & _ & L). destruct (HN k' a H2) as [L'|[k2 H3]]; [lia|].
      destruct (rp_unique _ _ _ R _ _ _ _ _ H1 H3) as [E _]. congruence.
    + exact (rp_unique _ _ _ R _ _ _ _ _ H1 H2).
  - intros a x H. destruct (HL a x H) as [[k P]|(j & k & D & P)].
    + exists i, k. rewrite A, N.eqb_refl. exact P.
    + exists j, k. rewrite A. apply N.eqb_neq in D. rewrite D. exact P.
  - intros r. specialize (Hr r). destruct (a_refs S' r) as [[j k]|]; [|exact Hr]. rewrite A. exact Hr.
  - split; [exact Hf|exact Hrn].
Qed.

(** ** Replacing one entry *)
Lemma set_entry i k t f t' v w m' S' :
  h_tabs s i = Some t -> a_tabs S i = Some f -> is_table t' ->
  (forall x, t_find Ko x t' = if eqk x k then v else t_find Ko x t) ->
  match v, w with
  | None, None | Some None, Some None => True
  | Some (Some b), Some (Some x) => nexta (h_mem s) <= b /\ b < nexta m' /\ cells m' b = Some x
  | _, _ => False end ->
  (forall a, (exists j k', address Ko s j k' = Some a /\ ~ (j = i /\ k' = k)) -> cells m' a = cells (h_mem s) a) ->
  (forall a, address Ko s i k = Some a -> cells m' a = None) ->
  (forall a, nexta (h_mem s) <= a -> v <> Some (Some a) -> cells m' a = None) ->
  (forall a, a < nexta (h_mem s) -> cells (h_mem s) a = None -> cells m' a = None) ->
  nexta (h_mem s) <= nexta m' ->
  (forall x, a_tabs S' x = upd i (Some (f_set Ko k w f)) (a_tabs S) x) ->
  (forall r, a_refs S' r = match a_refs S r with Some (j, k') => if (j =? i) && eqk k' k then None else Some (j, k') | None => None end) ->
  represents Ko (HState (upd i (Some t') (h_tabs s)) (h_refs s) m') S'.
Proof.
  intros Et Ef Ht' Hfind Hvw Hkeep Hold Hnew Hdead Hn HS HRf.
  destruct (tab_exists i t Et) as (f' & Ef' & Ht & Q). rewrite Ef in Ef'. injection Ef' as <-.
  assert (A : forall k', address Ko s i k' = pt t k') by (intros k'; rewrite address_opt, Et; reflexivity).
  assert (P' : forall k', k' <> k -> pt t' k' = pt t k') by (intros k' D; unfold pt; rewrite Hfind, (eqk_neq Ko KL k' k D); reflexivity).
  assert (Pk : pt t' k = match v with Some p => p | None => None end) by (unfold pt; rewrite Hfind, (eqk_refl Ko KL); reflexivity).
  assert (Fr : forall k', pt t' k' = Some (nexta m') -> False).
  { intros k' H. destruct (eq_dec_k Ko KL k' k) as [->|D].
    - rewrite Pk in H. destruct v as [[b|]|]; try discriminate. injection H as ->. destruct w as [[x|]|]; try contradiction. lia.
    - rewrite (P' k' D), <- A in H. destruct (live i k' _ H) as (x & _ & _ & L). lia. }
  apply change_tab.
  - intros j D. rewrite HS. apply upd_other. exact D.
  - rewrite HS, upd_same. split; [exact Ht'|]. intros k'. unfold f_set. rewrite Hfind. destruct (eqk k' k) eqn:Ek.
    + destruct v as [[b|]|], w as [[x|]|]; try contradiction; try exact Logic.I. apply Hvw.
    + specialize (Q k'). destruct (t_find Ko k' t) as [[a|]|] eqn:Ea, (f k') as [[x|]|]; try contradiction; try exact Logic.I. rewrite Hkeep; [exact Q|].
      exists i, k'. split; [rewrite A; unfold pt; rewrite Ea; reflexivity|]. intros [_ ->]. rewrite (eqk_refl Ko KL) in Ek. discriminate.
  - intros j k' a D H. apply Hkeep. exists j, k'. split; [exact H|]. intros [E _]. contradiction.
  - intros k1 k2 a. cbn [opt]. intros H1 H2. destruct (eq_dec_k Ko KL k1 k) as [->|D1], (eq_dec_k Ko KL k2 k) as [->|D2]; [reflexivity| | |].
    + exfalso. rewrite (P' k2 D2), <- A in H2. destruct (live i k2 a H2) as (x & _ & _ & L). rewrite Pk in H1. destruct v as [[b|]|]; try discriminate. injection H1 as ->.
      destruct w as [[y|]|]; try contradiction. lia.
    + exfalso. rewrite (P' k1 D1), <- A in H1. destruct (live i k1 a H1) as (x & _ & _ & L). rewrite Pk in H2. destruct v as [[b|]|]; try discriminate. injection H2 as ->.
      destruct w as [[y|]|]; try contradiction. lia.
    + rewrite (P' k1 D1), <- A in H1. rewrite (P' k2 D2), <- A in H2. exact (proj2 (rp_unique _ _ _ R _ _ _ _ _ H1 H2)).
  - intros k' a. cbn [opt]. intros H. destruct (eq_dec_k Ko KL k' k) as [->|D].
    + left. rewrite Pk in H. destruct v as [[b|]|]; try discriminate. injection H as ->. destruct w as [[y|]|]; try contradiction. apply Hvw.
    + right. exists k'. rewrite A, <- (P' k' D). exact H.
  - intros a x H. cbn [opt].
    assert (Dv : {v = Some (Some a)} + {v <> Some (Some a)}).
    { destruct v as [[b|]|]; [destruct (N.eq_dec b a) as [->|]; [left; reflexivity|right; congruence]|right; discriminate|right; discriminate]. }
    destruct Dv as [E|D].
    + left. exists k. rewrite Pk, E. reflexivity.
    + destruct (N.lt_ge_cases a (nexta (h_mem s))) as [L|L]; [|rewrite (Hnew a L D) in H; discriminate].
      destruct (cells (h_mem s) a) as [y|] eqn:Ey; [|rewrite (Hdead a L Ey) in H; discriminate].
      destruct (rp_no_leak _ _ _ R a y Ey) as (j & k' & Hj). destruct (N.eq_dec j i) as [->|Dj].
      * destruct (eq_dec_k Ko KL k' k) as [->|Dk]; [rewrite (Hold a Hj) in H; discriminate|]. left. exists k'. rewrite (P' k' Dk), <- A. exact Hj.
      * right. exists j, k'. split; assumption.
  - exact Hn.
  - intros a L. apply Hnew; [lia|]. intros ->. destruct w as [[y|]|]; try contradiction. lia.
  - intros r. rewrite HRf. pose proof (rp_refs _ _ _ R r) as Hr. destruct (a_refs S r) as [[j k']|].
    + destruct ((j =? i) && eqk k' k) eqn:E.
      * apply andb_prop in E. destruct E as [E1 E2]. apply N.eqb_eq in E1. apply (eqk_spec Ko KL) in E2. subst j k'. destruct Hr as (a & -> & Ha). apply Hold. exact Ha.
      * destruct Hr as (a & Ha & Hb). exists a. split; [exact Ha|]. destruct (N.eqb_spec j i) as [->|D]; [|exact Hb]. cbn [opt]. cbn [andb] in E.
        rewrite P' by (intros ->; rewrite (eqk_refl Ko KL) in E; discriminate). rewrite <- A. exact Hb.
    + destruct (h_refs s r) as [a|] eqn:Ea; [|exact Logic.I]. apply Hdead; [exact (proj2 (rp_fresh _ _ _ R) r a Ea)|exact Hr].
  - intros r a H. pose proof (proj2 (rp_fresh _ _ _ R) r a H). lia.
Qed.
(** A reference to an entity. *)
Lemma add_ref r i k a : address Ko s i k = Some a -> represents Ko (set_ref r a s) (with_ref r i k S).
Proof.
  intros H. destruct R as [R1 R2 R3 R4 [R5 R6]]. split; cbn [set_ref with_ref h_tabs h_refs h_mem a_tabs a_refs]; [exact R1|exact R2|exact R3| |].
  - intros r'. unfold upd. destruct (r' =? r); [exists a; split; [reflexivity|exact H]|exact (R4 r')].
  - split; [exact R5|]. intros r' b. unfold upd. destruct (r' =? r).
    + intros E. injection E as <-. destruct (live i k a H) as (x & _ & _ & L). exact L.
    + apply R6.
Qed.
(** All entries of a table are deleted; the table becomes [ot'], without entries. *)
Lemma empty_tab i t m' ot' S' :
  h_tabs s i = Some t -> h_drops (t_list t) (h_mem s) = Done m' ->
  match ot' with Some t' => t_list t' = [] | None => True end ->
  (forall x, a_tabs S' x = upd i (match ot' with Some _ => Some empty_map | None => None end) (a_tabs S) x) ->
  (forall r, a_refs S' r = match a_refs S r with Some (j, k) => if j =? i then None else Some (j, k) | None => None end) ->
  represents Ko (HState (upd i ot' (h_tabs s)) (h_refs s) m') S'.
Proof.
  intros Et Ed Ho HS HRf. destruct (ptrs_ok i t Et) as (ND & IA & LV).
  destruct (drops_ok (t_list t) (h_mem s) ND LV) as (m1 & E1 & Nx & D & K1). rewrite Ed in E1. injection E1 as <-.
  assert (O : forall k, opt ot' k = None).
  { intros k. destruct ot' as [t'|]; [|reflexivity]. cbn [opt]. unfold pt, t_find. rewrite Ho. reflexivity. }
  assert (OT : forall j k a, j <> i -> address Ko s j k = Some a -> ~ In a (ptrs (t_list t))).
  { intros j k a Dj H HI. apply IA in HI. destruct HI as [k' H']. destruct (rp_unique _ _ _ R _ _ _ _ _ H H') as [E _]. contradiction. }
  apply change_tab.
  - intros j Dj. rewrite HS. apply upd_other. exact Dj.
  - rewrite HS, upd_same. destruct ot' as [t'|]; [|exact Logic.I]. split; [unfold is_table; rewrite Ho; constructor|].
    intros k. unfold t_find. rewrite Ho. exact Logic.I.
  - intros j k a Dj H. apply K1. exact (OT j k a Dj H).
  - intros k k' a H. rewrite O in H. discriminate.
  - intros k a H. rewrite O in H. discriminate.
  - intros a x H. right. destruct (in_dec N.eq_dec a (ptrs (t_list t))) as [HI|HI]; [rewrite (D a HI) in H; discriminate|].
    rewrite (K1 a HI) in H. destruct (rp_no_leak _ _ _ R a x H) as (j & k & Hj). exists j, k. split; [|exact Hj]. intros ->. apply HI. apply IA. exists k. exact Hj.
  - rewrite Nx. lia.
  - intros a L. rewrite Nx in L. destruct (in_dec N.eq_dec a (ptrs (t_list t))) as [HI|HI]; [exact (D a HI)|]. rewrite (K1 a HI). apply (rp_fresh _ _ _ R). exact L.
  - intros r. rewrite HRf. pose proof (rp_refs _ _ _ R r) as Hr. destruct (a_refs S r) as [[j k]|].
    + destruct (N.eqb_spec j i) as [->|Dj].
      * destruct Hr as (a & -> & Ha). apply D. apply IA. exists k. exact Ha.
      * destruct Hr as (a & Ha & Hb). exists a. split; [exact Ha|]. apply N.eqb_neq in Dj. rewrite Dj. exact Hb.
    + destruct (h_refs s r) as [a|]; [|exact Logic.I]. destruct (in_dec N.eq_dec a (ptrs (t_list t))) as [HI|HI]; [exact (D a HI)|]. rewrite (K1 a HI). exact Hr.
  - intros r a H. rewrite Nx. exact (proj2 (rp_fresh _ _ _ R) r a H).
Qed.
Lemma drop_tab i t : h_tabs s i = Some t -> exists m', h_drops (t_list t) (h_mem s) = Done m'.
Proof. intros Et. destruct (ptrs_ok i t Et) as (ND & IA & LV). destruct (drops_ok (t_list t) (h_mem s) ND LV) as (m1 & E1 & _). exists m1. exact E1. Qed.

(** The content of [j] moves to the new table [i]. *)
Lemma move_tab left_state i j t S' : h_tabs s i = None -> h_tabs s j = Some t ->
  (forall x, a_tabs S' x = upd j (Some empty_map) (upd i (Some (a_map j S)) (a_tabs S)) x) ->
  (forall r, a_refs S' r = match a_refs S r with Some (x, k) => Some (if x =? j then i else x, k) | None => None end) ->
  represents Ko (HState (upd j (Some (moved_from left_state t)) (upd i (Some t) (h_tabs s))) (h_refs s) (h_mem s)) S'.
Proof.
  intros Ei Ej HS HRf. assert (Dij : i <> j) by congruence.
  assert (A : forall x k, address Ko (HState (upd j (Some (moved_from left_state t)) (upd i (Some t) (h_tabs s))) (h_refs s) (h_mem s)) x k =
    if x =? j then None else if x =? i then address Ko s j k else address Ko s x k).
  { intros x k. rewrite !address_opt. cbn [h_tabs]. unfold upd. destruct (x =? j); [reflexivity|]. destruct (x =? i); [rewrite Ej|]; reflexivity. }
  assert (Ai : forall k, address Ko s i k = None) by (intros k; rewrite address_opt, Ei; reflexivity).
  destruct (tab_exists j t Ej) as (f & Ef & Ht & Q).
  split; cbn [h_tabs h_refs h_mem].
  - intros x. rewrite HS. unfold upd. destruct (N.eqb_spec x j) as [->|D].
    + split; [constructor|]. intros k. exact Logic.I.
    + destruct (N.eqb_spec x i) as [->|D'].
      * unfold a_map. rewrite Ef. split; [exact Ht|exact Q].
      * exact (rp_tables _ _ _ R x).
  - intros x k x' k' a. rewrite !A. destruct (N.eqb_spec x j) as [->|D1]; [discriminate|]. destruct (N.eqb_spec x' j) as [->|D2]; [discriminate|].
    destruct (N.eqb_spec x i) as [->|D3], (N.eqb_spec x' i) as [->|D4]; intros H1 H2; destruct (rp_unique _ _ _ R _ _ _ _ _ H1 H2) as [E1 E2]; subst; try contradiction; auto.
  - intros a x H. destruct (rp_no_leak _ _ _ R a x H) as (y & k & Hy). destruct (N.eq_dec y j) as [->|D].
    + exists i, k. rewrite A. apply N.eqb_neq in Dij. rewrite Dij, N.eqb_refl. exact Hy.
    + exists y, k. rewrite A. pose proof D as D'. apply N.eqb_neq in D'. rewrite D'. destruct (N.eqb_spec y i) as [->|]; [rewrite Ai in Hy; discriminate|exact Hy].
  - intros r. rewrite HRf. pose proof (rp_refs _ _ _ R r) as Hr. destruct (a_refs S r) as [[x k]|]; [|exact Hr]. destruct Hr as (a & Ha & Hb).
    exists a. split; [exact Ha|]. rewrite A. destruct (N.eqb_spec x j) as [->|D].
    + pose proof Dij as D'. apply N.eqb_neq in D'. rewrite D', N.eqb_refl. exact Hb.
    + pose proof D as D'. apply N.eqb_neq in D'. rewrite D'. destruct (N.eqb_spec x i) as [->|]; [rewrite Ai in Hb; discriminate|exact Hb].
  - exact (rp_fresh _ _ _ R).
Qed.

(** A change through a reference. *)
Lemma store_ok r i k a x0 x : a_refs S r = Some (i, k) -> h_refs s r = Some a -> address Ko s i k = Some a -> cells (h_mem s) a = Some x0 ->
  represents Ko (set_mem (Mem (upd a (Some x) (cells (h_mem s))) (nexta (h_mem s))) s) (with_tab i (Some (f_set Ko k (Some (Some x)) (a_map i S))) S).
Proof.
  intros Er Eh Ha Hx. destruct (live i k a Ha) as (y & Hy & Hm & L). pose proof R as R0. destruct R0 as [R1 R2 R3 R4 [R5 R6]].
  split; cbn [set_mem with_tab h_tabs h_refs h_mem a_tabs a_refs cells nexta].
  - intros j. pose proof (R1 j) as P. destruct (N.eq_dec j i) as [->|D]; [rewrite upd_same|rewrite (upd_other i j _ _ D)].
    + assert (Ha' := Ha). rewrite address_opt in Ha'. unfold opt in Ha'. destruct (h_tabs s i) as [t|] eqn:Et; [|discriminate]. unfold a_map. destruct (a_tabs S i) as [f|] eqn:Ef; [|contradiction].
      destruct P as [P1 P2]. split; [exact P1|]. intros k'. unfold f_set. destruct (eqk k' k) eqn:Ek.
      * apply (eqk_spec Ko KL) in Ek. subst k'. unfold pt in Ha'. destruct (t_find Ko k t) as [p|]; [|discriminate]. subst p. rewrite upd_same. reflexivity.
      * specialize (P2 k'). destruct (t_find Ko k' t) as [[b|]|] eqn:Eb, (f k') as [[z|]|]; try contradiction; try exact Logic.I. rewrite upd_other; [exact P2|]. intros ->.
        assert (Hb : address Ko s i k' = Some a) by (rewrite address_opt, Et; unfold opt, pt; rewrite Eb; reflexivity).
        destruct (R2 _ _ _ _ _ Ha Hb) as [_ E]. subst k'. rewrite (eqk_refl Ko KL) in Ek. discriminate.
    + destruct (h_tabs s j) as [t|] eqn:Et, (a_tabs S j) as [f|] eqn:Ef; try contradiction; [|exact Logic.I]. destruct P as [P1 P2]. split; [exact P1|].
      intros k'. specialize (P2 k'). destruct (t_find Ko k' t) as [[b|]|] eqn:Eb, (f k') as [[z|]|]; try contradiction; try exact Logic.I. rewrite upd_other; [exact P2|]. intros ->.
      assert (Hb : address Ko s j k' = Some a) by (rewrite address_opt, Et; unfold opt, pt; rewrite Eb; reflexivity).
      destruct (R2 _ _ _ _ _ Ha Hb) as [E _]. congruence.
  - exact R2.
  - intros b z. unfold upd. destruct (N.eqb_spec b a) as [->|D]; [intros _; exists i, k; exact Ha|]. apply R3.
  - intros r'. pose proof (R4 r') as P. destruct (a_refs S r') as [[j k']|]; [exact P|]. destruct (h_refs s r') as [b|]; [|exact Logic.I].
    rewrite upd_other; [exact P|]. intros ->. congruence.
  - split; [|exact R6]. intros b Lb. rewrite upd_other by lia. apply R5. exact Lb.
Qed.
End R.

(** ** Copying *)
Lemma t_at_find k (t : htab) : is_table t ->
  match t_find Ko k t with
  | Some p => t_at Ko U k t = (t, p)
  | None => exists t', t_at Ko U k t = (t', None) /\ is_table t' /\ forall x, t_find Ko x t' = if eqk x k then Some None else t_find Ko x t
  end.
Proof.
  intros Ht. unfold t_at. pose proof (emplace_spec Ko KL U k None t Ht) as E. destruct (t_find Ko k t) as [p|]; [reflexivity|].
  destruct E as (t' & -> & Ht' & _ & F). exists t'. split; [reflexivity|]. split; assumption.
Qed.
Notation copy_of := (copy_of M).
Lemma copy_loop_ok (P : T -> Prop) : copies_in M P -> forall src (d : htab) (m : hmem T),
  NoDup (map fst src) -> is_table d -> (forall k, In k (map fst src) -> t_find Ko k d = None) ->
  (forall k a, In (k, Some a) src -> a < nexta m /\ exists x, cells m a = Some x /\ P x) ->
  (forall a, nexta m <= a -> cells m a = None) ->
  exists d' m', h_copy_loop Ko U M src d m = Done (d', m') /\ is_table d' /\ nexta m <= nexta m' /\
    (forall a, a < nexta m -> cells m' a = cells m a) /\ (forall a, nexta m' <= a -> cells m' a = None) /\
    (forall k, match lookup Ko k src with
               | None => t_find Ko k d' = t_find Ko k d
               | Some None => t_find Ko k d' = Some None
               | Some (Some a) => exists b x, t_find Ko k d' = Some (Some b) /\ nexta m <= b /\ b < nexta m' /\ cells m a = Some x /\ cells m' b = Some (copy_of x)
               end) /\
    (forall b y, nexta m <= b -> cells m' b = Some y -> exists k a, lookup Ko k src = Some (Some a) /\ t_find Ko k d' = Some (Some b)) /\
    (forall k k' a a' b, lookup Ko k src = Some (Some a) -> lookup Ko k' src = Some (Some a') -> t_find Ko k d' = Some (Some b) -> t_find Ko k' d' = Some (Some b) -> k = k').
Proof.
  intros [P0 PC]. induction src as [|[k p] src IH]; intros d m ND Hd Hdis Hsrc Hfr.
  - exists d, m. split; [reflexivity|]. split; [exact Hd|]. split; [lia|]. split; [reflexivity|]. split; [exact Hfr|]. split; [reflexivity|].
    split; [|intros k k' a a' b H; discriminate]. intros b y L H. rewrite (Hfr b L) in H. discriminate.
  - cbn [map fst] in ND. inversion ND as [|? ? Hk ND']; subst.
    assert (Nk : t_find Ko k d = None) by (apply Hdis; left; reflexivity).
    assert (L0 : lookup Ko k src = None) by (apply (lookup_none Ko KL); exact Hk).
    destruct p as [a|].
    + destruct (Hsrc k a (or_introl eq_refl)) as (La & x & Hx & Px). destruct (PC x Px) as (y & Ey & Py).
      cbn [h_copy_loop]. unfold h_load. rewrite Hx. cbn [bind]. rewrite Ey. cbn [bind h_alloc].
      pose proof (emplace_spec Ko KL U k (Some (nexta m)) d Hd) as E. rewrite Nk in E. destruct E as (d1 & E1 & Hd1 & _ & F1).
      unfold h_emplace. rewrite E1. cbn [bind]. set (m1 := Mem (upd (nexta m) (Some y) (cells m)) (nexta m + 1)).
      assert (C1 : forall b, b < nexta m -> cells m1 b = cells m b) by (intros b Lb; cbn; apply upd_other; lia).
      destruct (IH d1 m1 ND' Hd1) as (d' & m' & EL & Hd' & Nx & Kp & Fr & Fn & NL & IJ).
      { intros k' H. rewrite F1. rewrite (eqk_neq Ko KL k' k) by (intros ->; contradiction). apply Hdis. right. exact H. }
      { intros k' a' H. destruct (Hsrc k' a' (or_intror H)) as (L' & x' & H' & P'). split; [cbn; lia|]. exists x'. rewrite C1 by exact L'. split; assumption. }
      { intros b Lb. cbn in Lb |- *. rewrite upd_other by lia. apply Hfr. lia. }
      exists d', m'. split; [exact EL|]. split; [exact Hd'|]. cbn in Nx, Kp, NL. split; [lia|].
      assert (Kk : t_find Ko k d' = Some (Some (nexta m))).
      { pose proof (Fn k) as Q. rewrite L0 in Q. rewrite Q, F1, (eqk_refl Ko KL). reflexivity. }
      split; [intros b Lb; rewrite Kp by lia; apply upd_other; lia|]. split; [exact Fr|]. split; [|split].
      * intros k'. rewrite (lookup_cons Ko). cbn [fst snd]. destruct (eqk k' k) eqn:Ek.
        -- apply (eqk_spec Ko KL) in Ek. subst k'. exists (nexta m), x. split; [exact Kk|]. split; [lia|]. split; [lia|]. split; [exact Hx|].
           rewrite Kp by lia. rewrite upd_same. unfold TableHeapSpec.copy_of. rewrite Ey. reflexivity.
        -- pose proof (Fn k') as Q. destruct (lookup Ko k' src) as [[a'|]|] eqn:El.
           ++ destruct Q as (b & x' & Q1 & Q2 & Q3 & Q4 & Q5). cbn in Q2, Q3, Q4. exists b, x'. split; [exact Q1|]. split; [lia|]. split; [exact Q3|]. split; [|exact Q5].
              apply (lookup_in Ko KL k' (Some a') src ND') in El. destruct (Hsrc k' a' (or_intror El)) as (L' & _). rewrite upd_other in Q4 by lia. exact Q4.
           ++ exact Q.
           ++ rewrite Q, F1, Ek. reflexivity.
      * intros b z Lb Hb. destruct (N.eq_dec b (nexta m)) as [->|Db].
        -- exists k, a. rewrite (lookup_cons Ko). cbn [fst snd]. rewrite (eqk_refl Ko KL). split; [reflexivity|exact Kk].
        -- destruct (NL b z ltac:(lia) Hb) as (k' & a' & Q1 & Q2). exists k', a'. split; [|exact Q2]. rewrite (lookup_cons Ko). cbn [fst snd].
           rewrite (eqk_neq Ko KL k' k); [exact Q1|]. intros ->. congruence.
      * assert (New : forall k' a', lookup Ko k' src = Some (Some a') -> t_find Ko k' d' <> Some (Some (nexta m))).
        { intros k' a' El H. pose proof (Fn k') as Q. rewrite El in Q. destruct Q as (b & x' & Q1 & Q2 & _). cbn in Q2. rewrite H in Q1. injection Q1 as <-. lia. }
        intros k1 k2 a1 a2 b. rewrite !(lookup_cons Ko). cbn [fst snd]. destruct (eqk k1 k) eqn:E2, (eqk k2 k) eqn:E3; intros H1 H2 H3 H4.
        -- apply (eqk_spec Ko KL) in E2, E3. congruence.
        -- apply (eqk_spec Ko KL) in E2. subst k1. rewrite Kk in H3. injection H3 as <-. destruct (New k2 a2 H2 H4).
        -- apply (eqk_spec Ko KL) in E3. subst k2. rewrite Kk in H4. injection H4 as <-. destruct (New k1 a1 H1 H3).
        -- exact (IJ k1 k2 a1 a2 b H1 H2 H3 H4).
    + cbn [h_copy_loop bind]. pose proof (emplace_spec Ko KL U k None d Hd) as E. rewrite Nk in E. destruct E as (d1 & E1 & Hd1 & _ & F1).
      unfold h_emplace. rewrite E1. cbn [bind].
      destruct (IH d1 m ND' Hd1) as (d' & m' & EL & Hd' & Nx & Kp & Fr & Fn & NL & IJ).
      { intros k' H. rewrite F1. rewrite (eqk_neq Ko KL k' k) by (intros ->; contradiction). apply Hdis. right. exact H. }
      { intros k' a' H. exact (Hsrc k' a' (or_intror H)). }
      { exact Hfr. }
      exists d', m'. split; [exact EL|]. split; [exact Hd'|]. split; [exact Nx|]. split; [exact Kp|]. split; [exact Fr|]. split; [|split].
      * intros k'. rewrite (lookup_cons Ko). cbn [fst snd]. destruct (eqk k' k) eqn:Ek.
        -- apply (eqk_spec Ko KL) in Ek. subst k'. pose proof (Fn k) as Q. rewrite L0 in Q. rewrite Q, F1, (eqk_refl Ko KL). reflexivity.
        -- pose proof (Fn k') as Q. destruct (lookup Ko k' src) as [[a'|]|]; [exact Q|exact Q|]. rewrite Q, F1, Ek. reflexivity.
      * intros b z Lb Hb. destruct (NL b z Lb Hb) as (k' & a' & Q1 & Q2). exists k', a'. split; [|exact Q2]. rewrite (lookup_cons Ko). cbn [fst snd].
        rewrite (eqk_neq Ko KL k' k); [exact Q1|]. intros ->. congruence.
      * intros k1 k2 a1 a2 b. rewrite !(lookup_cons Ko). cbn [fst snd]. destruct (eqk k1 k) eqn:E2, (eqk k2 k) eqn:E3; intros H1 H2 H3 H4; try discriminate.
        exact (IJ k1 k2 a1 a2 b H1 H2 H3 H4).
Qed.
(** Copying a table into another one, which is empty. *)
Lemma copy_tab P s S i j d t S' : copies_in M P -> represents Ko s S -> holds P S -> i <> j ->
  h_tabs s i = Some d -> t_list d = [] -> h_tabs s j = Some t ->
  (forall x, a_tabs S' x = upd i (Some (copy_map M (a_map j S))) (a_tabs S) x) -> a_refs S' = a_refs S ->
  exists d' m', h_copy_loop Ko U M (t_list t) d (h_mem s) = Done (d', m') /\ represents Ko (HState (upd i (Some d') (h_tabs s)) (h_refs s) m') S'.
Proof.
  intros CP R HP Dij Ei El Ej HS HR. destruct (tab_exists s S R j t Ej) as (f & Ef & Ht & Q).
  assert (Fd : forall k, t_find Ko k d = None) by (intros k; unfold t_find; rewrite El; reflexivity).
  assert (Hd : is_table d) by (unfold is_table; rewrite El; constructor).
  assert (Aj : forall k, address Ko s j k = pt t k) by (intros k; rewrite address_opt, Ej; reflexivity).
  destruct (copy_loop_ok P CP (t_list t) d (h_mem s) Ht Hd (fun k _ => Fd k)) as (d' & m' & EL & Hd' & Nx & Kp & Fr & Fn & NL & IJ).
  { intros k a H. apply (pt_in t k a Ht) in H. rewrite <- Aj in H. destruct (live s S R j k a H) as (x & Hx & Hm & L). split; [exact L|]. exists x. split; [exact Hx|].
    exact (HP j k x Hm). }
  { exact (proj1 (rp_fresh _ _ _ R)). }
  exists d', m'. split; [exact EL|].
  assert (PD : forall k b, pt d' k = Some b -> exists a, lookup Ko k (t_list t) = Some (Some a) /\ t_find Ko k d' = Some (Some b) /\ nexta (h_mem s) <= b).
  { intros k b H. unfold pt in H. pose proof (Fn k) as F. destruct (lookup Ko k (t_list t)) as [[a|]|] eqn:E.
    - exists a. destruct F as (b' & x & F1 & F2 & _). rewrite F1 in H. injection H as ->. repeat split; assumption.
    - rewrite F in H. discriminate.
    - rewrite F, Fd in H. discriminate. }
  apply (change_tab s S R).
  - intros x D. rewrite HS. apply upd_other. exact D.
  - rewrite HS, upd_same. split; [exact Hd'|]. intros k. unfold copy_map, a_map. rewrite Ef. pose proof (Fn k) as F. specialize (Q k). rewrite (find_lookup Ko) in Q.
    destruct (lookup Ko k (t_list t)) as [[a|]|], (f k) as [[x|]|]; try contradiction.
    + destruct F as (b & x' & -> & _ & _ & F1 & F2). rewrite Q in F1. injection F1 as ->. exact F2.
    + rewrite F. exact Logic.I.
    + rewrite F, Fd. exact Logic.I.
  - intros x k a D H. apply Kp. destruct (live s S R x k a H) as (y & _ & _ & L). exact L.
  - intros k k' a H H'. cbn [opt] in H, H'. destruct (PD k a H) as (a1 & L1 & F1 & _). destruct (PD k' a H') as (a2 & L2 & F2 & _). exact (IJ k k' a1 a2 a L1 L2 F1 F2).
  - intros k a H. cbn [opt] in H. left. destruct (PD k a H) as (_ & _ & _ & L). exact L.
  - intros a x H. destruct (N.lt_ge_cases a (nexta (h_mem s))) as [L|L].
    + rewrite (Kp a L) in H. destruct (rp_no_leak _ _ _ R a x H) as (y & k & Hy). right. exists y, k. split; [|exact Hy]. intros ->.
      rewrite address_opt, Ei in Hy. unfold opt, pt in Hy. rewrite Fd in Hy. discriminate.
    + left. destruct (NL a x L H) as (k & a' & _ & F). exists k. cbn [opt]. unfold pt. rewrite F. reflexivity.
  - exact Nx.
  - exact Fr.
  - intros r. rewrite HR. pose proof (rp_refs _ _ _ R r) as Hr. destruct (a_refs S r) as [[x k]|].
    + destruct Hr as (a & Ha & Hb). exists a. split; [exact Ha|]. destruct (N.eqb_spec x i) as [->|D]; [|exact Hb].
      rewrite address_opt, Ei in Hb. unfold opt, pt in Hb. rewrite Fd in Hb. discriminate.
    + destruct (h_refs s r) as [a|] eqn:Ea; [|exact Logic.I]. rewrite (Kp a (proj2 (rp_fresh _ _ _ R) r a Ea)). exact Hr.
  - intros r a H. pose proof (proj2 (rp_fresh _ _ _ R) r a H). lia.
Qed.

(** ** Equality of functions at every point is enough *)
Definition same_state (s s' : hstate K T) : Prop :=
  (forall i, h_tabs s i = h_tabs s' i) /\ (forall r, h_refs s r = h_refs s' r) /\ h_mem s = h_mem s'.
Definition same_abs (S S' : astate K T) : Prop :=
  (forall i, match a_tabs S i, a_tabs S' i with None, None => True | Some f, Some g => forall k, f k = g k | _, _ => False end) /\ forall r, a_refs S r = a_refs S' r.
Lemma represents_ext s s' S S' : same_state s s' -> same_abs S S' -> represents Ko s S -> represents Ko s' S'.
Proof.
  intros (T1 & T2 & T3) (A1 & A2) [R1 R2 R3 R4 R5].
  assert (A : forall i k, address Ko s' i k = address Ko s i k) by (intros i k; unfold address; rewrite T1; reflexivity).
  split.
  - intros i. specialize (R1 i). specialize (A1 i). rewrite <- T1, <- T3. destruct (h_tabs s i) as [t|], (a_tabs S i) as [f|], (a_tabs S' i) as [g|]; try contradiction; [|exact Logic.I].
    destruct R1 as [Ra Rb]. split; [exact Ra|]. intros k. rewrite <- A1. apply Rb.
  - intros i k j k' a. rewrite !A. apply R2.
  - intros a x. rewrite <- T3. intros H. destruct (R3 a x H) as (i & k & Hi). exists i, k. rewrite A. exact Hi.
  - intros r. specialize (R4 r). rewrite <- A2, <- T2, <- T3. destruct (a_refs S r) as [[i k]|]; [|exact R4]. rewrite A. exact R4.
  - rewrite <- T3. destruct R5 as [Ra Rb]. split; [exact Ra|]. intros r a. rewrite <- T2. apply Rb.
Qed.
End F.
