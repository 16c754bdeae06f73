(** * Identical objects have written forms of the same length. Proofs. *)
From Verif Require Import Base Bytes BytesFacts Values Streams Types Format EntityWriterFacts ArrayWriterFacts PackFacts Items ItemSpec Documents DocSpec
  Keys KeySpec Containers ValueEqSpec StdSet Graph GraphSpec GraphSets Classes Table TableSpec TableFacts IndexedVector IndexedVectorSpec DynTypes Varying VaryingSpec
  EntityGen EntitySpec EntityFacts CanonSpec.
Local Open Scope N_scope.

Definition sum {A} (g : A -> N) (l : list A) : N := fold_right (fun a n => g a + n) 0 l.
Lemma sum_app {A} (g : A -> N) a b : sum g (a ++ b) = sum g a + sum g b.
Proof. unfold sum. induction a as [|x a IH]; cbn [app fold_right]; lia. Qed.
Lemma same_sum {K V} (g : K * V -> N) l : forall r, NoDup (map fst l) -> NoDup (map fst r) ->
  (forall k v, In (k, v) l -> exists v', In (k, v') r /\ g (k, v) = g (k, v')) ->
  (forall k v, In (k, v) r -> exists v', In (k, v') l) -> sum g l = sum g r.
Proof.
  induction l as [|[k v] l IH]; intros r Nl Nr H1 H2.
  - destruct r as [|[k v] r]; [reflexivity|]. destruct (H2 k v) as (v' & []). left. reflexivity.
  - cbn [map fst] in Nl. inversion Nl as [|? ? Nk Nl']; subst. destruct (H1 k v (or_introl eq_refl)) as (v' & Hin & E).
    apply in_split in Hin. destruct Hin as (r1 & r2 & ->). rewrite map_app in Nr. cbn [map fst] in Nr.
    pose proof (NoDup_remove_2 _ _ _ Nr) as Nk'. apply NoDup_remove_1 in Nr. rewrite <- map_app in Nr, Nk'.
    rewrite sum_app. cbn [sum fold_right]. fold (sum g l) (sum g r2). rewrite E, (IH (r1 ++ r2) Nl' Nr).
    + rewrite sum_app. lia.
    + intros k0 v0 Hin. destruct (H1 k0 v0 (or_intror Hin)) as (v1 & H & E1). exists v1. split; [|exact E1].
      apply in_app_or in H. apply in_or_app. destruct H as [H|[H|H]]; auto. injection H as <- <-.
      destruct Nk. change k with (fst (k, v0)). apply in_map. exact Hin.
    + intros k0 v0 Hin. destruct (H2 k0 v0) as (v1 & [H|H]).
      * apply in_app_or in Hin. apply in_or_app. destruct Hin; auto. right. right. exact H.
      * injection H as <- <-. destruct Nk'. change k with (fst (k, v0)). apply in_map. exact Hin.
      * exists v1. exact H.
Qed.
Lemma len_sum {A} (l : list A) : len l = sum (fun _ => 1) l.
Proof. induction l as [|x l IH]; [reflexivity|]. rewrite len_cons, IH. cbn [sum fold_right]. fold (sum (fun _ : A => 1) l). lia. Qed.
Lemma sum_map {A B} (g : B -> N) (f : A -> B) l : sum g (map f l) = sum (fun a => g (f a)) l.
Proof. induction l as [|x l IH]; [reflexivity|]. cbn [map sum fold_right]. unfold sum in IH. rewrite IH. reflexivity. Qed.
Lemma len_flat_sum {A B} (f : A -> list B) l : len (flat_map f l) = sum (fun a => len (f a)) l.
Proof. induction l as [|x l IH]; [reflexivity|]. cbn [flat_map sum fold_right]. rewrite len_app, IH. reflexivity. Qed.

(** Arrays of keys. *)
Definition weight (v : val) : N := len (the_string v).
Lemma len_array fl t l l' : Forall (val_ok t) l -> Forall (val_ok t) l' -> len l = len l' -> sum weight l = sum weight l' ->
  len (array_payload fl (dshape t) l None) = len (array_payload fl (dshape t) l' None).
Proof.
  intros F F' L S. unfold array_payload. rewrite !len_app, !len_num. f_equal. f_equal. f_equal.
  destruct (dshape t) as [| |k n] eqn:D.
  - rewrite !len_packed. unfold len in *. rewrite !map_length. rewrite L. reflexivity.
  - rewrite !len_flat_sum. assert (X : forall l, sum (fun v => len (string_bytes fl (the_string v))) l = 8 * len l + sum weight l).
    { clear. induction l as [|v l IH]; [reflexivity|]. cbn [sum fold_right] in *. unfold sum in *. rewrite IH, len_string_bytes, len_cons. unfold weight. lia. }
    rewrite !X. lia.
  - assert (X : forall l, Forall (val_ok t) l -> len (flat_map the_image l) = len l * n * ksize k) by (unfold val_ok; rewrite D; intros; apply len_flat_image; assumption).
    rewrite !len_element_bytes by (apply X; assumption). rewrite L. reflexivity.
Qed.

Lemma len_elems fl l : len (elems_bytes fl (elems_of l)) = sum (fun b => 8 + len (nodes_bytes fl b)) l.
Proof. unfold sum. induction l as [|b l IH]; [reflexivity|]. cbn [elems_of elems_bytes fold_right]. rewrite !len_app, len_num, IH. cbn [wbytes]. lia. Qed.
Lemma table_len {K T} (Ko : keyops K) (KL : key_laws Ko) (doc : T -> nodes) (R : T -> T -> Prop) fl (m m' : table K T) :
  is_table m -> is_table m' ->
  (forall k a b, In (k, Some a) (t_list m) -> In (k, Some b) (t_list m') -> R a b -> len (nodes_bytes fl (doc a)) = len (nodes_bytes fl (doc b))) ->
  same_map Ko R m m' -> len (nodes_bytes fl (table_doc Ko doc m)) = len (nodes_bytes fl (table_doc Ko doc m')).
Proof.
  intros Hm Hm' HR S. pose proof (@find_in K T Ko KL) as F.
  assert (H1 : forall k v, In (k, v) (t_list m) -> exists v', In (k, v') (t_list m') /\
    match v, v' with Some a, Some b => R a b | None, None => True | _, _ => False end).
  { intros k v Hin. apply (F k v m Hm) in Hin. specialize (S k). rewrite Hin in S. destruct (t_find Ko k m') as [v'|] eqn:E; [|destruct v; contradiction].
    exists v'. split; [apply F; assumption|]. destruct v, v'; auto. }
  assert (H2 : forall k v, In (k, v) (t_list m') -> exists v', In (k, v') (t_list m)).
  { intros k v Hin. apply (F k v m' Hm') in Hin. specialize (S k). rewrite Hin in S. destruct (t_find Ko k m) as [v'|] eqn:E; [|contradiction].
    exists v'. apply F; assumption. }
  assert (G : forall g, (forall k v v', In (k, v) (t_list m) -> In (k, v') (t_list m') ->
      match v, v' with Some a, Some b => R a b | None, None => True | _, _ => False end -> g (k, v) = g (k, v')) -> sum g (t_list m) = sum g (t_list m')).
  { intros g Hg. apply same_sum; auto. intros k v Hin. destruct (H1 k v Hin) as (v' & Hin' & E). exists v'. split; [exact Hin'|]. eapply Hg; eauto. }
  unfold table_doc. cbn [nodes_bytes node_bytes i_type i_key i_val encode array_block slen]. rewrite !len_app. f_equal; [|f_equal]; unfold array_block.
  - rewrite !len_large_block. f_equal. apply len_array.
    + apply Forall_forall. intros v Hv. apply in_map_iff in Hv. destruct Hv as (p & <- & _). apply KL.
    + apply Forall_forall. intros v Hv. apply in_map_iff in Hv. destruct Hv as (p & <- & _). apply KL.
    + rewrite !len_sum, !sum_map. apply G. reflexivity.
    + rewrite !sum_map. apply G. reflexivity.
  - rewrite !len_large_block, !len_app, !len_num, !len_elems, !sum_map. f_equal. f_equal. f_equal. f_equal. apply G.
    intros k v v' I1 I2 E. cbn [snd]. f_equal. destruct v, v'; try contradiction; eauto.
Qed.

Lemma size_both :
  (forall s x y fl, s_ok s x -> s_ok s y -> s_fits s x -> s_fits s y -> s_ident s x y ->
    len (nodes_bytes fl (s_doc s x)) = len (nodes_bytes fl (s_doc s y))) /\
  (forall fs x y fl, f_ok fs x -> f_ok fs y -> f_fits fs x -> f_fits fs y -> f_rel (fun _ => eq) same_holding fs x y ->
    len (nodes_bytes fl (f_doc fs x)) = len (nodes_bytes fl (f_doc fs y))).
Proof.
  assert (B : forall n a b fl, len (nodes_bytes fl a) = len (nodes_bytes fl b) -> len (node_bytes fl (NSection n a)) = len (node_bytes fl (NSection n b))).
  { intros n a b fl H. cbn [node_bytes]. rewrite !len_large_block, H. reflexivity. }
  apply schema_fields_ind.
  - intros k f x y fl Hx Hy _ _ H. apply (graph_ext (kops k) (klaws k)) in H; auto. subst. reflexivity.
  - intros k f s IS x y fl [X1 X2] [Y1 Y2] [F1 F2] [G1 G2] H. refine (table_len (kops k) (klaws k) (s_doc s) (s_ident s) fl x y X1 Y1 _ H).
    intros k0 a b Ia Ib R. apply IS; eauto.
  - intros t x y fl _ _ _ _ H. cbn in H. destruct x as [v i], y as [v' i']. cbn [iv_values iv_index] in H. injection H as -> ->. reflexivity.
  - intros x y fl _ _ (k & c & ->) (k' & c' & ->) (a & b & Ea & Eb & _ & _ & H).
    apply v_of_same in Ea, Eb. subst a b. destruct H as [-> ->]. reflexivity.
  - intros fs H. exact H.
  - intros x y fl _ _ _ _ _. reflexivity.
  - intros n t c r IH x y fl (_ & _ & Hx) (_ & _ & Hy) Fx Fy (E & H). cbn [f_doc nodes_bytes]. rewrite !len_app, E, (IH (snd x) (snd y)); auto.
  - intros n s IS r IH x y fl [X1 X2] [Y1 Y2] [F1 F2] [G1 G2] [H1 H2]. cbn [f_doc nodes_bytes]. rewrite !len_app, (IH (snd x) (snd y)) by assumption.
    f_equal. apply B. apply IS; assumption.
  - intros n s IS r IH x y fl [X1 X2] [Y1 Y2] [F1 F2] [G1 G2] [H1 H2]. cbn [f_doc nodes_bytes]. rewrite !len_app, (IH (snd x) (snd y)) by assumption.
    f_equal. apply B. destruct (fst x), (fst y); try contradiction; [apply IS; assumption|reflexivity].
Qed.
