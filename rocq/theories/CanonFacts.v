(** * Written forms as identities of objects. Proofs. *)
From Verif Require Import Base Bytes BytesFacts Values Streams StreamFacts Types Format EntityWriter EntityReader Items ItemSpec Sections Documents DocSpec
  CodecFacts Keys KeySpec Containers ValueEqSpec StdSet Graph GraphSpec GraphSets Classes Table TableSpec IndexedVector IndexedVectorSpec DynTypes Varying VaryingSpec
  SectionTheorems EntityGen EntitySpec EntityFacts EntityCodec CanonSpec.
Local Open Scope N_scope.

Section C.
Context (U : forall t, umap_impl (key t)).

(** Read of the written form of [z]. *)
Lemma read_back s z e d fl post : s_sound s -> s_ok s z -> s_fits s z -> s_ok s d -> s_dest s d ->
  read_room e (len (nodes_bytes fl (s_doc s z))) (len (nodes_bytes fl (s_doc s z)) + len post) ->
  exists y st', m_read (smf U s) e 0 d (r_open (RS (nodes_bytes fl (s_doc s z) ++ post) 0 fl)) = Done (true, y, st') /\
    s_ok s y /\ s_ident s y z /\ r_stream st' = RS (nodes_bytes fl (s_doc s z) ++ post) (len (nodes_bytes fl (s_doc s z))) fl.
Proof.
  intros Hs Hz Fz Hd Dd (R1 & R2). set (b := nodes_bytes fl (s_doc s z)) in *. set (s0 := RS (b ++ post) 0 fl).
  pose proof (proj1 (reads_both U) s d z Hs Hd Dd Hz Fz e 0 [] (rf_new 0 (rs_size s0)) (r_open s0) [] post fl (rready_open s0) eq_refl R1) as X.
  destruct X as (x & st' & E' & [Q1 Q2] & (S' & _)); [fold b; rewrite len_nil; lia|].
  exists x, st'. split; [exact E'|]. split; [exact Q1|]. split; [exact Q2|]. rewrite S'. cbn [app]. reflexivity.
Qed.
Lemma holding_sym a b : same_holding a b -> same_holding b a.
Proof. destruct a, b; cbn; try tauto. intros [-> ->]. auto. Qed.
Lemma holding_trans a b c : same_holding a b -> same_holding b c -> same_holding a c.
Proof. destruct a, b, c; cbn; try tauto. intros [-> ->] [-> ->]. auto. Qed.
Lemma ident_sym s x y : s_ident s x y -> s_ident s y x.
Proof. apply (proj1 (rel_sym_both _ _ (fun _ _ _ H => eq_sym H) holding_sym)). Qed.
Lemma ident_trans s x y z : s_ident s x y -> s_ident s y z -> s_ident s x z.
Proof. apply (proj1 (rel_trans_both _ _ (fun _ _ _ _ H H' => eq_trans H H') holding_trans)). Qed.

Lemma no_prefix s x y fl p : s_sound s -> s_ok s x -> s_ok s y -> s_fits s x -> s_fits s y ->
  len (nodes_bytes fl (s_doc s y)) < two64 ->
  nodes_bytes fl (s_doc s x) ++ p = nodes_bytes fl (s_doc s y) -> s_ident s x y /\ p = [].
Proof.
  intros Hs Hx Hy Fx Fy Ly E. set (e := RE (4 * len (nodes_bytes fl (s_doc s y))) (fun _ => x00)).
  pose proof (f_equal len E) as EL. rewrite len_app in EL.
  destruct (read_back s x e (m_new (smf U s)) fl p Hs Hx Fx (s_new_ok U s) (s_new_dest U s)) as (y1 & t1 & R1 & _ & I1 & S1).
  { split; [cbn [e_lim e]|]; lia. }
  destruct (read_back s y e (m_new (smf U s)) fl [] Hs Hy Fy (s_new_ok U s) (s_new_dest U s)) as (y2 & t2 & R2 & _ & I2 & S2).
  { rewrite len_nil. split; [cbn [e_lim e]|]; lia. }
  rewrite app_nil_r, <- E, R1 in R2. injection R2 as <- <-. rewrite S1 in S2. injection S2 as _ L.
  split; [eapply ident_trans; [apply ident_sym; exact I1|exact I2]|].
  rewrite <- E, len_app in L. destruct p; [reflexivity|]. rewrite len_cons in L. lia.
Qed.
Lemma app_cases {A} (a b p q : list A) : a ++ p = b ++ q -> (exists r, b ++ r = a /\ q = r ++ p) \/ (exists r, a ++ r = b /\ p = r ++ q).
Proof.
  revert b. induction a as [|x a IH]; intros b; cbn [app].
  - intros ->. right. exists b. auto.
  - destruct b as [|y b]; cbn [app].
    + intros <-. left. exists (x :: a). auto.
    + intros H. injection H as -> H. destruct (IH b H) as [(r & <- & ->)|(r & <- & ->)]; [left|right]; exists r; auto.
Qed.
Lemma prefix_free s x y fl p q : s_sound s -> s_ok s x -> s_ok s y -> s_fits s x -> s_fits s y ->
  len (nodes_bytes fl (s_doc s x)) < two64 -> len (nodes_bytes fl (s_doc s y)) < two64 ->
  nodes_bytes fl (s_doc s x) ++ p = nodes_bytes fl (s_doc s y) ++ q -> s_ident s x y /\ p = q.
Proof.
  intros Hs Hx Hy Fx Fy Lx Ly E. destruct (app_cases _ _ _ _ E) as [(r & E' & ->)|(r & E' & ->)].
  - destruct (no_prefix s y x fl r Hs Hy Hx Fy Fx Lx E') as (I & ->). split; [apply ident_sym; exact I|reflexivity].
  - destruct (no_prefix s x y fl r Hs Hx Hy Fx Fy Ly E') as (I & ->). auto.
Qed.

(** ** One written form *)
Lemma canon_both :
  (forall s, s_tableless s -> forall x y, s_ok s x -> s_ok s y -> s_fits s x -> s_fits s y -> s_ident s x y -> s_doc s x = s_doc s y) /\
  (forall fs, f_tableless fs -> forall x y, f_ok fs x -> f_ok fs y -> f_fits fs x -> f_fits fs y -> f_rel (fun _ => eq) same_holding fs x y ->
    f_doc fs x = f_doc fs y).
Proof.
  apply schema_fields_ind.
  - intros k f _ x y Hx Hy _ _ H. apply (graph_ext (kops k) (klaws k)) in H; auto. subst. reflexivity.
  - intros k f s _ [].
  - intros t _ x y _ _ _ _ H. cbn in H. cbn [s_doc]. destruct x as [v i], y as [v' i']. cbn [iv_values iv_index] in H. injection H as -> ->. reflexivity.
  - intros _ x y _ _ (k & c & ->) (k' & c' & ->) (a & b & Ea & Eb & _ & _ & H).
    apply v_of_same in Ea, Eb. subst a b. destruct H as [-> ->]. reflexivity.
  - intros fs H. exact H.
  - intros _ x y _ _ _ _ _. reflexivity.
  - intros n t c r IH T x y (_ & _ & Hx) (_ & _ & Hy) Fx Fy (E & H). cbn [f_doc]. rewrite E. f_equal. apply IH; assumption.
  - intros n s IS r IH [T1 T2] x y [X1 X2] [Y1 Y2] [F1 F2] [G1 G2] [H1 H2]. cbn [f_doc]. f_equal; [f_equal; apply IS|apply IH]; assumption.
  - intros n s IS r IH [T1 T2] x y [X1 X2] [Y1 Y2] [F1 F2] [G1 G2] [H1 H2]. cbn [f_doc]. f_equal; [f_equal|apply IH; assumption].
    destruct (fst x), (fst y); try contradiction; [apply IS; assumption|reflexivity].
Qed.

(** What Write leaves in a fresh stream. *)
Lemma written s x init lim fl s0 st : s_sound s -> s_ok s x -> s_fits s x -> room init lim (len (nodes_bytes fl (s_doc s x))) ->
  fresh init lim fl = Done s0 -> m_write (smf U s) 0 x (w_open s0) = Done (true, st) -> ws_data (w_stream st) = nodes_bytes fl (s_doc s x).
Proof.
  intros Hs Hx Hf Hr E0 E. destruct (t_s_roundtrip U s x init lim fl Hs Hx Hf Hr) as (s0' & st' & E0' & E' & Ed & _).
  rewrite E0 in E0'. injection E0' as <-. rewrite E in E'. injection E' as <-. exact Ed.
Qed.
End C.
