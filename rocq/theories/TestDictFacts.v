(** * TestDict: proofs. *)
From Coq Require Import Sorting.Permutation.
From Verif Require Import Base Bytes BytesFacts Values Types Streams StreamFacts EntityWriter EntityReader Items ItemSpec EntityProps Sections SectionFacts SectionReadFacts SectionTheorems
  Documents DocSpec CodecFacts Validator Keys KeySpec KeyFacts ValueEq ValueEqSpec ValueEqFacts Classes Table TableSpec TableFacts TableCodec EntityGen EntitySpec EntityFacts EntityCodec TestDict TestDictSpec.
Open Scope N_scope.

Lemma te_sound : s_sound TestEntity /\ nonempty TestEntity.
Proof. split; [|discriminate]. split; [vm_compute; discriminate|]. split; [vm_compute; discriminate|exact Logic.I]. Qed.

Lemma filter_all {X} (f : X -> bool) l : (forall x, In x l -> f x = true) -> filter f l = l.
Proof. induction l as [|x l IH]; intros H; [reflexivity|]. cbn. rewrite (H x (or_introl eq_refl)), IH; auto. intros; apply H; right; auto. Qed.

Section D.
Context (U : forall t, umap_impl (key t)) (k : ktype).
Notation dict := (dict k).
Notation put := (put_entry U k).
Notation eqk := (k_eq (kops k)).
Notation KL := (klaws k).
Notation find := (t_find (kops k)).

Lemma te_validate n x : m_validate (smf U TestEntity) n x = Some [].
Proof. destruct x as [? [? []]]. reflexivity. Qed.
Lemma named_ok v : val_ok TString v -> s_ok TestEntity (named U v).
Proof. intros H. pose proof (s_new_ok U TestEntity) as (_ & _ & N). split; [exact H|]. split; [reflexivity|exact N]. Qed.

Lemma put_spec i v (d : dict) : is_table d -> is_table (put i v d) /\
  (forall x, find x (put i v d) = if eqk x i then Some v else find x d) /\
  length (t_list (put i v d)) = (length (t_list d) + match find i d with None => 1 | Some _ => 0 end)%nat.
Proof.
  intros S. unfold put_entry, t_at. pose proof (emplace_spec (kops k) KL (U (kt k)) i (@None (ty TestEntity)) d S) as E.
  destruct (find i d) as [w|] eqn:F.
  - cbn [fst]. split; [apply assign_ok, S|]. split.
    + intros x. rewrite (find_assign (kops k) KL), F. reflexivity.
    + unfold t_assign. cbn [t_list]. rewrite map_length. lia.
  - destruct E as (m & E & Sm & P & Fm). rewrite E. cbn [fst]. split; [apply assign_ok, Sm|]. split.
    + intros x. rewrite (find_assign (kops k) KL), !Fm, (eqk_refl (kops k) KL). destruct (eqk x i); reflexivity.
    + unfold t_assign. cbn [t_list]. rewrite map_length, (Permutation_length P). cbn. lia.
Qed.
Lemma put_new i v : t_list (put i v t_new) = [(i, v)].
Proof.
  destruct (put_spec i v t_new (new_ok)) as (S & F & L). 
  assert (L1 : length (t_list (put i v t_new)) = 1%nat) by (rewrite L; reflexivity). clear L.
  assert (S1 : In (i, v) (t_list (put i v t_new))) by (apply (find_in (kops k) KL); [exact S|rewrite F, (eqk_refl (kops k) KL); reflexivity]).
  destruct (t_list (put i v t_new)) as [|p [|? ?]]; try discriminate L1. destruct S1 as [->|[]]. reflexivity.
Qed.

Definition all_good (d : dict) : Prop := is_table d /\ forall i v, In (i, v) (t_list d) -> i <> kzero k /\ exists x, v = Some x /\ s_ok TestEntity x.
Lemma good_new : all_good t_new.
Proof. split; [constructor|]. intros i v []. Qed.
Lemma good_put i x d : i <> kzero k -> s_ok TestEntity x -> all_good d -> all_good (put i (Some x) d).
Proof.
  intros Hi Hx [S G]. destruct (put_spec i (Some x) d S) as (S' & F & _). split; [exact S'|]. intros j w H.
  apply (find_in (kops k) KL) in H; auto. rewrite F in H. destruct (eqk j i) eqn:E.
  - apply (eqk_spec (kops k) KL) in E. subst j. injection H as <-. eauto.
  - apply (find_in (kops k) KL) in H; auto.
Qed.
Lemma valid_log bits n (d : dict) : is_table d ->
  (no_zero_keys (flags_of bits) = true -> find (kzero k) d = None) ->
  (no_null_entities (flags_of bits) = true -> forall i, find i d <> Some None) ->
  m_validate (dict_mf U k bits) n d = Some [].
Proof.
  intros S H1 H2. destruct (t_validate_iff (kops k) KL (kzero k) (smf U TestEntity) (flags_of bits) n d S) as (log & E & I).
  - intros i x _. exists []. apply te_validate.
  - change (m_validate (dict_mf U k bits) n d) with (t_validate (kops k) (kzero k) (smf U TestEntity) (flags_of bits) n d). rewrite E. f_equal.
    apply I. split; [exact H1|]. split; [exact H2|]. intros. apply te_validate.
Qed.
Lemma good_valid bits n d : all_good d -> m_validate (dict_mf U k bits) n d = Some [].
Proof.
  intros [S G]. apply valid_log; [exact S| |].
  - intros _. apply (find_none (kops k) KL). intros H. apply in_map_iff in H. destruct H as ([i v] & E & H). cbn in E. subst i. apply G in H. destruct H as [H _]. auto.
  - intros _ i H. apply (find_in (kops k) KL) in H; auto. apply G in H. destruct H as (_ & x & H & _). discriminate.
Qed.

Lemma new_te_ok : s_ok TestEntity (new_entity U). Proof. apply s_new_ok. Qed.
Lemma fold_good l : forall d, all_good d -> all_good (fold_left (fun d i => if eqk i (kzero k) then d else put i (Some (new_entity U)) d) l d).
Proof.
  induction l as [|i l IH]; intros d H; [exact H|]. cbn [fold_left]. apply IH. destruct (eqk i (kzero k)) eqn:E; [exact H|].
  apply good_put; auto using new_te_ok. intros ->. rewrite (eqk_refl (kops k) KL) in E. discriminate.
Qed.

Lemma t_validation n keys : validation_test U k n keys = [Some true; Some true; Some true; Some true].
Proof.
  unfold validation_test. cbv zeta. rewrite !put_new. cbn [length Nat.eqb].
  assert (V : forall bits i v, error_count U k bits n (put i v t_new) =
    Some (len ((if no_zero_keys (flags_of bits) then if eqk (kzero k) i then [NullNotAllowed] else [] else []) ++
               (match v with Some _ => [] | None => if no_null_entities (flags_of bits) then [NullNotAllowed] else [] end)))).
  { intros bits i v. unfold error_count. change (m_validate (dict_mf U k bits) n (put i v t_new)) with (t_validate (kops k) (kzero k) (smf U TestEntity) (flags_of bits) n (put i v t_new)).
    unfold t_validate. rewrite put_new. cbn [t_validate_entries]. rewrite (find_lookup (kops k)), put_new, (lookup_cons (kops k)). cbn [fst snd].
    destruct v; rewrite ?te_validate, ?app_nil_r; destruct (eqk (kzero k) i); reflexivity. }
  rewrite !V, !(eqk_refl (kops k) KL).
  unfold error_count. rewrite (good_valid _ n _ (fold_good keys t_new good_new)). reflexivity.
Qed.

(** ** The copy and the move *)
Lemma copy_states draws : Forall (fun d => val_ok TString (c_text k d)) draws ->
  let s := copy_state U k draws in
  is_table (c_dict k s) /\ (forall i x, In (i, Some x) (t_list (c_dict k s)) -> s_ok TestEntity x) /\
  c_ptrs k s = rev (map (c_addr k) draws) /\
  (forall p, In p (c_own k s) -> In (snd p) (c_ptrs k s)) /\
  (NoDup (map (c_key k) draws) -> map fst (c_own k s) = rev (map (c_key k) draws) /\ map snd (c_own k s) = rev (map (c_addr k) draws)).
Proof.
  intros H. cbv zeta. induction draws as [|d l IH] using rev_ind.
  - cbn. split; [constructor|]. repeat split; intros; try contradiction; auto.
  - apply Forall_app in H. destruct H as [H Hd]. inversion Hd as [|? ? Hv _]; subst. specialize (IH H).
    unfold copy_state in *. rewrite fold_left_app. cbn [fold_left]. set (s := fold_left (copy_step U k) l _) in *.
    destruct IH as (I1 & I2 & I3 & I4 & I5). cbn [copy_step c_dict c_own c_ptrs].
    destruct (put_spec (c_key k d) (Some (new_entity U)) (c_dict k s) I1) as (S1 & F1 & _).
    destruct (put_spec (c_key k d) (Some (named U (c_text k d))) _ S1) as (S2 & F2 & _).
    split; [exact S2|]. split; [|split; [|split]].
    + intros i x Hx. apply (find_in (kops k) KL) in Hx; [|exact S2]. rewrite F2, F1 in Hx. destruct (eqk i (c_key k d)).
      * injection Hx as <-. apply named_ok, Hv.
      * apply (find_in (kops k) KL) in Hx; eauto.
    + rewrite map_app, rev_app_distr, I3. reflexivity.
    + unfold own_put. intros p [<-|Hp]; [left; reflexivity|]. right. apply I4. apply filter_In in Hp. tauto.
    + intros N. rewrite map_app in N. cbn [map] in N. apply NoDup_remove in N. rewrite app_nil_r in N. destruct N as [N1 N2].
      destruct (I5 N1) as [K1 K2]. rewrite !map_app, !rev_app_distr. cbn [map rev app]. unfold own_put. cbn [map fst snd].
      assert (E : filter (fun p => negb (eqk (c_key k d) (fst p))) (c_own k s) = c_own k s).
      { apply filter_all. intros p Hp. rewrite (eqk_neq (kops k) KL); [reflexivity|]. intros E.
        apply N2. apply in_rev. rewrite <- K1, E. apply in_map, Hp. }
      rewrite E, K1, K2. split; reflexivity.
Qed.
Lemma addrs_distinct draws : Forall (fun d => val_ok TString (c_text k d)) draws -> NoDup (map (c_addr k) draws) -> draw_addrs_ok U k draws.
Proof.
  intros H N before d after E. subst draws. apply Forall_app in H. destruct H as [H _]. destruct (copy_states before H) as (_ & _ & P & O & _).
  intros I. apply in_map_iff in I. destruct I as (p & Ep & I). apply O in I. rewrite P, Ep in I. apply in_rev in I.
  rewrite map_app in N. cbn [map] in N. apply NoDup_remove in N. apply (proj2 N), in_or_app. left. exact I.
Qed.

Lemma same_map_length (R : ty TestEntity -> ty TestEntity -> Prop) (a b : dict) : is_table a -> is_table b -> same_map (kops k) R a b ->
  length (t_list a) = length (t_list b).
Proof.
  intros Ha Hb S. rewrite <- (map_length fst (t_list a)), <- (map_length fst (t_list b)). apply Permutation_length, NoDup_Permutation; auto.
  intros i. pose proof (find_none (kops k) KL i a) as Na. pose proof (find_none (kops k) KL i b) as Nb. specialize (S i).
  destruct (in_dec (eq_dec_k (kops k) KL) i (map fst (t_list a))) as [A|A]; destruct (in_dec (eq_dec_k (kops k) KL) i (map fst (t_list b))) as [B|B]; try tauto; exfalso.
  - apply Nb in B. rewrite B in S. destruct (find i a) as [[?|]|]; try contradiction. exact (proj1 Na eq_refl A).
  - apply Na in A. rewrite A in S. destruct (find i b) as [[?|]|] ; try contradiction. exact (proj1 Nb eq_refl B).
Qed.
Lemma te_clean x : s_clean TestEntity x.
Proof.
  assert (V : forall v, clean TString v) by (intros [?|?|?]; try exact Logic.I; intros i Hi; cbn in Hi; lia).
  assert (C : forall c, cval_clean TString c) by (intros [| | | | |]; cbn; auto; repeat (match goal with o : option _ |- _ => destruct o as [?|] end); try exact Logic.I; try (match goal with |- match ?p with _ => _ end => destruct p end); apply V || (apply Forall_forall; auto)).
  destruct x as [a [b []]]. split; [apply C|]. split; [apply C|exact Logic.I].
Qed.
Lemma n_mem_iff a l : n_mem a l = true <-> In a l.
Proof.
  unfold n_mem. rewrite existsb_exists. split.
  - intros (x & H & E). apply N.eqb_eq in E. subst. exact H.
  - intros H. exists a. split; [exact H|apply N.eqb_refl].
Qed.
Lemma dict_copied (c d : dict) : is_table d -> (forall i x, In (i, Some x) (t_list d) -> s_ok TestEntity x) ->
  exists c, m_copy (dict_mf U k 0) t_new (Some d) = Done c /\ length (t_list c) = length (t_list d) /\ m_eq (dict_mf U k 0) c d = true.
Proof.
  intros Hd Ed. pose (s := STable k (flags_of 0) TestEntity).
  assert (Hs : s_ok s d) by (split; assumption).
  destruct (proj1 (copy_both U) s t_new d) as (c' & E & [Hc Ec] & Ic); [split; [constructor|intros i x []]|exact Hs|].
  exists c'. split; [exact E|]. split; [exact (same_map_length _ _ _ Hc Hd Ic)|].
  change (m_eq (dict_mf U k 0) c' d) with (m_eq (smf U s) c' d). apply (proj1 (equals_both U) s); [split; assumption|exact Hs|].
  apply (proj1 (ident_equal_both) s); [exact Hs|split; assumption|exact Ic|]. intros i x _. apply te_clean.
Qed.
Lemma t_copy_test draws copies : Forall (fun d => val_ok TString (c_text k d)) draws ->
  exists ok, copy_test U k draws copies = Done ok /\ (ok = true <-> forall a, In a copies -> ~ In a (map (c_addr k) draws)).
Proof.
  intros H. destruct (copy_states draws H) as (S & G & P & O & _). unfold copy_test. cbv zeta. set (s := copy_state U k draws) in *.
  destruct (dict_copied (c_dict k s) (c_dict k s) S G) as (c & E & L & Q). rewrite E. cbn [bind]. rewrite L, Q, Nat.eqb_refl. cbn [negb].
  assert (A : existsb (fun a => n_mem a (c_ptrs k s)) copies = true <-> exists a, In a copies /\ In a (map (c_addr k) draws)).
  { rewrite existsb_exists. split; intros (a & H1 & H2); exists a; (split; [exact H1|]).
    - apply n_mem_iff in H2. rewrite P in H2. apply in_rev, H2.
    - apply n_mem_iff. rewrite P. apply in_rev. rewrite rev_involutive. exact H2. }
  destruct (existsb _ copies) eqn:X.
  - exists false. split; [reflexivity|]. split; [discriminate|]. intros N. destruct (proj1 A eq_refl) as (a & H1 & H2). destruct (N a H1 H2).
  - cbn [t_new t_list length Nat.eqb negb]. eexists. split; [reflexivity|]. split.
    + intros _ a H1 H2. discriminate (proj2 A (ex_intro _ a (conj H1 H2))).
    + intros _. apply forallb_forall. intros p Hp. apply n_mem_iff, O, Hp.
Qed.
Lemma t_copy_pass draws copies : Forall (fun d => val_ok TString (c_text k d)) draws -> NoDup (map (c_key k) draws) ->
  copy_addrs_ok U k draws copies -> copy_test U k draws copies = Done true.
Proof.
  intros H N (_ & _ & A). destruct (t_copy_test draws copies H) as (ok & E & I). rewrite E. f_equal. apply I. intros a Ha Hd.
  destruct (copy_states draws H) as (_ & _ & _ & _ & K). destruct (K N) as [_ K2]. apply (A a Ha). rewrite K2. apply in_rev. rewrite rev_involutive. exact Hd.
Qed.

(** ** Serialization *)
Lemma gen_ok draws : Forall draw_ok draws -> exists d, gen_dict U k draws = Some d /\ all_good d /\ (length (t_list d) <= length draws)%nat.
Proof.
  induction draws as [|a l IH] using rev_ind; intros H.
  - exists t_new. split; [reflexivity|]. split; [apply good_new|cbn; lia].
  - apply Forall_app in H. destruct H as [H Ha]. inversion Ha as [|? ? [(i & Hi & Ni) Hv] _]; subst.
    destruct (IH H) as (d & E & G & L). unfold gen_dict in *. rewrite fold_left_app, E. cbn [fold_left gen_entry].
    destruct (List.find (fun i => negb (eqk i (kzero k))) (e_keys k a)) as [j|] eqn:F.
    + apply find_some in F. destruct F as [_ F]. assert (Nj : j <> kzero k) by (intros ->; rewrite (eqk_refl (kops k) KL) in F; discriminate).
      eexists. split; [reflexivity|]. pose proof (good_put j (new_entity U) d Nj new_te_ok G) as G1. split; [apply good_put; auto using named_ok|].
      destruct (put_spec j (Some (new_entity U)) d (proj1 G)) as (_ & F1 & L1). destruct (put_spec j (Some (named U (e_name k a))) _ (proj1 G1)) as (_ & _ & L2).
      rewrite L2, F1, (eqk_refl (kops k) KL), L1, app_length. cbn [length]. destruct (find j d); lia.
    + pose proof (List.find_none _ _ F i Hi) as X. cbv beta in X. rewrite (eqk_neq (kops k) KL) in X by exact Ni. discriminate.
Qed.
Lemma good_ok d : all_good d -> s_ok (STable k (flags_of 0) TestEntity) d.
Proof. intros [S G]. split; [exact S|]. intros i x H. apply G in H. destruct H as (_ & y & E & H). injection E as ->. exact H. Qed.
Lemma good_ident a b : all_good a -> s_ok (STable k (flags_of 0) TestEntity) b -> same_map (kops k) (s_ident TestEntity) b a -> all_good b.
Proof.
  intros [Sa Ga] [Sb Gb] M. split; [exact Sb|]. intros i v H. apply (find_in (kops k) KL) in H; [|exact Sb]. specialize (M i). rewrite H in M.
  destruct (find i a) as [w|] eqn:E; [|destruct v; contradiction]. apply (find_in (kops k) KL) in E; [|exact Sa]. destruct (Ga i w E) as (N & x & -> & _).
  split; [exact N|]. destruct v as [y|]; [|contradiction]. exists y. split; [reflexivity|]. apply (Gb i). apply (find_in (kops k) KL) in H; auto.
Qed.
Lemma names_ident a b : all_good a -> same_map (kops k) (s_ident TestEntity) b a -> names_equal k a b = true.
Proof.
  intros [Sa Ga] M. apply forallb_forall. intros [i v] H. cbn [fst snd]. destruct (Ga i v H) as (_ & x & -> & Hx).
  apply (find_in (kops k) KL) in H; [|exact Sa]. specialize (M i). rewrite H in M. destruct (find i b) as [[y|]|]; try contradiction.
  destruct M as [Ey _]. unfold name_of. destruct Hx as [Hx _]. rewrite Ey. apply cval_eq_iff; [exact Hx|exact Hx|]. apply cval_same_refl. apply (te_clean x).
Qed.
Lemma dict_rw_ok e n draws st f c fl lim d : Forall draw_ok draws -> len draws < 2^63 -> gen_dict U k draws = Some d ->
  let b := nodes_bytes fl (table_doc (kops k) (s_doc TestEntity) d) in
  wready 0 [] f st -> ws_at (w_stream st) c fl lim -> 2 * (len c + len b) <= lim -> lim < two64 -> 4 * len b <= e_lim e ->
  exists st', dict_rw U k e n draws st = Done (true, st') /\ wready 0 [] f st' /\ ws_at (w_stream st') (c ++ b) fl lim.
Proof.
  intros H Hn E b WR WA LM L64 RL. destruct (gen_ok draws H) as (d' & E' & G & L). rewrite E in E'. injection E' as <-.
  assert (Ld : len (t_list d) <= len draws) by (unfold len; lia).
  pose (s := STable k (flags_of 0) TestEntity). pose proof (good_ok d G) as Hd.
  assert (Sd : s_sound s) by (split; apply te_sound).
  assert (Fd : s_fits s d) by (split; [exact (N.le_lt_trans _ _ _ Ld Hn)|intros i x _; repeat split]).
  unfold dict_rw. rewrite E, (good_valid 0 n d G), (ws_at_pos _ _ _ _ WA). cbv zeta.
  destruct (proj1 (writes_both U) s d Sd Hd Fd 0 [] f st c fl lim WR WA LM) as (st1 & E1 & (P1 & P2 & P3)).
  change (nodes_bytes fl (s_doc s d)) with b in P1.
  change (m_write (smf U s) 0 d st) with (m_write (dict_mf U k 0) 0 d st) in E1. rewrite E1. cbn [bind negb].
  rewrite (ws_at_data _ _ _ _ P1). assert (FL : ws_flip (w_stream st1) = fl) by (destruct P1 as (_ & F & _); exact F). rewrite FL.
  set (rs := RS (c ++ b) (len c) fl).
  destruct (proj1 (reads_both U) s (m_new (smf U s)) d Sd (s_new_ok U s) (s_new_dest U s) Hd Fd e 0 [] (rf_new 0 (rs_size rs)) (r_open rs) c [] fl (rready_open rs)) as (y & st2 & E2 & (Oy & Iy) & _).
  - unfold rs_at. rewrite app_nil_r. reflexivity.
  - exact RL.
  - rewrite len_nil. change (nodes_bytes fl (s_doc s d)) with b. lia.
  - change (m_read (smf U s) e 0 (m_new (smf U s)) (r_open rs)) with (m_read (dict_mf U k 0) e 0 t_new (r_open rs)) in E2. rewrite E2. cbn [bind negb].
    rewrite (good_valid 0 n y (good_ident d y G Oy Iy)). exists st1. split; [|split; auto; eapply wready_keep; eauto].
    rewrite (same_map_length _ _ _ (proj1 Oy) (proj1 G) Iy), Nat.eqb_refl, (names_ident d y G Iy). reflexivity.
Qed.
End D.

Lemma dict_rws_ok U e n : forall l st f c fl lim,
  Forall (fun c => Forall draw_ok (dc_draws c) /\ len (dc_draws c) < 2^63) l -> wready 0 [] f st -> ws_at (w_stream st) c fl lim ->
  2 * (len c + len (flat_map (call_doc U fl) l)) <= lim -> lim < two64 -> 4 * len (flat_map (call_doc U fl) l) <= e_lim e ->
  exists st', dict_rws U e n l st = Done (true, st') /\ ws_at (w_stream st') (c ++ flat_map (call_doc U fl) l) fl lim.
Proof.
  induction l as [|a l IH]; intros st f c fl lim OK WR WA LM L64 RL.
  - exists st. cbn [flat_map]. rewrite app_nil_r. auto.
  - inversion OK as [|? ? [HD HN] OK']; subst. cbn [flat_map] in *. rewrite len_app in *.
    destruct (gen_ok U (dc_key a) (dc_draws a) HD) as (d & E & _ & _).
    assert (EB : nodes_bytes fl (table_doc (kops (dc_key a)) (s_doc TestEntity) d) = call_doc U fl a) by (unfold call_doc, call_dict; rewrite E; reflexivity).
    destruct (dict_rw_ok U (dc_key a) e n (dc_draws a) st f c fl lim d HD HN E WR WA) as (st1 & E1 & W1 & A1).
    + rewrite EB. lia.
    + exact L64.
    + rewrite EB. lia.
    + rewrite EB in A1. destruct (IH st1 f (c ++ call_doc U fl a) fl lim OK' W1 A1) as (st2 & E2 & A2); auto.
      * rewrite len_app. lia.
      * lia.
      * exists st2. cbn [dict_rws]. rewrite E1. cbn [bind]. rewrite <- app_assoc in A2. auto.
Qed.
Lemma t_dict_serialize U e n l init lim fl : Forall (fun c => Forall draw_ok (dc_draws c) /\ len (dc_draws c) < 2^63) l ->
  room init lim (len (flat_map (call_doc U fl) l)) -> 4 * len (flat_map (call_doc U fl) l) <= e_lim e ->
  exists s0 st, fresh init lim fl = Done s0 /\ dict_rws U e n l (w_open s0) = Done (true, st) /\ ws_data (w_stream st) = flat_map (call_doc U fl) l.
Proof.
  intros OK (R1 & R2 & R3 & R4) RL. destruct (fresh_at init lim fl R1 R2 R3) as (s0 & E0 & H0).
  destruct (dict_rws_ok U e n l (w_open s0) (wf_new 0 s0) [] fl lim OK (wready_open s0) H0) as (st & E & A); try assumption.
  exists s0, st. split; auto. split; auto. exact (ws_at_data _ _ _ _ A).
Qed.

(** ** The test of entities *)
Lemma str_eq a b : val_ok TString a -> val_ok TString b -> (cval_eq TString (CV a) (CV b) = true <-> a = b).
Proof.
  intros Ha Hb. rewrite (cval_eq_iff TString (CV a) (CV b)) by assumption. cbn [cval_same].
  destruct a as [?|?|?], b as [?|?|?]; cbn in *; try contradiction; try tauto; try (split; congruence).
Qed.
Section TE.
Context (U : forall t, umap_impl (key t)).
Notation MF := (smf U TestEntity).
Lemma te_new : m_new MF = (CV (VS []), (COpt None, tt)). Proof. reflexivity. Qed.
Lemma te_clear a b : m_clear MF (a, (b, tt)) = Done (m_new MF). Proof. reflexivity. Qed.
Lemma te_copy d a b : m_copy MF d (Some (a, (b, tt))) = Done (a, (b, tt)). Proof. destruct d as [? [? []]]. reflexivity. Qed.
Lemma te_eq a b c d : m_eq MF (a, (b, tt)) (c, (d, tt)) = cval_eq TString a c && cval_eq TString b d.
Proof.
  change (m_eq MF (a, (b, tt)) (c, (d, tt))) with (if cval_ne TString a c then false else if cval_ne TString b d then false else true).
  rewrite !cval_ne_spec. destruct (cval_eq TString a c), (cval_eq TString b d); reflexivity.
Qed.
Lemma opt_eq a b : cval_eq TString (COpt (Some a)) (COpt (Some b)) = cval_eq TString (CV a) (CV b). Proof. reflexivity. Qed.
Lemma str_refl a : val_ok TString a -> cval_eq TString (CV a) (CV a) = true. Proof. intros H. apply str_eq; auto. Qed.
Lemma str_neq a b : val_ok TString a -> val_ok TString b -> cval_eq TString (CV a) (CV b) = false <-> a <> b.
Proof. intros Ha Hb. rewrite <- (str_eq a b Ha Hb). destruct (cval_eq TString (CV a) (CV b)); split; congruence. Qed.
Lemma t_entity_test n name0 name1 text1 name2 text2 :
  Forall (val_ok TString) [name0; name1; text1; name2; text2] ->
  exists ok, entity_test U n name0 name1 text1 name2 text2 = Done ok /\
    (ok = true <-> name0 <> VS [] /\ (name1, text1) <> (name2, text2)).
Proof.
  intros H. inversion H as [|? ? H0 Ha]; subst. inversion Ha as [|? ? H1 Hb]; subst. inversion Hb as [|? ? H2 Hc]; subst.
  inversion Hc as [|? ? H3 Hd]; subst. inversion Hd as [|? ? H4 _]; subst. clear H Ha Hb Hc Hd.
  assert (HE : val_ok TString (VS [])) by reflexivity.
  unfold entity_test, set_name, set_text. cbv zeta. rewrite te_new. cbn [fst snd]. rewrite te_eq.
  rewrite te_clear. cbn [bind]. rewrite te_new. cbn [fst snd]. rewrite te_validate. cbn [len length N.of_nat N.eqb negb].
  rewrite !te_copy. cbn [bind fst snd]. rewrite !te_copy. cbn [bind fst snd].
  destruct (cval_eq TString (CV name0) (CV (VS []))) eqn:E0.
  - exists false. split; [reflexivity|]. split; [discriminate|]. intros [X _]. apply str_eq in E0; auto.
  - apply str_neq in E0; auto. cbn [andb]. rewrite !te_eq, !opt_eq, !str_refl by assumption. cbn [andb negb].
    change (cval_eq TString (COpt None) (COpt None)) with true. cbn [andb negb].
    change (len (@nil N) =? 0) with true. cbn [negb].
    destruct (cval_eq TString (CV name1) (CV name2) && cval_eq TString (CV text1) (CV text2)) eqn:E1.
    + exists false. split; [reflexivity|]. split; [discriminate|]. intros [_ X]. apply andb_true_iff in E1. destruct E1 as [E1 E2].
      apply str_eq in E1; auto. apply str_eq in E2; auto. destruct X. congruence.
    + rewrite te_copy. cbn [bind]. rewrite te_eq, str_refl by exact HE. change (cval_eq TString (COpt None) (COpt None)) with true. cbn [andb negb].
      rewrite te_clear. cbn [bind]. rewrite te_new, te_eq, str_refl by exact HE. change (cval_eq TString (COpt None) (COpt None)) with true. cbn [andb].
      exists true. split; [reflexivity|]. split; [|reflexivity]. intros _. split; [exact E0|]. intros X. injection X as -> ->.
      rewrite !str_refl in E1 by assumption. discriminate.
Qed.
End TE.
