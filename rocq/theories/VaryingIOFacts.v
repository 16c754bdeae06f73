(** * VaryingIO. Proofs. *)
From Verif Require Import Base Bytes BytesFacts Values Streams Types EntityWriter EntityReader Sections ItemSpec ArraySafety ReadValid DynTypes DynTypesFacts
  Varying VaryingSpec VaryingFacts VaryingCodec VaryingIO VaryingIOSpec.
Open Scope N_scope.

Lemma read_ok s E e i x h lft st : VaryingFacts.rep s E -> E i = Some x -> e_small e -> (forall k, typed k (lft k)) ->
  v_read e h (v_of x) st <> Undef ->
  exists out s' y, h_read e i h lft st s = Done (out, s') /\ VaryingFacts.rep s' (bind_var i (Some y) E) /\ well_typed y /\ (noleak s -> noleak s') /\
    match v_read e h (v_of x) st with
    | Done (b, v, st') => out = XGot b st' /\ v = v_of y /\ (b = true -> exists k c, y = Holds k c)
    | Throw => out = XThrown
    | Undef => False
    end.
Proof.
  intros R Hi He Hl. unfold v_read, h_read. rewrite v_deinit_of. cbn [bind].
  destruct (deinit_ok s E i x R Hi) as (s0 & D & R0 & L0 & _). rewrite D. cbn [bind].
  assert (We : well_typed (emptied x)) by (destruct x; exact Logic.I).
  destruct (r_read e h (TUInt I16) key_type_ (u16_val 0) st) as [[[ok1 ty] st1]| |] eqn:E1; cbn [bind]; [|intros _; exists XThrown, s0, (emptied x); auto 10|congruence].
  destruct ok1; cbn [negb].
  2:{ intros _. eexists _, s0, (emptied x). split; [reflexivity|]. split; [exact R0|]. split; [exact We|]. split; [exact L0|]. split; [reflexivity|]. split; [reflexivity|discriminate]. }
  destruct (r_read e h (TUInt I16) key_container (u16_val 0) st1) as [[[ok2 ct] st2]| |] eqn:E2; cbn [bind]; [|intros _; exists XThrown, s0, (emptied x); auto 10|congruence].
  destruct ok2; cbn [negb].
  2:{ intros _. eexists _, s0, (emptied x). split; [reflexivity|]. split; [exact R0|]. split; [exact We|]. split; [exact L0|]. split; [reflexivity|]. split; [reflexivity|discriminate]. }
  rewrite v_set_type_of. cbn [bind].
  destruct (set_type_ok s0 _ i (emptied x) (u16_of ty) (u16_of ct) R0 (bind_same _ _ _)) as (s3 & T & R3 & L3 & _). rewrite T. cbn [bind].
  apply (rep_ext _ _ (bind_var i (Some (init_content (u16_of ty) (u16_of ct))) E)) in R3; [|intros j; symmetry; apply bind_bind].
  unfold init_content in *. destruct (find_class (u16_of ty) (u16_of ct)) as [k|] eqn:F; cbn [negb].
  2:{ intros _. eexists _, s3, (Empty (u16_of ty) (u16_of ct)). split; [reflexivity|]. split; [exact R3|]. split; [exact Logic.I|]. split; [auto|].
      split; [reflexivity|]. split; [reflexivity|discriminate]. }
  cbn [v_of fresh_of v_ty v_ct v_data].
  destruct (rep_holds _ _ i k (cval_default (fst k) (snd k)) R3) as (a & Hv & Ha); [apply bind_same|].
  unfold var. rewrite Hv. cbn [bind h_data h_ty h_ct load]. rewrite Ha. cbn [bind].
  unfold dyn_read, dyn_with. rewrite find_class_id. rewrite !(as_class_own (Obj k _)). cbn [o_val o_class].
  destruct (default_typed k) as (D1 & D2).
  pose proof (er_read_valid e (fst k) key_data (cval_default (fst k) (snd k)) (r_stream st2) He D1 (default_replaced k)) as V.
  unfold r_read. destruct (split_at rf_id h (r_chain st2)) as [q|]; [|cbn [bind]; congruence].
  assert (St : forall c, typed k c -> VaryingFacts.rep (store (Some a) (Some (Obj k c)) s3) (bind_var i (Some (Holds k c)) E) /\
     (noleak s3 -> noleak (store (Some a) (Some (Obj k c)) s3))).
  { intros c Hc. destruct (rep_store _ _ i k (cval_default (fst k) (snd k)) c a R3 (bind_same _ _ _) Hc Hv) as (Q & Q'). split; [|exact Q'].
    eapply rep_ext; [|exact Q]. intros j. symmetry. apply bind_bind. }
  destruct (er_read e (fst k) key_data (cval_default (fst k) (snd k)) (r_stream st2)) as [[[ok c] s4]| |]; cbn [bind gives] in *; [| |congruence].
  - intros _. assert (Hc : typed k c) by (destruct V; split; congruence). destruct (St c Hc) as (Q & Q').
    eexists _, _, (Holds k c). split; [reflexivity|]. split; [exact Q|]. split; [exact Hc|]. split; [auto|].
    destruct ok; cbn [negb]; (split; [reflexivity|]); (split; [reflexivity|]); [eauto|discriminate].
  - intros _. destruct (St (lft k) (Hl k)) as (Q & Q'). eexists _, _, (Holds k (lft k)). split; [reflexivity|]. split; [exact Q|]. split; [apply Hl|]. split; [auto|reflexivity].
Qed.

Lemma write_ok s E i x h st : VaryingFacts.rep s E -> E i = Some x -> h_write i h st s = v_write h (v_of x) st.
Proof.
  intros R Hi. unfold h_write, v_write, var. destruct x as [dt ct|k c].
  - rewrite (rep_empty _ _ _ _ _ R Hi). reflexivity.
  - destruct (rep_holds _ _ _ _ _ R Hi) as (a & -> & Ha). cbn [bind h_data h_ty h_ct load v_of v_init v_data v_ty v_ct negb]. rewrite Ha.
    destruct (w_write h (TUInt I16) key_type_ (u16_val (dt_id (fst k) mod 2^16)) st) as [[[] st1]| |]; cbn [bind negb]; try reflexivity.
    destruct (w_write h (TUInt I16) key_container (u16_val (ct_id (snd k) mod 2^16)) st1) as [[[] st2]| |]; cbn [bind negb]; try reflexivity.
    destruct (dyn_write _ _ _ _ _ _) as [[[] st3]| |]; reflexivity.
Qed.

Lemma x_step_ok s E o : VaryingFacts.rep s E -> x_legal E o ->
  exists x s' E', x_step o s = Done (x, s') /\ x_spec o E x E' /\ VaryingFacts.rep s' E' /\ (x_no_move_assign o -> noleak s -> noleak s').
Proof.
  intros R. destruct o as [o|i h st|e i h lft st]; cbn [x_legal x_step x_spec x_no_move_assign].
  - intros H. destruct (step_ok s E (live_in E) o R (fun _ => eq_refl) H) as (x & s' & E' & A & B & C & _ & F). exists (XOut x), s', E'. rewrite A. cbn [bind fst snd].
    split; [reflexivity|]. split; [eauto|]. split; [exact C|]. intros N. apply F. destruct o; auto.
  - intros (x & Hx & Hu). rewrite (write_ok s E i x h st R Hx). destruct (v_write h (v_of x) st) as [[b st']| |] eqn:Q; [| |congruence].
    + exists (XWrote b st'), s, E. split; [reflexivity|]. split; [split; [reflexivity|]; exists x; rewrite Q; auto|]. auto.
    + exists XThrown, s, E. split; [reflexivity|]. split; [split; [reflexivity|]; exists x; rewrite Q; auto|]. auto.
  - intros (He & Hl & x & Hx & Hu).
    destruct (read_ok s E e i x h lft st R Hx He Hl Hu) as (out & s' & y & A & B & C & D & F).
    exists out, s', (bind_var i (Some y) E). split; [exact A|]. split; [exists x, y; auto|]. split; [exact B|]. auto.
Qed.
Lemma x_run_ok l : forall s E, VaryingFacts.rep s E -> x_legal_run E l ->
  exists xs s' E', x_run l s = Done (xs, s') /\ x_specs l E xs E' /\ VaryingFacts.rep s' E' /\ (Forall x_no_move_assign l -> noleak s -> noleak s').
Proof.
  induction l as [|o l IH]; intros s E R Hl.
  - exists [], s, E. cbn. auto.
  - destruct Hl as [Ho Hl]. destruct (x_step_ok s E o R Ho) as (x & s1 & E1 & H1 & H2 & H3 & H5).
    destruct (IH s1 E1 H3 (Hl _ _ H2)) as (xs & s' & E' & Q1 & Q2 & Q3 & Q4).
    exists (x :: xs), s', E'. cbn [x_run x_specs]. rewrite H1. cbn [bind]. rewrite Q1. cbn [bind]. split; auto. split; [eauto|].
    split; auto. intros F L. inversion F; subst. auto.
Qed.
Lemma t_io_run l : x_legal_run (fun _ => None) l ->
  exists xs s E, x_run l v_start = Done (xs, s) /\ x_specs l (fun _ => None) xs E /\
    (Forall x_no_move_assign l -> forall a, hs_heap s a <> None -> exists i v, hs_vars s i = Some v /\ h_data v = Some a).
Proof.
  intros H. destruct (x_run_ok l v_start (fun _ => None) rep_start H) as (xs & s & E & Q1 & Q2 & Q3 & Q4).
  exists xs, s, E. split; auto. split; auto. intros F. apply Q4; auto. intros a Ha. cbn in Ha. congruence.
Qed.

(** The old content does not matter: it is deleted first. *)
Lemma read_undef e h x st : v_read e h (v_of (Empty 0 0)) st <> Undef -> v_read e h (v_of x) st <> Undef.
Proof.
  unfold v_read. rewrite !v_deinit_of. cbn [bind emptied].
  destruct (r_read e h (TUInt I16) key_type_ (u16_val 0) st) as [[[[] ty] st1]| |]; cbn [bind negb]; auto; try discriminate.
  destruct (r_read e h (TUInt I16) key_container (u16_val 0) st1) as [[[[] ct] st2]| |]; cbn [bind negb]; auto; try discriminate.
  rewrite !v_set_type_of. auto.
Qed.
Lemma v_of_holds y k c : v_of y = v_of (Holds k c) -> y = Holds k c.
Proof. destruct y as [dt ct|k' c']; cbn; [discriminate|]. intros H. injection H. intros; subst. reflexivity. Qed.
