(** * Varying as a class: value semantics and serialization. Proofs. *)
From Verif Require Import Base Bytes BytesFacts Values Streams FileSpec ReadSpec StreamFacts StreamProps Types Format
  Accept EntityWriter EntityReader EntityWriterFacts PackFacts ArrayWriterFacts EntityReaderFacts EntitySafety ArraySafety
  ReadTotal Items ItemSpec EntityProps Sections Documents DocSpec SectionFacts SectionReadFacts SectionTheorems CodecFacts
  ValueEq ValueEqSpec ValueEqFacts Classes DynTypes DynTypesFacts Varying VaryingSpec VaryingFacts.
Open Scope N_scope.

Lemma v_deinit_of x : v_deinit (v_of x) = Done (true, v_of (emptied x)).
Proof.
  destruct x as [dt ct|k c]; [reflexivity|]. unfold v_deinit. cbn [v_of v_init v_data v_ty v_ct emptied].
  unfold dyn_delete, dyn_with. rewrite find_class_id, (as_class_own (Obj k c)). reflexivity.
Qed.
Lemma v_set_type_of x dt ct : v_set_type dt ct (v_of x) = Done (match find_class dt ct with Some _ => true | None => false end, v_of (init_content dt ct)).
Proof.
  unfold v_set_type. rewrite v_deinit_of. cbn [bind negb]. unfold dyn_new, init_content. destruct (find_class dt ct) as [k|] eqn:F; [|reflexivity].
  apply find_class_iff, class_ids_iff in F. destruct F as [<- <-]. reflexivity.
Qed.
Lemma emptied_none x : exists dt ct, emptied x = Empty dt ct.
Proof. destruct x; cbn; eauto. Qed.
Lemma v_copy_of d s : v_copy (v_of d) (Some (v_of s)) = Done (v_of (copied d s)).
Proof.
  unfold v_copy. rewrite v_deinit_of. cbn [bind negb]. destruct s as [dt ct|k c]; [destruct d; reflexivity|].
  cbn [v_of v_init v_data negb v_ty v_ct]. rewrite v_set_type_of. unfold init_content. rewrite find_class_id. cbn [bind negb].
  cbn [v_of fresh_of v_ty v_ct v_data]. unfold dyn_copy, dyn_with. rewrite find_class_id, !(as_class_own (Obj k _)). cbn [bind negb o_val copied v_of]. reflexivity.
Qed.
Lemma v_copy_null d : v_copy (v_of d) None = Done (v_of (emptied d)).
Proof. unfold v_copy. rewrite v_deinit_of. reflexivity. Qed.
Lemma v_clear_of x : well_typed x -> v_clear (v_of x) = Done (v_of (match x with Holds k _ => fresh_of k | Empty _ _ => x end)).
Proof.
  destruct x as [dt ct|k c]; [reflexivity|]. intros [_ T]. unfold v_clear. cbn [v_of v_init v_data negb v_ty v_ct].
  unfold dyn_clear, dyn_with. rewrite find_class_id, (as_class_own (Obj k c)). cbn [bind o_val]. rewrite clear_is_default, T. reflexivity.
Qed.
Lemma v_equals_of x y : well_typed x -> well_typed y -> exists b, v_equals (v_of x) (v_of y) = Done b /\ (b = true <-> same_content x y).
Proof.
  assert (F : ~ False) by auto.
  intros Tx Ty. unfold v_equals. destruct (N.eqb_spec (v_ty (v_of x)) (v_ty (v_of y))) as [Et|Et]; cbn [negb].
  2:{ exists false. split; auto. split; [discriminate|]. destruct x, y; cbn [same_content]; try contradiction. intros [<- _]. destruct Et. reflexivity. }
  destruct (N.eqb_spec (v_ct (v_of x)) (v_ct (v_of y))) as [Ec|Ec]; cbn [negb].
  2:{ exists false. split; auto. split; [discriminate|]. destruct x, y; cbn [same_content]; try contradiction. intros [<- _]. destruct Ec. reflexivity. }
  destruct x as [dt ct|k c], y as [dt' ct'|k' c']; cbn [v_of v_data v_ty v_ct] in *;
    try (exists false; split; [reflexivity|split; [discriminate|contradiction]]).
  assert (k' = k) by (apply ids_inj; unfold class_ids; congruence). subst k'.
  unfold dyn_equals, dyn_with. rewrite find_class_id, !(as_class_own (Obj k _)). cbn [o_val]. eexists. split; [reflexivity|].
  rewrite cval_eq_iff; [|apply Tx|apply Ty]. cbn. tauto.
Qed.
Lemma v_eqb_of x y : well_typed x -> well_typed y -> (v_eqb (v_of x) (v_of y) = true <-> same_content x y).
Proof. intros Hx Hy. destruct (v_equals_of x y Hx Hy) as (b & E & H). unfold v_eqb. rewrite E. exact H. Qed.

(** ** Serialization *)
Lemma dt_id_small t : dt_id t < 2^16.
Proof. destruct t as [|[]|[]|[]|[] []|[] []|[] []|[] []|[]| | | | |]; reflexivity. Qed.
Lemma ct_id_small t : ct_id t < 2^16.
Proof. destruct t; reflexivity. Qed.
Lemma u16_item_ok key n : len key <= 40 -> item_ok (u16_item key n).
Proof. intros H. split; [|exact H]. reflexivity. Qed.
Lemma u16_of_val n : n < 2^16 -> u16_of (u16_val n) = n.
Proof. intros H. unfold u16_of, u16_val. apply of_le_le_small. exact H. Qed.
Lemma varying_bytes k c fl : nodes_bytes fl (varying_doc k c) =
  encode fl (TUInt I16) key_type_ (u16_val (dt_id (fst k))) ++ encode fl (TUInt I16) key_container (u16_val (ct_id (snd k))) ++ encode fl (fst k) key_data c.
Proof. unfold varying_doc. cbn [nodes_bytes node_bytes i_type i_key i_val u16_item]. rewrite app_nil_r. reflexivity. Qed.
Lemma data_item_ok k c : typed k c -> item_ok (Item (fst k) key_data c).
Proof. intros [H _]. split; [exact H|vm_compute; discriminate]. Qed.

Lemma v_writes k c : typed k c -> writes (fun h st => v_write h (v_of (Holds k c)) st) (fun fl => nodes_bytes fl (varying_doc k c)).
Proof.
  intros T.
  pose proof (writes_seq _ _ _ _ (writes_item _ _ _ (u16_item_ok key_type_ (dt_id (fst k)) ltac:(vm_compute; discriminate)))
             (writes_seq _ _ _ _ (writes_item _ _ _ (u16_item_ok key_container (ct_id (snd k)) ltac:(vm_compute; discriminate)))
                                 (writes_item _ _ _ (data_item_ok k c T)))) as W.
  eapply writes_ext; [exact W| |intros fl; apply varying_bytes].
  intros h st. unfold v_write. cbn [v_of v_init v_data negb v_ty v_ct]. rewrite (N.mod_small (dt_id _)) by apply dt_id_small. rewrite (N.mod_small (ct_id _)) by apply ct_id_small.
  change (CV (VP (le 2 (dt_id (fst k))))) with (u16_val (dt_id (fst k))). change (CV (VP (le 2 (ct_id (snd k))))) with (u16_val (ct_id (snd k))).
  destruct (w_write h (TUInt I16) key_type_ _ st) as [[[] st1]| |]; cbn [bind negb]; try reflexivity.
  destruct (w_write h (TUInt I16) key_container _ st1) as [[[] st2]| |]; cbn [bind negb]; try reflexivity.
  unfold dyn_write, dyn_with. rewrite find_class_id, (as_class_own (Obj k c)). cbn [o_val].
  destruct (w_write h (fst k) key_data c st2) as [[[] st3]| |]; reflexivity.
Qed.
Lemma v_write_empty dt ct h st : v_write h (v_of (Empty dt ct)) st = Done (false, st).
Proof. reflexivity. Qed.

Lemma default_replaced k : replaced (fst k) (cval_default (fst k) (snd k)).
Proof. destruct k as [t c]. cbn [fst snd]. destruct t, c; exact I || reflexivity. Qed.

Lemma v_reads k c d : typed k c -> reads (fun e h st => v_read e h (v_of d) st) (fun fl => nodes_bytes fl (varying_doc k c)) (v_of (Holds k c)).
Proof.
  intros T. destruct (default_typed k) as [D1 D2].
  assert (U : cval_ok (TUInt I16) (u16_val 0)) by reflexivity.
  set (put := fun (x : cval) => Vary (dt_id (fst k)) (ct_id (snd k)) (Some (Obj k x))).
  pose proof (reads_map _ (fun _ x => put x) _ _ (reads_item _ _ _ (cval_default (fst k) (snd k)) (data_item_ok k c T) (eq_trans D2 (eq_sym (proj2 T))) D1 (default_replaced k))) as R3. cbv beta in R3.
  set (R3f := fun (e : renv) (h : N) (st : rstate) => do r <- r_read e h (fst k) key_data (cval_default (fst k) (snd k)) st; let '(ok, v, st1) := r in Done (ok, put v, st1)) in *.
  set (R2f := fun (e : renv) (h : N) (st : rstate) => do r <- r_read e h (TUInt I16) key_container (u16_val 0) st; let '(ok, v, st1) := r in
              if (ok : bool) then (if u16_of v =? ct_id (snd k) then R3f e h st1 else Undef) else Done (false, v_of (emptied d), st1)).
  assert (R2 : reads R2f
            (fun fl => encode fl (TUInt I16) key_container (u16_val (ct_id (snd k))) ++ encode fl (fst k) key_data c) (put c)).
  { refine (reads_seq _ (fun v e h st1 => if u16_of v =? ct_id (snd k) then R3f e h st1 else Undef) (fun _ => v_of (emptied d)) _ _ _ _
      (reads_item _ _ _ (u16_val 0) (u16_item_ok key_container (ct_id (snd k)) ltac:(vm_compute; discriminate)) eq_refl U I) _).
    change (CV (VP (le 2 (ct_id (snd k))))) with (u16_val (ct_id (snd k))). rewrite u16_of_val by apply ct_id_small. rewrite N.eqb_refl. exact R3. }
  assert (R1 : reads (fun e h st => do r <- r_read e h (TUInt I16) key_type_ (u16_val 0) st; let '(ok, v, st1) := r in
              if (ok : bool) then (if u16_of v =? dt_id (fst k) then R2f e h st1 else Undef) else Done (false, v_of (emptied d), st1))
            (fun fl => encode fl (TUInt I16) key_type_ (u16_val (dt_id (fst k))) ++ encode fl (TUInt I16) key_container (u16_val (ct_id (snd k))) ++ encode fl (fst k) key_data c) (put c)).
  { refine (reads_seq _ (fun v e h st1 => if u16_of v =? dt_id (fst k) then R2f e h st1 else Undef) (fun _ => v_of (emptied d)) _ _ _ _
      (reads_item _ _ _ (u16_val 0) (u16_item_ok key_type_ (dt_id (fst k)) ltac:(vm_compute; discriminate)) eq_refl U I) _).
    change (CV (VP (le 2 (dt_id (fst k))))) with (u16_val (dt_id (fst k))). rewrite u16_of_val by apply dt_id_small. rewrite N.eqb_refl. exact R2. }
  clear R2 R3. intros e h above f st pre post fl Rr Es Hal Hs. rewrite varying_bytes in *.
  destruct (R1 e h above f st pre post fl Rr Es Hal Hs) as (st' & E & P). exists st'. split; [|exact P].
  unfold v_read. rewrite v_deinit_of. cbn [bind]. 
  destruct (r_read e h (TUInt I16) key_type_ (u16_val 0) st) as [[[[] ty] st1]| |]; cbn [bind negb] in *; try discriminate.
  destruct (N.eqb_spec (u16_of ty) (dt_id (fst k))) as [E1|]; [|discriminate]. unfold R2f in E.
  destruct (r_read e h (TUInt I16) key_container (u16_val 0) st1) as [[[[] ct] st2]| |]; cbn [bind negb] in *; try discriminate.
  destruct (N.eqb_spec (u16_of ct) (ct_id (snd k))) as [E2|]; [|discriminate].
  rewrite E1, E2, v_set_type_of. unfold init_content. rewrite find_class_id. cbn [bind negb v_of fresh_of v_ty v_ct v_data].
  unfold dyn_read, dyn_with. rewrite find_class_id, (as_class_own (Obj k _)). cbn [o_val]. unfold R3f, put in E.
  destruct (r_read e h (fst k) key_data (cval_default (fst k) (snd k)) st2) as [[[[] x] st3]| |]; cbn [bind negb] in *; try discriminate. exact E.
Qed.

Lemma t_v_roundtrip t c v init lim fl : typed (t, c) v ->
  room init lim (len (nodes_bytes fl (varying_doc (t, c) v))) ->
  exists s0 st, fresh init lim fl = Done s0 /\ v_write 0 (v_of (Holds (t, c) v)) (w_open s0) = Done (true, st) /\
    ws_data (w_stream st) = nodes_bytes fl (varying_doc (t, c) v) /\
    forall e old post, read_room e (ws_pos (w_stream st)) (ws_pos (w_stream st) + len post) ->
      exists st', v_read e 0 (v_of old) (r_open (RS (ws_data (w_stream st) ++ post) 0 fl)) = Done (true, v_of (Holds (t, c) v), st') /\
        r_stream st' = RS (ws_data (w_stream st) ++ post) (ws_pos (w_stream st)) fl.
Proof.
  intros T R. destruct (roundtrip (fun h st => v_write h (v_of (Holds (t, c) v)) st) (fun d e h st => v_read e h d st) _ (v_of (Holds (t, c) v)) init lim fl
    (fun d => exists x, d = v_of x) (v_writes (t, c) v T)) as (s0 & st & A & B & C & D).
  - intros d (x & ->). exact (v_reads (t, c) v x T).
  - exact R.
  - exists s0, st. eauto 8.
Qed.

(** ** The functions of the type table *)
Lemma t_unknown dt ct : (forall t c, ~ (dt_id t = dt /\ ct_id c = ct)) ->
  dyn_new dt ct = None /\
  forall a b key h e wst rst,
    dyn_delete dt ct a = Done false /\ dyn_clear dt ct a = Done (false, a) /\ dyn_write dt ct key h a wst = Done (false, wst) /\
    dyn_read e dt ct key h a rst = Done (false, a, rst) /\ dyn_copy dt ct a b = Done (false, a) /\ dyn_equals dt ct a b = Done false.
Proof.
  intros H. assert (F : find_class dt ct = None).
  { apply find_class_none. intros [t c] E. apply (H t c). unfold class_ids in E. injection E as <- <-. auto. }
  unfold dyn_new, dyn_delete, dyn_clear, dyn_write, dyn_read, dyn_copy, dyn_equals, dyn_with. rewrite F. split; [reflexivity|].
  intros a b key h e wst rst. destruct a, b; repeat split; reflexivity.
Qed.
Lemma t_null dt ct a key h e wst rst :
    dyn_delete dt ct None = Done false /\ dyn_clear dt ct None = Done (false, None) /\ dyn_write dt ct key h None wst = Done (false, wst) /\
    dyn_read e dt ct key h None rst = Done (false, None, rst) /\ dyn_copy dt ct None a = Done (false, None) /\
    dyn_copy dt ct a None = Done (false, a) /\ dyn_equals dt ct None a = Done false /\ dyn_equals dt ct a None = Done false.
Proof. unfold dyn_delete, dyn_clear, dyn_write, dyn_read, dyn_copy, dyn_equals, dyn_with. destruct a; repeat split; reflexivity. Qed.
Lemma t_known t c : let dt := dt_id t in let ct := ct_id c in
  dyn_new dt ct = Some (Obj (t, c) (cval_default t c)) /\
  forall v w key h e wst rst, typed (t, c) v -> typed (t, c) w ->
    let x := Some (Obj (t, c) v) in let y := Some (Obj (t, c) w) in
    dyn_delete dt ct x = Done true /\
    dyn_clear dt ct x = Done (true, Some (Obj (t, c) (cval_default t c))) /\
    dyn_write dt ct key h x wst = w_write h t key v wst /\
    dyn_read e dt ct key h x rst = (do r <- r_read e h t key v rst; let '(ok, v', rst') := r in Done (ok, Some (Obj (t, c) v'), rst')) /\
    dyn_copy dt ct x y = Done (true, y) /\
    exists b, dyn_equals dt ct x y = Done b /\ (b = true <-> cval_same t v w).
Proof.
  intros dt ct. assert (F : find_class dt ct = Some (t, c)) by (apply (find_class_id (t, c))).
  unfold dyn_new, dyn_delete, dyn_clear, dyn_write, dyn_read, dyn_copy, dyn_equals, dyn_with. rewrite F. split; [reflexivity|].
  intros v w key h e wst rst Hv Hw. rewrite !(as_class_own (Obj (t, c) v)). cbn [o_val fst snd].
  split; [reflexivity|]. split; [rewrite clear_is_default; destruct Hv as [_ ->]; reflexivity|]. split; [reflexivity|]. split; [reflexivity|].
  rewrite !(as_class_own (Obj (t, c) w)). split; [reflexivity|]. eexists. split; [reflexivity|]. apply cval_eq_iff; [apply Hv|apply Hw].
Qed.
