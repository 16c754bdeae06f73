(** * C19-C21: EntityTable and IndexedVector. *)
From Coq Require Import Sorting.Permutation.
From Verif Require Import Base Bytes Values Streams Types Format EntityWriter EntityReader Items ItemSpec EntityProps Sections Documents DocSpec
  SectionTheorems CodecFacts Validator Keys KeySpec KeyFacts Containers ValueEqSpec Graph GraphSpec Classes Table TableSpec TableFacts TableCodec
  IndexedVector IndexedVectorSpec IndexedVectorFacts DynTypes Varying VaryingSpec EntityGen EntitySpec EntityFacts EntityCodec
  Properties_Keys Properties_Entity.
Open Scope N_scope.

(** An implementation of std::unordered_map: new entries last; or first. *)
Definition u_last (K : Type) : umap_impl K.
Proof.
  refine (UImpl K (fun V s l x => (l ++ [x], s + 1)) _ (fun s _ => s) (fun s => s)).
  intros V s l x. cbn. apply Permutation_sym, Permutation_cons_append.
Defined.
Definition u_first (K : Type) : umap_impl K.
Proof. refine (UImpl K (fun V s l x => (x :: l, s + 1)) _ (fun s _ => s) (fun s => s)). intros V s l x. cbn. apply Permutation_refl. Defined.

(** C19: after any history of legal operations, on any implementation of std::unordered_map, a table contains
    exactly what a finite map contains after the same history. *)
Theorem C19_history : forall K T (Ko : keyops K) (U : umap_impl K) (M : mf T) h, key_laws Ko ->
  legal_run Ko M h (fun _ => None) ->
  exists m, t_run Ko U M h t_new = Done m /\ is_table m /\ forall k, t_find Ko k m = f_run Ko M h (fun _ => None) k.
Proof. intros K T Ko U M h KL H. apply t_history; assumption. Qed.
Print Assumptions C19_history.

(** C19: Equals is true iff both tables have the same keys, the same null entities, and Equal entities,
    whatever the order of the entries. *)
Theorem C19_equals : forall K T (Ko : keyops K) (M : mf T) (l r : table K T), key_laws Ko -> is_table l -> is_table r ->
  (t_equals Ko M l r = true <->
   (forall k, In k (map fst (t_list l)) <-> In k (map fst (t_list r))) /\
   (forall k x y, In (k, x) (t_list l) -> In (k, y) (t_list r) ->
      match x, y with Some a, Some b => m_eq M a b = true | None, None => True | _, _ => False end)).
Proof.
  intros K T Ko M l r KL Hl Hr. rewrite t_equals_iff by assumption. split.
  - intros S. split.
    + intros k. specialize (S k). pose proof (find_none Ko KL k l) as Nl. pose proof (find_none Ko KL k r) as Nr.
      destruct (t_find Ko k l) as [v|] eqn:El, (t_find Ko k r) as [w|] eqn:Er; try (destruct v; contradiction); try contradiction.
      * apply (find_in Ko KL k v l Hl) in El. apply (find_in Ko KL k w r Hr) in Er.
        split; intros _; [apply (in_map fst _ _ Er)|apply (in_map fst _ _ El)].
      * split; intros H; [destruct (proj1 Nl eq_refl H)|destruct (proj1 Nr eq_refl H)].
    + intros k x y Hx Hy. apply (find_in Ko KL k x l Hl) in Hx. apply (find_in Ko KL k y r Hr) in Hy. specialize (S k). rewrite Hx, Hy in S.
      destruct x, y; auto.
  - intros [H1 H2] k. destruct (t_find Ko k l) as [v|] eqn:El, (t_find Ko k r) as [w|] eqn:Er.
    + apply (find_in Ko KL k v l Hl) in El. apply (find_in Ko KL k w r Hr) in Er. specialize (H2 k v w El Er). destruct v, w; auto.
    + apply (find_in Ko KL k v l Hl) in El. apply (find_none Ko KL k r) in Er. apply (in_map fst), H1 in El. destruct (Er El).
    + apply (find_in Ko KL k w r Hr) in Er. apply (find_none Ko KL k l) in El. apply (in_map fst), H1 in Er. destruct (El Er).
    + exact I.
Qed.
Print Assumptions C19_equals.

(** C19: a copy, into any table, has the same keys and the same null entities, and copies of the entities; if
    copies of entities are Equal to their originals, then so are copies of tables. *)
Theorem C19_copy : forall K T (Ko : keyops K) (U : umap_impl K) (M : mf T) (s d : table K T), key_laws Ko -> is_table s ->
  (forall k x, In (k, Some x) (t_list s) -> exists y, m_copy M (m_new M) (Some x) = Done y /\ m_eq M y x = true) ->
  exists m, t_deep_copy Ko U M d (Some s) = Done m /\ is_table m /\ t_equals Ko M m s = true /\
    forall k, (exists y, t_find Ko k m = Some (Some y)) <-> (exists x, t_find Ko k s = Some (Some x)).
Proof.
  intros K T Ko U M s d KL Hs HC. destruct (t_copy Ko KL U M (fun y x => m_eq M y x = true) d s Hs HC) as (m & E & Hm & S).
  exists m. split; [exact E|]. split; [exact Hm|]. split; [apply t_equals_iff; assumption|].
  intros k. specialize (S k). destruct (t_find Ko k m) as [[a|]|], (t_find Ko k s) as [[b|]|]; try contradiction;
    split; intros [z Z]; try discriminate; eauto.
Qed.
Print Assumptions C19_copy.

(** Entities without content, and the functions of a table of TestEntity objects. *)
Definition ulasts : forall t, umap_impl (key t) := fun t => u_last (key t).
Definition E0 : schema := SEntity FNil.
Definition te_mf := smf ulasts TestEntity.
Definition k1 : key TEntityRef := id_a.
Definition k2 : key TEntityRef := id_b.
Definition er_ops := kops k_entity_ref.
Definition er_u := u_last (key TEntityRef).
Definition text (b : list byte) : val := VS b.
Definition te (a : list byte) (o : option (list byte)) : ty TestEntity := (CV (VS a), (COpt (option_map VS o), tt)).

(** C19, findings: operator[] of a missing key dereferences a null pointer (ISD/ISD_EntityTable.h:58-59); so does Insert if
    the key is present without an entity (line 62); operator= of a table to itself loses all entries (line 37). *)
Theorem C19_index_missing_refuted : t_index er_ops er_u k1 (t_new : table _ (ty TestEntity)) = Undef.
Proof. reflexivity. Qed.
Print Assumptions C19_index_missing_refuted.
Theorem C19_insert_null_refuted : forall m, t_run er_ops er_u te_mf [TNull k1] t_new = Done m -> t_insert er_ops er_u te_mf k1 m = Undef.
Proof. intros m H. injection H as <-. vm_compute. reflexivity. Qed.
Print Assumptions C19_insert_null_refuted.
Theorem C19_self_assignment_refuted : forall K T (Ko : keyops K) (U : umap_impl K) (M : mf T) (m : table K T),
  exists m', t_self_copy Ko U M m = Done m' /\ t_list m' = [].
Proof. intros. eexists. split; reflexivity. Qed.
Print Assumptions C19_self_assignment_refuted.

(** The hypotheses are met: two histories that give the same map, in different orders. *)
Definition h1 : list (top (kkey k_entity_ref) (ty TestEntity)) :=
  [TInsert k1; TInsertSet k2 (te [x61] None); TNull k1; TErase k1; TInsertSet k1 (te [x62] (Some [x63]))].
Definition h2 : list (top (kkey k_entity_ref) (ty TestEntity)) :=
  [TInsertSet k1 (te [x62] (Some [x63])); TInsert k2; TIndexSet k2 (te [x61] None)].
Example C19_example : legal_run er_ops te_mf h1 (fun _ => None) /\ legal_run er_ops te_mf h2 (fun _ => None) /\
  exists m1 m2, t_run er_ops er_u te_mf h1 t_new = Done m1 /\ t_run er_ops er_u te_mf h2 t_new = Done m2 /\
    map (fun p => proj1_sig (fst p)) (t_list m1) = map (@proj1_sig _ _) [k2; k1] /\ map (fun p => proj1_sig (fst p)) (t_list m2) = map (@proj1_sig _ _) [k1; k2] /\
    t_equals er_ops te_mf m1 m2 = true /\
    t_equals er_ops te_mf m1 (t_assign er_ops k1 None m2) = false /\
    t_equals er_ops te_mf m1 (t_erase er_ops er_u k1 m2) = false.
Proof.
  split; [repeat split; vm_compute; congruence|]. split; [cbn [legal_run h2]; repeat split; try (vm_compute; congruence); vm_compute; eauto|].
  eexists _, _. split; [vm_compute; reflexivity|]. split; [vm_compute; reflexivity|]. repeat split; vm_compute; reflexivity.
Qed.

(** C20: for every entity class (every definition, see EntitySpec) that does not write zero bytes and every
    table of such entities: Write succeeds, and writes the keys and the entities; Read of the bytes into any table
    succeeds and gives a table with the same keys, the same null entities and identical entities. *)
Theorem C20_roundtrip : forall (U : forall t, umap_impl (key t)) k f s (m : table (kkey k) (ty s)) init lim fl, nonempty s -> s_sound s ->
  is_table m -> len (t_list m) < 2^63 -> (forall i x, In (i, Some x) (t_list m) -> s_ok s x /\ s_fits s x) ->
  let M := table_mf (kops k) (U (kt k)) (kzero k) (smf U s) f in
  room init lim (len (nodes_bytes fl (table_doc (kops k) (s_doc s) m))) ->
  exists s0 st, fresh init lim fl = Done s0 /\ m_write M 0 m (w_open s0) = Done (true, st) /\
    ws_data (w_stream st) = nodes_bytes fl (table_doc (kops k) (s_doc s) m) /\
    forall e old post, s_ok (STable k f s) old -> read_room e (ws_pos (w_stream st)) (ws_pos (w_stream st) + len post) ->
      exists m' st', m_read M e 0 old (r_open (RS (ws_data (w_stream st) ++ post) 0 fl)) = Done (true, m', st') /\
        is_table m' /\ same_map (kops k) (s_ident s) m' m /\
        r_stream st' = RS (ws_data (w_stream st) ++ post) (ws_pos (w_stream st)) fl.
Proof.
  intros U k f s m init lim fl Hn Hs Hm Hl He M Hr.
  destruct (t_s_roundtrip U (STable k f s) m init lim fl (conj Hn Hs) (conj Hm (fun i x H => proj1 (He i x H))) (conj Hl (fun i x H => proj2 (He i x H))) Hr)
    as (s0 & st & H1 & H2 & H3 & H4).
  exists s0, st. split; [exact H1|]. split; [exact H2|]. split; [exact H3|]. intros e old post Ho Hrr.
  destruct (H4 e old post Ho I Hrr) as (y & st' & E & ((Y1 & _) & Y2) & Y3). exists y, st'. auto.
Qed.
Print Assumptions C20_roundtrip.

(** C20, finding: an entity that writes zero bytes comes back as a null entity. *)
Theorem C20_zero_bytes_refuted : exists s0 st m' st',
  let M := table_mf er_ops er_u (kzero k_entity_ref) (smf ulasts E0) no_flags in
  fresh 64 100000 false = Done s0 /\ m_write M 0 (UMap [(k1, Some tt)] 0) (w_open s0) = Done (true, st) /\
  m_read M env0 0 t_new (r_open (RS (ws_data (w_stream st)) 0 false)) = Done (true, m', st') /\
  map snd (t_list m') = [None] /\ m_eq M m' (UMap [(k1, Some tt)] 0) = false.
Proof.
  eexists _, _, _, _. cbn zeta. split; [vm_compute; reflexivity|]. split; [vm_compute; reflexivity|]. split; [vm_compute; reflexivity|].
  split; vm_compute; reflexivity.
Qed.
Print Assumptions C20_zero_bytes_refuted.

(** C21: Validate of a table reports nothing iff no forbidden zero key, no forbidden null entity is present
    and every entity is valid, for every entity class. *)
Theorem C21_table : forall (U : forall t, umap_impl (key t)) k f s (m : table (kkey k) (ty s)), s_bounded s ->
  s_ok (STable k f s) m ->
  exists n0, forall n, (n0 <= n)%nat ->
    exists log, m_validate (table_mf (kops k) (U (kt k)) (kzero k) (smf U s) f) n m = Some log /\
      (log = [] <->
        (no_zero_keys f = true -> ~ exists v, In (kzero k, v) (t_list m)) /\
        (no_null_entities f = true -> ~ exists i, In (i, None) (t_list m)) /\
        (forall i x, In (i, Some x) (t_list m) -> s_valid s x)).
Proof. intros U k f s m Hb Hm. exact (proj1 (valid_both U) (STable k f s) m Hb Hm). Qed.
Print Assumptions C21_table.
(** C21: the zero key of every key type is the value whose bytes are all zero (false, the empty string). *)
Theorem C21_zero_key : forall k, proj1_sig (kzero k) = val_default (dshape (kt k)).
Proof.
  intros [t H Hi Hs]. unfold kzero, kops. cbn [kt kt_inf kt_sup key_ops k_of]. unfold to_key.
  destruct (Bool.bool_dec _ true) as [E|E]; [reflexivity|]. destruct E. destruct t as [|[]|[]|[]|[] []|[] []|[] []|[] []|[]| | | | |]; try discriminate H; reflexivity.
Qed.
Print Assumptions C21_zero_key.
(** C21: the same for a table of entities of any class with a Validate function, entry by entry. *)
Theorem C21_table_any : forall K T (Ko : keyops K) (U : umap_impl K) zero (M : mf T) f n (m : table K T), key_laws Ko -> is_table m ->
  (forall k x, In (k, Some x) (t_list m) -> exists l, m_validate M n x = Some l) ->
  exists log, m_validate (table_mf Ko U zero M f) n m = Some log /\
    (log = [] <-> (no_zero_keys f = true -> t_find Ko zero m = None) /\
                  (no_null_entities f = true -> forall k, t_find Ko k m <> Some None) /\
                  (forall k x, t_find Ko k m = Some (Some x) -> m_validate M n x = Some [])).
Proof. intros K T Ko U zero M f n m KL Hm H. apply t_validate_iff; assumption. Qed.
Print Assumptions C21_table_any.
(** C21: Validate of an IndexedVector reports InvalidCount iff there are more than 2^31-1 values, InvalidValue
    (if there are not) iff some index refers to no value, and nothing iff neither. *)
Theorem C21_indexed_vector : forall t o, iv_ok t o ->
  (In InvalidCount (iv_validate o) <-> 2^31 - 1 < len (iv_values o)) /\
  (len (iv_values o) <= 2^31 - 1 -> (In InvalidValue (iv_validate o) <-> exists i, In i (iv_index o) /\ ~ refers (iv_values o) i)) /\
  (iv_validate o = [] <-> len (iv_values o) <= 2^31 - 1 /\ forall i, In i (iv_index o) -> refers (iv_values o) i).
Proof. intros t o [_ H]. exact (t_iv_validate o H). Qed.
Print Assumptions C21_indexed_vector.

(** The hypotheses are met: a table with a null entity and two others is written and read back, into a table that
    is not empty, on an implementation with another order; flags decide what is reported. *)
Definition tb3 : table (kkey k_entity_ref) (ty TestEntity) := UMap [(k1, Some (te [x61] (Some [x62; x63]))); (k2, None); (kzero k_entity_ref, Some (te [] None))] 3.
Example C20_example :
  (nonempty TestEntity /\ s_sound TestEntity /\ s_bounded TestEntity /\ s_ok (STable k_entity_ref no_flags TestEntity) tb3 /\ s_fits (STable k_entity_ref no_flags TestEntity) tb3) /\
  room 64 100000 (len (nodes_bytes false (table_doc er_ops (s_doc TestEntity) tb3))) /\ read_room env0 (len (nodes_bytes false (table_doc er_ops (s_doc TestEntity) tb3)))
     (len (nodes_bytes false (table_doc er_ops (s_doc TestEntity) tb3))) /\
  exists s0 st m' st', let M u := table_mf er_ops u (kzero k_entity_ref) (smf ulasts TestEntity) in
    fresh 64 100000 false = Done s0 /\ m_write (M er_u no_flags) 0 tb3 (w_open s0) = Done (true, st) /\
    m_read (M (u_first (key TEntityRef)) no_flags) env0 0 (UMap [(k2, Some (te [x61] None))] 0) (r_open (RS (ws_data (w_stream st)) 0 false)) = Done (true, m', st') /\
    m_eq (M er_u no_flags) m' tb3 = true /\ map snd (t_list m') = rev (map snd (t_list tb3)) /\
    m_validate (M er_u (TFlags true true)) 0 tb3 = Some [NullNotAllowed; NullNotAllowed] /\
    m_validate (M er_u (TFlags false true)) 0 tb3 = Some [NullNotAllowed] /\
    m_validate (M er_u (TFlags false false)) 0 tb3 = Some [] /\
    m_validate (M er_u no_flags) 0 (t_erase er_ops er_u k2 (t_erase er_ops er_u (kzero k_entity_ref) tb3)) = Some [].
Proof.
  split.
  - split; [discriminate|]. split; [repeat split; vm_compute; discriminate|]. split; [exact I|]. split; [split|].
    + unfold is_table. cbn [tb3 t_list map fst].
      assert (D : forall a b : key TEntityRef, key_eq TEntityRef (proj1_sig a) (proj1_sig b) = false -> a <> b)
        by (intros a b H ->; revert H; pose proof (eqk_refl er_ops (klaws k_entity_ref) b) as X; cbn [er_ops kops key_ops k_eq k_entity_ref kt] in X; rewrite X; discriminate).
      repeat constructor; cbn [In]; intros H; repeat (destruct H as [H|H]; [revert H; apply D; vm_compute; reflexivity|]); destruct H.
    + intros i x [H|[H|[H|[]]]]; inversion H; subst; repeat split; vm_compute; auto; try discriminate.
    + split; [vm_compute; reflexivity|]. intros i x _. exact I.
  - split; [repeat split; vm_compute; congruence|]. split; [repeat split; vm_compute; congruence|].
    eexists _, _, _, _. cbv zeta beta. split; [vm_compute; reflexivity|]. split; [vm_compute; reflexivity|]. split; [vm_compute; reflexivity|].
    repeat split; vm_compute; reflexivity.
Qed.
