(** * C38: reading objects from arbitrary bytes, for every class. *)
From Verif Require Import Base Bytes Values Streams Types Format EntityWriter EntityReader Items ItemSpec Sections Documents DocSpec
  Keys KeySpec Containers StdSet Graph Classes Table IndexedVector DynTypes Varying VaryingSpec EntityGen EntitySpec EntityFacts EntityCodec
  ReadAnySpec ReadAny Damage Properties_Entity Properties_Varying Properties_Table Properties_Generated.
Open Scope N_scope.

(** C38: for every class (names of 1 to 40 bytes), every object of it (vectors of references: empty), every content of the
    stream, every position and both byte orders, Read returns, with success or failure, or it throws an exception, which
    it can do only if the class has strings or arrays and if the memory for four times the data was not available or the
    sizes of a block with the name of one of these strings or arrays are damaged (behind the position, in one of the ways
    of Damage.v); its behaviour is defined, unless the class has arrays of vectors, matrices or quaternions, or Varyings,
    and there is a block with the name of such an array whose item count is no multiple of the number of components. When it returns, also with failure, the destination is an object of the class
    (sets are sorted, no key is twice in a table, values have the type of their variable); the stream still has its
    content, and its position has not moved backwards and not beyond the end. *)
Theorem C38_any_bytes : forall U s e data pos flip x,
  s_named s -> len data < 2^62 -> e_lim e < 2^60 -> pos <= len data -> s_ok s x -> s_dest s x ->
  match m_read (smf U s) e 0 x (r_open (RS data pos flip)) with
  | Done (ok, y, st) => s_ok s y /\ rs_data (r_stream st) = data /\ rs_flip (r_stream st) = flip /\ pos <= rs_pos (r_stream st) <= len data
  | Throw => s_allocates s /\ refused (e_lim e) data flip pos (s_asks s)
  | Undef => s_risky s /\ overrun data flip pos (s_asks s)
  end.
Proof.
  intros U s e data pos flip x H1 H2 H3 H4 H5 H6. pose proof (t_read_any U s e data pos flip x H1 H2 H3 H4 H5 H6) as H.
  destruct (m_read _ _ _ _ _) as [[[ok y] st]| |]; try exact H. destruct H as (A & _ & B). split; assumption.
Qed.
Print Assumptions C38_any_bytes.

(** C38: an object that was read, from whatever bytes, can be written, in both byte orders, and what is written is read
    back as an identical object. *)
Theorem C38_rewrite : forall U s e data pos flip x y st,
  s_named s -> s_sound s -> len data < 2^62 -> e_lim e < 2^60 -> pos <= len data -> s_ok s x -> s_dest s x ->
  m_read (smf U s) e 0 x (r_open (RS data pos flip)) = Done (true, y, st) ->
  forall init lim flip2, room init lim (len (nodes_bytes flip2 (s_doc s y))) ->
  exists s0 wst, fresh init lim flip2 = Done s0 /\ m_write (smf U s) 0 y (w_open s0) = Done (true, wst) /\
    forall e2 old, s_ok s old -> s_dest s old -> read_room e2 (ws_pos (w_stream wst)) (ws_pos (w_stream wst)) ->
    exists z st2, m_read (smf U s) e2 0 old (r_open (RS (ws_data (w_stream wst)) 0 flip2)) = Done (true, z, st2) /\ s_ident s z y.
Proof.
  intros U s e data pos flip x y st H1 Hs H2 H3 H4 H5 H6 E init lim flip2 Hr. pose proof (t_read_any U s e data pos flip x H1 H2 H3 H4 H5 H6) as H.
  rewrite E in H. destruct H as (A & B & _). destruct (t_s_roundtrip U s y init lim flip2 Hs A (B eq_refl) Hr) as (s0 & wst & E0 & E1 & _ & Q).
  exists s0, wst. split; [exact E0|]. split; [exact E1|]. intros e2 old Ho Hd Hrr.
  destruct (Q e2 old [] Ho Hd) as (z & st2 & Ez & (_ & I2) & _); [change (len (@nil byte)) with 0; rewrite N.add_0_r; exact Hrr|].
  rewrite app_nil_r in Ez. exists z, st2. split; assumption.
Qed.
Print Assumptions C38_rewrite.

(** C38: the entities of the project have good names; only Mesh has arrays of vectors and Varyings. *)
Theorem C38_project_entities :
  Forall s_named [Node; NodeGeometry; AttributeLayer; TestEntity; SceneLayer; Scene; Mesh] /\
  Forall (fun s => ~ s_risky s) [Node; NodeGeometry; AttributeLayer; TestEntity; SceneLayer; Scene] /\ s_risky Mesh /\
  ~ s_allocates NodeGeometry.
Proof.
  split; [repeat constructor; vm_compute; congruence|].
  split; [repeat constructor; cbn; tauto|]. split; cbn; [tauto|]. intros [[]|[X|[]]]; discriminate X.
Qed.
Print Assumptions C38_project_entities.

(** C38, finding: the item count of an array of vectors is not checked (C13_component_count_refuted): a Mesh written by the
    library in which one byte, the item count 4 of a texture coordinate array, was replaced by 3, makes Mesh::MF::Read write
    behind the vector. *)
Definition vec2 (b : byte) : val := VP (repeat b 8).
Definition mesh0 : ty Mesh :=
  (UMap [] 0, (UMap [(k1, Some (IVec [vec2 x01; vec2 x02] [0; 1]))] 1, (UMap [] 0, (UMap [] 0, (UMap [] 0, (UMap [] 0, (UMap [] 0, tt))))))).
Definition mesh0_bytes : list byte := nodes_bytes false (s_doc Mesh mesh0).
Definition set_byte (i : nat) (b : byte) (l : list byte) : list byte := firstn i l ++ b :: skipn (S i) l.
Theorem C38_mesh_refuted : nth 187 mesh0_bytes x00 = x04 /\
  (exists y st, m_read (smf ulasts Mesh) env0 0 (m_new (smf ulasts Mesh)) (r_open (RS mesh0_bytes 0 false)) = Done (true, y, st)) /\
  m_read (smf ulasts Mesh) env0 0 (m_new (smf ulasts Mesh)) (r_open (RS (set_byte 187 x03 mesh0_bytes) 0 false)) = Undef.
Proof.
  split; [vm_compute; reflexivity|]. split; [|vm_compute; reflexivity]. eexists _, _. vm_compute. reflexivity.
Qed.
Print Assumptions C38_mesh_refuted.

(** C38, finding: the generated Read functions ignore the result of EndReadSection: an object whose section contains more
    than the object is accepted, and the rest of the section is read as the variables that follow. Here the entity has
    the variables "ab" (an entity with the variable "Name") and "flag"; in the stream "flag" is inside the section "ab". *)
Definition Inner : schema := SEntity (FBase s_Name TString CtNone FNil).
Definition k_flag : list byte := [x66; x6c; x61; x67].
Definition Outer : schema := SEntity (FClass k_ab Inner (FBase k_flag TBool CtNone FNil)).
Theorem C38_section_end_refuted :
  let data := nodes_bytes false (Cons (NSection k_ab (Cons (NItem (Item TString s_Name (CV (VS [x4e])))) (Cons (NItem (Item TBool k_flag (CV (VB true)))) Nil))) Nil) in
  let y : ty Outer := ((CV (VS [x4e]), tt), (CV (VB true), tt)) in
  (exists st, m_read (smf ulasts Outer) env0 0 (m_new (smf ulasts Outer)) (r_open (RS data 0 false)) = Done (true, y, st)) /\
  nodes_bytes false (s_doc Outer y) <> data.
Proof. cbv zeta. split; [eexists; vm_compute; reflexivity|]. vm_compute. discriminate. Qed.
Print Assumptions C38_section_end_refuted.

(** The hypotheses are met, with success, failure and an exception: reading a TestEntity from its own bytes, from these with
    another byte order, from 100 zero bytes, and with a damaged length field. *)
Definition te0 : ty TestEntity := (CV (VS [x41; x42]), (COpt (Some (VS [x43])), tt)).
Definition te0_bytes : list byte := nodes_bytes false (s_doc TestEntity te0).
Definition read_te (data : list byte) (flip : bool) := m_read (smf ulasts TestEntity) env0 0 te0 (r_open (RS data 0 flip)).
Example C38_example : s_named TestEntity /\ s_ok TestEntity te0 /\ s_dest TestEntity te0 /\ s_sound TestEntity /\
  (exists st, read_te te0_bytes false = Done (true, te0, st)) /\ (exists st, read_te te0_bytes true = Done (false, te0, st)) /\
  (exists st, read_te (repeat x00 100) false = Done (false, te0, st)) /\
  read_te (n2b 0xe0 :: num W64 false 6 ++ n2b 4 :: s_Name ++ num W64 false (2^40)) false = Throw.
Proof.
  split; [repeat constructor; vm_compute; congruence|]. split; [repeat split|]. split; [repeat split|].
  split; [split; [vm_compute; congruence|split; [vm_compute; congruence|exact I]]|].
  split; [eexists; vm_compute; reflexivity|]. split; [eexists; vm_compute; reflexivity|]. split; [eexists; vm_compute; reflexivity|]. vm_compute. reflexivity.
Qed.
(** The reasons: in the last stream the length of the string "Name" is beyond the end of its block; in the damaged Mesh the
    array "Values" has 3 numbers for vectors with two components. *)
Example C38_reasons :
  refused (e_lim env0) (n2b 0xe0 :: num W64 false 6 ++ n2b 4 :: s_Name ++ num W64 false (2^40)) false 0 (s_asks TestEntity) /\
  overrun (set_byte 187 x03 mesh0_bytes) false 0 (s_asks Mesh).
Proof.
  split.
  - exists s_Name, TString, CtNone. split; [left; auto|]. split; [right; reflexivity|]. right. exists 0. split; [vm_compute; split; discriminate|].
    left. split; [exact (fun x => x)|]. split; [reflexivity|]. exists 6, (num W64 false (2^40)). split; [split; [reflexivity|]|]; vm_compute; reflexivity.
  - exists key_values, (TVec D2 F32), CtIdx, 169. split; [cbn; tauto|]. split; [split; [exact I|discriminate]|]. split; [vm_compute; split; discriminate|].
    exists (KW W32), 2, 49, (drop 211 mesh0_bytes), 0x104, 3, (Some [0; 1]). split; [reflexivity|]. split; [|vm_compute; split; [reflexivity|discriminate]].
    split; [reflexivity|]. vm_compute. reflexivity.
Qed.
