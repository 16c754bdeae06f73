(** * C57: the objects of all classes in the debug build and in the release build. [smf] are the member functions of the
    release build (EntityGen.v), [d_smf] those of the debug build (DebugClasses.v), where a check that fails throws. *)
From Verif Require Import Base Bytes BytesFacts Values Streams FileSpec Types Format EntityWriter EntityReader Items ItemSpec Sections Documents DocSpec
  Keys Containers StdSet Graph Classes Table IndexedVector DynTypes Varying EntityGen EntitySpec EntityFacts ReadAnySpec Debug DebugSpec DebugFacts
  DebugClasses DebugClassesSpec DebugClassesFacts Properties_Keys Properties_Entity Properties_Table Properties_Generated Properties_ReadAny.
Open Scope N_scope.

(** C57: Write of every class whose variables have names of at most 40 bytes does the same in both builds, for all objects,
    writers, streams and memory limits: the same result, the same bytes, the same exceptions; no check fails. *)
Theorem C57_write : forall U s, s_short s -> forall h x st, dm_write (d_smf U s) h x st = m_write (smf U s) h x st.
Proof. intros U s H. exact (proj1 (same_both U) s H). Qed.
Print Assumptions C57_write.

(** C57: a variable with a name of 41 to 255 bytes: Write in the debug build throws. *)
Theorem C57_long_name : forall U n t c r x st, 40 < len n -> len n < 256 -> (exists f, w_chain st = [f] /\ wf_id f = 0) ->
  dm_write (d_smf U (SEntity (FBase n t c r))) 0 x st = Throw.
Proof.
  intros U n t c r x st H1 H2 (f & E & Ef). cbn [d_smf d_fmf d_base dm_write]. unfold d_bf_write.
  match goal with |- bind ?m _ = _ => assert (T : m = Throw); [|rewrite T; reflexivity] end.
  unfold d_w_write. rewrite E. cbn [split_at]. rewrite Ef. cbn [N.eqb]. rewrite d_ew_write_eq, klen_long by assumption. reflexivity.
Qed.
Print Assumptions C57_long_name.

(** C57: Read of every class on a stream with any content does the same in both builds, or the debug build throws. Then the
    read does not succeed in the release build, and the stream holds a block of one of the indexed arrays of the
    class that is cut short. *)
Theorem C57_read : forall U s e data pos flip x, s_named s -> len data < 2^62 -> e_lim e < 2^60 -> pos <= len data ->
  s_ok s x -> s_dest s x ->
  let release := m_read (smf U s) e 0 x (r_open (RS data pos flip)) in
  let debug := dm_read (d_smf U s) e 0 x (r_open (RS data pos flip)) in
  debug = release \/ (debug = Throw /\ (forall y st, release <> Done (true, y, st)) /\ cut_array data flip pos (s_asks s)).
Proof. intros U s e data pos flip x. exact (t_debug_read U s e data pos flip x). Qed.
Print Assumptions C57_read.

(** C57: so an object that one build writes, the other one reads, identical, with anything behind it in the stream. *)
Theorem C57_exchange : forall U s x init lim fl, s_sound s -> s_named s -> s_ok s x -> s_fits s x ->
  room init lim (len (nodes_bytes fl (s_doc s x))) ->
  exists s0 st, fresh init lim fl = Done s0 /\
    m_write (smf U s) 0 x (w_open s0) = Done (true, st) /\ dm_write (d_smf U s) 0 x (w_open s0) = Done (true, st) /\
    forall e old post, s_ok s old -> s_dest s old -> read_room e (ws_pos (w_stream st)) (ws_pos (w_stream st) + len post) ->
      e_lim e < 2^60 -> len (ws_data (w_stream st) ++ post) < 2^62 ->
      let r := r_open (RS (ws_data (w_stream st) ++ post) 0 fl) in
      exists y st', m_read (smf U s) e 0 old r = Done (true, y, st') /\ dm_read (d_smf U s) e 0 old r = Done (true, y, st') /\ s_ident s y x.
Proof. exact t_debug_exchange. Qed.
Print Assumptions C57_exchange.

(** C57: Validate reports the same errors; no check in the validation of graphs fails. (Nodes are not strings.) *)
Theorem C57_validate : forall U s, s_nodes s -> forall n x, s_ok s x ->
  dm_validate (d_smf U s) n x = option_map Done (m_validate (smf U s) n x).
Proof. intros U s H. exact (proj1 (validates_both U) s H). Qed.
Print Assumptions C57_validate.

(** C57: all this holds for the entities of the project, and only Mesh has indexed arrays: for the others the builds
    never differ. *)
Theorem C57_project :
  Forall (fun s => s_short s /\ s_named s /\ s_nodes s) [Node; NodeGeometry; AttributeLayer; TestEntity; SceneLayer; Scene; Mesh] /\
  Forall (fun s => forall data flip pos, ~ cut_array data flip pos (s_asks s)) [Node; NodeGeometry; AttributeLayer; TestEntity; SceneLayer; Scene].
Proof.
  split.
  - repeat constructor; vm_compute; congruence.
  - repeat constructor; intros data flip pos (n & t & c & q & A & B & _); cbn in A;
    repeat match goal with H : _ \/ _ |- _ => destruct H | H : _ /\ _ |- _ => destruct H end; subst; try discriminate; try contradiction.
Qed.
Print Assumptions C57_project.

(** The hypotheses are met, and the builds do differ: in this Mesh the size of the block of a texture coordinate array was replaced, so
    that the block ends before the flags and the count of the array do. The release build fails, the debug build throws. *)
Definition mesh_cut : list byte := set_byte 170 x0a mesh0_bytes.
Example C57_example : s_ok Mesh (m_new (smf ulasts Mesh)) /\ s_dest Mesh (m_new (smf ulasts Mesh)) /\
  (exists y st, m_read (smf ulasts Mesh) env0 0 (m_new (smf ulasts Mesh)) (r_open (RS mesh_cut 0 false)) = Done (false, y, st)) /\
  dm_read (d_smf ulasts Mesh) env0 0 (m_new (smf ulasts Mesh)) (r_open (RS mesh_cut 0 false)) = Throw /\
  cut_array mesh_cut false 0 (s_asks Mesh) /\
  (exists y st, dm_read (d_smf ulasts Mesh) env0 0 (m_new (smf ulasts Mesh)) (r_open (RS mesh0_bytes 0 false)) = Done (true, y, st)).
Proof.
  split; [apply s_new_ok|]. split; [apply s_new_dest|].
  split; [eexists _, _; vm_compute; reflexivity|]. split; [vm_compute; reflexivity|]. split; [|eexists _, _; vm_compute; reflexivity].
  exists key_values, (TVec D2 F32), CtIdx, 169. split; [cbn; tauto|]. split; [auto|]. split; [vm_compute; split; discriminate|].
  exists 10, (drop 185 mesh_cut). split; [vm_compute; reflexivity|]. split; [reflexivity|]. split; [|vm_compute; repeat split; discriminate].
  left. exists 0x104, (drop 187 mesh_cut). split; [vm_compute; reflexivity|]. repeat split.
Qed.
(** A key of 41 bytes: the release build writes. *)
Example C57_long_example : exists s0 st, fresh 64 100000 false = Done s0 /\
  m_write (smf ulasts (SEntity (FBase (repeat x7a 41) TBool CtNone FNil))) 0 (CV (VB true), tt) (w_open s0) = Done (true, st) /\
  dm_write (d_smf ulasts (SEntity (FBase (repeat x7a 41) TBool CtNone FNil))) 0 (CV (VB true), tt) (w_open s0) = Throw.
Proof. eexists _, _. split; [vm_compute; reflexivity|]. split; vm_compute; reflexivity. Qed.
