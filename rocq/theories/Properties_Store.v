(** * C39, C40: objects in entity files; written forms as identities of objects. *)
From Verif Require Import Base Bytes BytesFacts Values Streams Types Format EntityWriter EntityReader Items ItemSpec Sections Documents DocSpec
  Keys KeySpec Containers ValueEqSpec StdSet Graph Classes Table IndexedVector DynTypes Varying VaryingSpec EntityGen EntitySpec EntityFacts EntityCodec
  CanonSpec CanonFacts SizeFacts Hex Sha256 Sha256Spec ShaSpec ShaFacts Loader LoaderSpec LoaderFacts StoreFacts
  Properties_Keys Properties_Entity Properties_Varying Properties_Table Properties_Generated Properties_Loader.
Open Scope N_scope.

(** ** C39 *)

(** C39: for every class and object (as in C32): the bytes that Write produces, followed by their SHA-256, are an entity
    file which every operating system that serves it, in any pieces, lets the loader load, unless a ReadFile fails; and
    Read, from the stream the loader delivers, into any object, gives an object identical to the one that was
    written, and uses all the data. *)
Theorem C39_store_load : forall U s x init lim, s_sound s -> s_ok s x -> s_fits s x -> room init lim (len (nodes_bytes false (s_doc s x))) ->
  exists s0 st, fresh init lim false = Done s0 /\ m_write (smf U s) 0 x (w_open s0) = Done (true, st) /\
    forall L o p f, computes_sha256 L -> intact f (ws_data (w_stream st)) -> serves o f -> os_open o p = true ->
      len f <= os_mem o -> len f < 2 ^ 61 ->
      exists bound, forall reads rounds, (bound <= reads)%nat -> (bound <= rounds)%nat ->
      exists e tr, load_file L reads rounds o p = (e, tr) /\
        (a_read_failed tr /\ e = Ended ECantRead None \/
         ~ a_read_failed tr /\ exists rs, e = Ended Loader.SOk (Some rs) /\
           forall en old, s_ok s old -> s_dest s old -> read_room en (len f) (len f) ->
           exists y st', m_read (smf U s) en 0 old (r_open rs) = Done (true, y, st') /\ s_ident s y x /\ rs_pos (r_stream st') = rs_size rs).
Proof. exact t_store. Qed.
Print Assumptions C39_store_load.

(** C39: whatever the operating system delivers (a damaged, truncated or replaced file): if the load is Ok and the
    digest at the end of the file is the one recorded when the object was written, then Read gives an object identical to
    the one that was written, or two different byte strings with the same SHA-256 are known. *)
Theorem C39_digest_identifies : forall U s x init lim s0 st, s_sound s -> s_ok s x -> s_fits s x ->
  room init lim (len (nodes_bytes false (s_doc s x))) ->
  fresh init lim false = Done s0 -> m_write (smf U s) 0 x (w_open s0) = Done (true, st) ->
  forall L o p, computes_sha256 L -> within_requests o -> (forall n, os_size o = Some n -> n < 2 ^ 61) ->
  forall reads rounds rs tr, load_file L reads rounds o p = (Ended Loader.SOk (Some rs), tr) ->
  drop (len (delivered tr) - 32) (delivered tr) = sha256 (ws_data (w_stream st)) ->
  (exists other, other <> ws_data (w_stream st) /\ sha256 other = sha256 (ws_data (w_stream st))) \/
  forall en old, s_ok s old -> s_dest s old -> read_room en (len (delivered tr)) (len (delivered tr)) ->
    exists y st', m_read (smf U s) en 0 old (r_open rs) = Done (true, y, st') /\ s_ident s y x.
Proof. exact t_authentic. Qed.
Print Assumptions C39_digest_identifies.

(** C39, finding: the file does not say in which byte order the object was written, and the loader's stream does not swap
    bytes: an object with one u32 variable, written with the other byte order, is loaded and read without an error, with
    another value. *)
Definition OneNumber : schema := SEntity (FBase k_ab (TUInt I32) CtNone FNil).
Definition number (b : list byte) : ty OneNumber := (CV (VP b), tt).
Theorem C39_byte_order_refuted :
  exists s0 st rs st', fresh 64 100000 true = Done s0 /\
    m_write (smf ulasts OneNumber) 0 (number [x01; x00; x00; x00]) (w_open s0) = Done (true, st) /\
    fst (load_file block_lib 10 5 (serve10 (ws_data (w_stream st) ++ sha256 (ws_data (w_stream st)))) [100]) = Ended Loader.SOk (Some rs) /\
    m_read (smf ulasts OneNumber) env0 0 (m_new (smf ulasts OneNumber)) (r_open rs) = Done (true, number [x00; x00; x00; x01], st').
Proof. eexists _, _, _, _. split; [vm_compute; reflexivity|]. split; [vm_compute; reflexivity|]. split; [vm_compute; reflexivity|]. vm_compute. reflexivity. Qed.
Print Assumptions C39_byte_order_refuted.

(** A concrete case: a node entity in a file that is served 10 bytes at a time; with one byte changed the file is
    refused. *)
Definition node1 : ty Node := node0 (CV (VP (repeat x00 12))).
Definition node1_file : list byte := let b := nodes_bytes false (s_doc Node node1) in b ++ sha256 b.
Example C39_example : s_sound Node /\ s_ok Node node1 /\ s_fits Node node1 /\
  room 64 100000 (len (nodes_bytes false (s_doc Node node1))) /\ intact node1_file (nodes_bytes false (s_doc Node node1)) /\
  (exists rs y st', fst (load_file block_lib 100 5 (serve10 node1_file) [100]) = Ended Loader.SOk (Some rs) /\
    m_read (smf ulasts Node) env0 0 (m_new (smf ulasts Node)) (r_open rs) = Done (true, y, st') /\ y = node1) /\
  fst (load_file block_lib 100 5 (serve10 (x00 :: tl node1_file)) [100]) = Ended ECorrupted None.
Proof.
  split; [repeat constructor; vm_compute; discriminate|]. split; [repeat split; vm_compute; auto|]. split; [exact I|].
  split; [repeat split; vm_compute; congruence|]. split; [reflexivity|]. split; [|vm_compute; reflexivity].
  eexists _, _, _. split; [vm_compute; reflexivity|]. split; [vm_compute; reflexivity|]. vm_compute. reflexivity.
Qed.

(** ** C40 *)

(** C40: for every class: if what Write produces for two objects is the same, or begins a stream in the same way, then
    the objects are identical, and the data behind them is the same: no written form is a proper prefix of another
    one. *)
Theorem C40_prefix_free : forall U s x y init lim fl s0 st1 st2, s_sound s -> s_ok s x -> s_ok s y -> s_fits s x -> s_fits s y ->
  room init lim (len (nodes_bytes fl (s_doc s x))) -> room init lim (len (nodes_bytes fl (s_doc s y))) ->
  fresh init lim fl = Done s0 ->
  m_write (smf U s) 0 x (w_open s0) = Done (true, st1) -> m_write (smf U s) 0 y (w_open s0) = Done (true, st2) ->
  forall p q, ws_data (w_stream st1) ++ p = ws_data (w_stream st2) ++ q -> s_ident s x y /\ p = q.
Proof.
  intros U s x y init lim fl s0 st1 st2 Hs Hx Hy Fx Fy Rx Ry E0 E1 E2 p q. 
  rewrite (written U s x init lim fl s0 st1), (written U s y init lim fl s0 st2) by assumption.
  apply prefix_free; auto; unfold room in Rx, Ry; lia.
Qed.
Print Assumptions C40_prefix_free.

(** C40: for classes without tables the written form is determined by the object: identical objects, such as an object
    and its copy, or an object and what Read made of it, are written as the same bytes, and so have the same
    digest. *)
Theorem C40_canonical : forall U s x y init lim fl s0 st1 st2, s_tableless s -> s_sound s -> s_ok s x -> s_ok s y -> s_fits s x -> s_fits s y ->
  room init lim (len (nodes_bytes fl (s_doc s x))) -> room init lim (len (nodes_bytes fl (s_doc s y))) ->
  fresh init lim fl = Done s0 ->
  m_write (smf U s) 0 x (w_open s0) = Done (true, st1) -> m_write (smf U s) 0 y (w_open s0) = Done (true, st2) ->
  (ws_data (w_stream st1) = ws_data (w_stream st2) <-> s_ident s x y).
Proof.
  intros U s x y init lim fl s0 st1 st2 Ht Hs Hx Hy Fx Fy Rx Ry E0 E1 E2. split.
  - intros E. apply (C40_prefix_free U s x y init lim fl s0 st1 st2 Hs Hx Hy Fx Fy Rx Ry E0 E1 E2 [] []). rewrite E. reflexivity.
  - intros H. rewrite (written U s x init lim fl s0 st1), (written U s y init lim fl s0 st2) by assumption. f_equal. apply canon_both; assumption.
Qed.
Print Assumptions C40_canonical.

(** C40: with tables, identical objects have written forms of the same length. *)
Theorem C40_same_size : forall U s x y init lim fl s0 st1 st2, s_sound s -> s_ok s x -> s_ok s y -> s_fits s x -> s_fits s y ->
  room init lim (len (nodes_bytes fl (s_doc s x))) -> room init lim (len (nodes_bytes fl (s_doc s y))) ->
  fresh init lim fl = Done s0 ->
  m_write (smf U s) 0 x (w_open s0) = Done (true, st1) -> m_write (smf U s) 0 y (w_open s0) = Done (true, st2) ->
  s_ident s x y -> len (ws_data (w_stream st1)) = len (ws_data (w_stream st2)).
Proof.
  intros U s x y init lim fl s0 st1 st2 Hs Hx Hy Fx Fy Rx Ry E0 E1 E2 H.
  rewrite (written U s x init lim fl s0 st1), (written U s y init lim fl s0 st2) by assumption. apply size_both; assumption.
Qed.
Print Assumptions C40_same_size.

(** C40, finding: with tables, an object and its own copy can be written as different bytes, and so have different
    digests (here: an implementation of std::unordered_map that puts new entries in front). *)
Definition ufirsts : forall t, umap_impl (key t) := fun t => u_first (key t).
Definition TwoEntries : schema := STable k_entity_ref (TFlags false false) TestEntity.
Definition two0 : ty TwoEntries := UMap [(k1, Some (te [x41] None)); (k2, Some (te [x42] None))] 0.
Theorem C40_copy_refuted : s_ok TwoEntries two0 /\ exists y s0 st1 st2, m_copy (smf ufirsts TwoEntries) (m_new (smf ufirsts TwoEntries)) (Some two0) = Done y /\
  m_eq (smf ufirsts TwoEntries) y two0 = true /\ fresh 64 100000 false = Done s0 /\
  m_write (smf ufirsts TwoEntries) 0 two0 (w_open s0) = Done (true, st1) /\ m_write (smf ufirsts TwoEntries) 0 y (w_open s0) = Done (true, st2) /\
  sha256 (ws_data (w_stream st1)) <> sha256 (ws_data (w_stream st2)).
Proof.
  split.
  - split; [change (NoDup [k1; k2]); constructor; [intros [H|[]]; discriminate|constructor; [intros []|constructor]]|].
    intros i x [H|[H|[]]]; inversion H; subst; repeat split; vm_compute; auto.
  - eexists _, _, _, _. split; [vm_compute; reflexivity|]. split; [vm_compute; reflexivity|]. split; [vm_compute; reflexivity|].
    split; [vm_compute; reflexivity|]. split; [vm_compute; reflexivity|]. vm_compute. discriminate.
Qed.
Print Assumptions C40_copy_refuted.
(** Equal objects that are not identical (0 and -0) are written as different bytes. *)
Theorem C40_equal_refuted : let x := node0 (CV (VP (repeat x00 12))) in let y := node0 (CV (VP (repeat x00 11 ++ [x80]))) in
  m_eq (smf ulasts Node) x y = true /\ exists s0 st1 st2, fresh 64 100000 false = Done s0 /\
  m_write (smf ulasts Node) 0 x (w_open s0) = Done (true, st1) /\ m_write (smf ulasts Node) 0 y (w_open s0) = Done (true, st2) /\
  ws_data (w_stream st1) <> ws_data (w_stream st2).
Proof.
  split; [vm_compute; reflexivity|]. eexists _, _, _. split; [vm_compute; reflexivity|]. split; [vm_compute; reflexivity|]. split; [vm_compute; reflexivity|].
  vm_compute. discriminate.
Qed.
Print Assumptions C40_equal_refuted.

(** The hypotheses are met: Node, NodeGeometry, AttributeLayer and TestEntity have no tables, SceneLayer, Scene and
    Mesh do; two nodes that differ in their name. *)
Example C40_example : Forall s_tableless [Node; NodeGeometry; AttributeLayer; TestEntity] /\ ~ s_tableless Scene /\ ~ s_tableless SceneLayer /\ ~ s_tableless Mesh /\
  exists s0 st1 st2, fresh 64 100000 false = Done s0 /\
  m_write (smf ulasts Node) 0 node1 (w_open s0) = Done (true, st1) /\
  m_write (smf ulasts Node) 0 (CV (VS [x6d]), snd node1) (w_open s0) = Done (true, st2) /\
  ws_data (w_stream st1) <> ws_data (w_stream st2) /\ len (ws_data (w_stream st1)) = len (ws_data (w_stream st2)).
Proof.
  split; [repeat constructor|]. split; [cbn; tauto|]. split; [cbn; tauto|]. split; [cbn; tauto|].
  eexists _, _, _. split; [vm_compute; reflexivity|]. split; [vm_compute; reflexivity|]. split; [vm_compute; reflexivity|].
  split; vm_compute; [discriminate|reflexivity].
Qed.
