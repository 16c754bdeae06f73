(** * C37: data whose end was lost is never read as if it were complete. *)
From Verif Require Import Base Bytes BytesFacts Values Streams Types Format EntityWriter EntityReader EntitySafety Items ItemSpec EntityProps EntityTheorems Sections Documents DocSpec
  SectionTheorems CodecFacts Keys Containers Classes Table EntityGen EntitySpec EntityCodec TruncSpec Truncation EntityTrunc
  Properties_Entity Properties_Table Properties_Generated.
Open Scope N_scope.

(** C37, items: items of any types and containers, under keys of 1 to 40 bytes, are written; the bytes are cut off
    anywhere, before the first byte, between or inside items. Reading the items, wherever the bytes stand in
    the stream, returns false. It does not throw and touches no other memory. *)
Theorem C37_items_cut : forall init lim fl ws rs,
  Forall item_ok ws -> Forall (fun i => 0 < len (i_key i)) ws -> Forall2 mirrors ws rs -> room init lim (len (items_image fl ws)) ->
  exists s0 s, fresh init lim fl = Done s0 /\ write_all ws s0 = Done (true, s) /\
    forall e pre p, cut_off p (ws_data s) -> 4 * ws_pos s <= e_lim e -> len pre + ws_pos s < 2^62 ->
      exists vs s', read_all e rs (RS (pre ++ p) (len pre) fl) = Done (false, vs, s').
Proof. exact t_items_cut. Qed.
Print Assumptions C37_items_cut.

(** C37, documents: the same for items, sections and arrays of sections, nested in any way. *)
Theorem C37_documents_cut : forall init lim fl w,
  nodes_ok w -> nodes_keyed w -> room init lim (len (nodes_bytes fl w)) ->
  exists s0 st, fresh init lim fl = Done s0 /\ write_nodes 0 w (w_open s0) = Done (true, st) /\
    forall e r pre p, nodes_mirror w r -> cut_off p (ws_data (w_stream st)) ->
      4 * ws_pos (w_stream st) <= e_lim e -> len pre + ws_pos (w_stream st) < 2^62 ->
      exists x st', read_nodes e 0 r (r_open (RS (pre ++ p) (len pre) fl)) = Done (false, x, st').
Proof. exact t_documents_cut. Qed.
Print Assumptions C37_documents_cut.

(** C37, objects of every class: generated entities, graphs, tables, indexed vectors, Varying. *)
Theorem C37_objects_cut : forall U s x init lim fl, s_sound s -> s_named s -> s_ok s x -> s_fits s x ->
  room init lim (len (nodes_bytes fl (s_doc s x))) ->
  exists s0 st, fresh init lim fl = Done s0 /\ m_write (smf U s) 0 x (w_open s0) = Done (true, st) /\
    forall e old pre p, s_ok s old -> s_dest s old -> cut_off p (ws_data (w_stream st)) ->
      4 * ws_pos (w_stream st) <= e_lim e -> len pre + ws_pos (w_stream st) < 2^62 ->
      exists y st', m_read (smf U s) e 0 old (r_open (RS (pre ++ p) (len pre) fl)) = Done (false, y, st').
Proof. exact t_objects_cut. Qed.
Print Assumptions C37_objects_cut.
(** All entities of the project have names. *)
Theorem C37_project_entities : Forall s_named [Node; NodeGeometry; AttributeLayer; TestEntity; SceneLayer; Scene; Mesh].
Proof. repeat constructor. Qed.
Print Assumptions C37_project_entities.

(** C37, finding: with an empty key it fails. An optional string with a value, cut off inside the size of its block,
    is read successfully, as absent. *)
Theorem C37_empty_key_refuted :
  let v := COpt (Some (VS [x41; x42])) in
  exists s0 s p s', item_ok (Item TString [] v) /\ fresh 64 100000 false = Done s0 /\ write_all [Item TString [] v] s0 = Done (true, s) /\
    cut_off p (ws_data s) /\ read_all env0 [Item TString [] (COpt None)] (RS p 0 false) = Done (true, [COpt None], s').
Proof.
  eexists _, _, _, _. split; [repeat split; vm_compute; congruence|]. split; [vm_compute; reflexivity|]. split; [vm_compute; reflexivity|].
  split; [eexists; split; [|match goal with |- ?d = _ => let d' := eval vm_compute in d in change d with d'; exact (eq_sym (firstn_skipn 1 d')) end]|vm_compute; reflexivity].
  vm_compute. discriminate.
Qed.
Print Assumptions C37_empty_key_refuted.

(** The hypotheses are met: the scene of C32, cut off before its last byte. *)
Example C37_example : s_sound Scene /\ s_named Scene /\ s_ok Scene scene0 /\ s_fits Scene scene0 /\
  let b := nodes_bytes true (s_doc Scene scene0) in
  cut_off (take (len b - 1) b) b /\
  (exists y st', m_read (smf ulasts Scene) env0 0 (m_new (smf ulasts Scene)) (r_open (RS (take (len b - 1) b) 0 true)) = Done (false, y, st')) /\
  (exists y st', m_read (smf ulasts Scene) env0 0 (m_new (smf ulasts Scene)) (r_open (RS b 0 true)) = Done (true, y, st')).
Proof.
  split; [|split; [|split; [|split; [|cbv zeta; split; [|split]]]]].
  - exact (Forall_inv (Forall_inv_tail (Forall_inv_tail (Forall_inv_tail (Forall_inv_tail (Forall_inv_tail (proj1 C32_project_entities))))))).
  - repeat constructor.
  - apply C32_example.
  - apply C32_example.
  - exists [last (nodes_bytes true (s_doc Scene scene0)) x00]. split; [discriminate|vm_compute; reflexivity].
  - eexists _, _. vm_compute. reflexivity.
  - eexists _, _. vm_compute. reflexivity.
Qed.
