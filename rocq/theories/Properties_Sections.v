(** * Properties C08 (sections), C11, C12: sections and arrays of sections.
    Statements only. Reading guide: [write_nodes]/[read_nodes] are the call sequences (Documents.v) over
    the model of the calls (Sections.v, Protocol.v); [nodes_bytes]/[nodes_ok]/[nodes_mirror]/[nodes_seen]
    the specification of documents (DocSpec.v); [wtrack]/[rtrack] what a history of calls and results
    says about an object (ProtocolSpec.v). *)
From Verif Require Import Base Bytes Values FileSpec Streams Types Format Accept EntityWriter EntityReader Items ItemSpec
  Sections Documents DocSpec Protocol ProtocolSpec SectionTheorems ProtocolProofs Properties_Entity.
Open Scope N_scope.

(** C11. Any document in which every section has content is written successfully, and the mirrored
    reading calls, with any destinations and whatever follows in the stream, find exactly it and stop
    where the writer stopped. *)
Theorem C11_documents_roundtrip : forall init lim fl w,
  nodes_ok w -> nodes_full w -> room init lim (len (nodes_bytes fl w)) ->
  exists s0 st, fresh init lim fl = Done s0 /\ write_nodes 0 w (w_open s0) = Done (true, st) /\
    forall e r post, nodes_mirror w r -> read_room e (ws_pos (w_stream st)) (ws_pos (w_stream st) + len post) ->
      exists st', read_nodes e 0 r (r_open (RS (ws_data (w_stream st) ++ post) 0 fl)) = Done (true, w, st') /\
        r_stream st' = RS (ws_data (w_stream st) ++ post) (ws_pos (w_stream st)) fl.
Proof. exact t_doc_full. Qed.
Print Assumptions C11_documents_roundtrip.

(** C11. Any document at all: the bytes are those of the documented layout, and the only difference
    found by the reader is that a section without content is absent. *)
Theorem C11_documents_seen : forall init lim fl w,
  nodes_ok w -> room init lim (len (nodes_bytes fl w)) ->
  exists s0 st, fresh init lim fl = Done s0 /\ write_nodes 0 w (w_open s0) = Done (true, st) /\
    ws_data (w_stream st) = nodes_bytes fl w /\
    forall e r post, nodes_mirror w r -> read_room e (ws_pos (w_stream st)) (ws_pos (w_stream st) + len post) ->
      exists st', read_nodes e 0 r (r_open (RS (ws_data (w_stream st) ++ post) 0 fl)) = Done (true, nodes_seen w, st') /\
        r_stream st' = RS (ws_data (w_stream st) ++ post) (ws_pos (w_stream st)) fl.
Proof. exact t_doc. Qed.
Print Assumptions C11_documents_seen.

(** C11, finding: a section that was opened and closed without content is read as absent. *)
Theorem C11_empty_section_refuted :
  let w := Cons (NSection k_ab Nil) Nil in
  nodes_ok w /\ nodes_mirror w w /\ nodes_seen w = Cons (NNullSection k_ab) Nil /\
  nodes_bytes false w = nodes_bytes false (Cons (NNullSection k_ab) Nil).
Proof. cbn. repeat split. vm_compute. discriminate. Qed.
Print Assumptions C11_empty_section_refuted.

(** C08. Sections and arrays of sections are self-delimiting too: skipping by headers alone passes
    exactly over the top level of any document. *)
Theorem C08_skip_documents : forall init lim fl w s0 st post,
  nodes_ok w -> room init lim (len (nodes_bytes fl w)) ->
  fresh init lim fl = Done s0 -> write_nodes 0 w (w_open s0) = Done (true, st) ->
  skip_blocks fl (nodes_count w) (ws_data (w_stream st) ++ post) = Some post.
Proof. exact t_skip_doc. Qed.
Print Assumptions C08_skip_documents.

(** C12, writer. After any history of calls on a writer and the writers it returned, and for any of
    them still alive: BeginWriteSectionInArray succeeds when it names the open array, the number
    of sections begun so far and a number below the array size (unless an exception leaves it), and
    otherwise returns false and changes nothing. *)
Theorem C12_write_section_in_array : forall s hist st h arg i, whist s hist st -> wlive h st ->
  let g := wtrack h hist in
  (arg = os_active g /\ i = os_begun g /\ i < os_size g ->
     match w_begin_in h arg i st with Done (ok, _) => ok = true | _ => True end) /\
  (arg <> os_active g \/ i <> os_begun g \/ os_size g <= i -> w_begin_in h arg i st = Done (false, st)).
Proof. exact w_in_array. Qed.
Print Assumptions C12_write_section_in_array.

(** EndWriteSectionsArray is refused, without any change, for another writer and as long as not all
    sections were begun. *)
Theorem C12_write_end_array : forall s hist st h arg, whist s hist st -> wlive h st ->
  let g := wtrack h hist in
  arg <> os_active g \/ os_begun g <> os_size g -> w_end_arr h arg st = Done (false, st).
Proof. exact w_end_array. Qed.
Print Assumptions C12_write_end_array.

(** The other two end calls are refused for another writer, and no second section can be opened. *)
Theorem C12_write_other_writer : forall s hist st h arg i, whist s hist st -> wlive h st ->
  let g := wtrack h hist in
  arg <> os_active g -> w_end h arg st = Done (false, st) /\ w_end_in h arg i st = Done (false, st).
Proof. exact w_other_handle. Qed.
Print Assumptions C12_write_other_writer.
(** EndWriteSectionInArray is refused, without any change, unless it names the section begun last. (The
    mod: with no section begun it takes ~0, see C12_end_before_begin_refuted.) *)
Theorem C12_write_end_in_array : forall s hist st h arg i, whist s hist st -> wlive h st ->
  let g := wtrack h hist in
  arg <> os_active g \/ (i + 1) mod two64 <> os_begun g -> w_end_in h arg i st = Done (false, st).
Proof. exact w_end_in_refused. Qed.
Print Assumptions C12_write_end_in_array.
Theorem C12_write_already_open : forall s hist st h key size ix, whist s hist st -> wlive h st ->
  os_active (wtrack h hist) <> None -> w_begin h key st = Done (None, st) /\ w_begin_arr h key size ix st = Done (None, st).
Proof. exact w_already_open. Qed.
Print Assumptions C12_write_already_open.

(** C12, reader: the same on any stream, corrupt or not, as long as no BeginReadSectionsArray failed.
    (Success is stated for the variant that accepts elements without content.) *)
Theorem C12_read_section_in_array : forall e s hist st h arg i opt, rhist e s hist st -> no_failed_array hist -> rlive h st ->
  let g := rtrack h hist in
  (arg = os_active g /\ i = os_begun g /\ i < os_size g ->
     match r_begin_in h arg i true st with Done (ok, _, _) => ok = true | _ => True end) /\
  (arg <> os_active g \/ i <> os_begun g \/ os_size g <= i -> r_begin_in h arg i opt st = Done (false, false, st)).
Proof. exact r_in_array. Qed.
Print Assumptions C12_read_section_in_array.
Theorem C12_read_end_array : forall e s hist st h arg, rhist e s hist st -> no_failed_array hist -> rlive h st ->
  let g := rtrack h hist in
  arg <> os_active g \/ os_begun g <> os_size g -> r_end_arr h arg st = Done (false, st).
Proof. exact r_end_array. Qed.
Print Assumptions C12_read_end_array.
Theorem C12_read_other_reader : forall e s hist st h arg i, rhist e s hist st -> no_failed_array hist -> rlive h st ->
  let g := rtrack h hist in
  arg <> os_active g -> r_end h arg st = Done (false, st) /\ r_end_in h arg i st = Done (false, st).
Proof. exact r_other_handle. Qed.
Print Assumptions C12_read_other_reader.
Theorem C12_read_end_in_array : forall e s hist st h arg i, rhist e s hist st -> no_failed_array hist -> rlive h st ->
  let g := rtrack h hist in
  arg <> os_active g \/ (i + 1) mod two64 <> os_begun g -> r_end_in h arg i st = Done (false, st).
Proof. exact r_end_in_refused. Qed.
Print Assumptions C12_read_end_in_array.
Theorem C12_read_already_open : forall e s hist st h key nok ix, rhist e s hist st -> no_failed_array hist -> rlive h st ->
  os_active (rtrack h hist) <> None ->
  r_begin e h key nok st = Done (None, false, st) /\ r_begin_arr e h key nok ix st = Done (None, 0, false, ix, st).
Proof. exact r_already_open. Qed.
Print Assumptions C12_read_already_open.

(** ** Findings *)
Definition stream0 : wstream := WS (repeat x00 100) 0 0 100 false 1000.

(** The calls of a list one after another. *)
Fixpoint wrun (l : list wcall) (st : wstate) : res (list wret * wstate) :=
  match l with
  | [] => Done ([], st)
  | c :: l' => do r <- wstep c st; let '(x, st1) := r in
               do r2 <- wrun l' st1; let '(xs, st2) := r2 in Done (x :: xs, st2)
  end.
Fixpoint rrun (e : renv) (l : list rcall) (st : rstate) : res (list rret * rstate) :=
  match l with
  | [] => Done ([], st)
  | c :: l' => do r <- rstep e c st; let '(x, st1) := r in
               do r2 <- rrun e l' st1; let '(xs, st2) := r2 in Done (x :: xs, st2)
  end.

(** EndWriteSection(nullptr) on a writer without an open section passes its check and dereferences the
    null pointer. *)
Theorem C12_end_null_refuted : forall s, w_end 0 None (w_open s) = Undef /\ w_end_arr 0 None (w_open s) = Undef.
Proof. intros s. split; reflexivity. Qed.
Print Assumptions C12_end_null_refuted.

(** EndWriteSection succeeds while a section inside the section is still open; the size of the inner
    section stays the placeholder MAXINT64. *)
Theorem C12_open_inner_section_refuted : exists st,
  wrun [WBegin 0 k_ab; WBegin 1 k_ab; WEnd 0 (Some 1)] (w_open stream0)
  = Done ([WHandle (Some 1); WHandle (Some 2); WBool true], st) /\
  ws_data (w_stream st) = large_block false 0xd0 k_ab (n2b 0xd0 :: num W64 false maxint64 ++ n2b 2 :: k_ab).
Proof. eexists. split; vm_compute; reflexivity. Qed.
Print Assumptions C12_open_inner_section_refuted.

(** EndWriteSection accepts the writer of an array and closes it although none of its two sections was
    written. *)
Theorem C12_end_section_closes_array_refuted : exists st,
  wrun [WBeginArr 0 k_ab 2 None; WEnd 0 (Some 1)] (w_open stream0) = Done ([WHandle (Some 1); WBool true], st).
Proof. eexists. vm_compute. reflexivity. Qed.
Print Assumptions C12_end_section_closes_array_refuted.

(** The end of a section in an array may be left out: its size stays the placeholder MAXINT64. *)
Theorem C12_missing_end_in_array_refuted : exists st,
  wrun [WBeginArr 0 k_ab 2 None; WBeginIn 0 (Some 1) 0; WBeginIn 0 (Some 1) 1; WEndIn 0 (Some 1) 1; WEndArr 0 (Some 1)] (w_open stream0)
  = Done ([WHandle (Some 1); WBool true; WBool true; WBool true; WBool true], st) /\
  ws_data (w_stream st)
  = large_block false 0xd1 k_ab (num W16 false 0 ++ num W64 false 2 ++ num W64 false maxint64 ++ num W64 false 0).
Proof. eexists. split; vm_compute; reflexivity. Qed.
Print Assumptions C12_missing_end_in_array_refuted.

(** EndWriteSectionInArray with index ~0 before any section was begun succeeds and overwrites the first
    eight bytes of the stream. *)
Theorem C12_end_before_begin_refuted : exists st1 st2,
  wrun [WBeginArr 0 k_ab 2 None] (w_open stream0) = Done ([WHandle (Some 1)], st1) /\
  w_end_in 0 (Some 1) ones st1 = Done (true, st2) /\
  take 1 (ws_data (w_stream st1)) = [n2b 0xd1] /\ take 1 (ws_data (w_stream st2)) <> [n2b 0xd1].
Proof. eexists _, _. split; [vm_compute; reflexivity|]. split; [vm_compute; reflexivity|]. split; [reflexivity|]. vm_compute. discriminate. Qed.
Print Assumptions C12_end_before_begin_refuted.

(** After BeginReadSectionsArray failed (here: 64-bit index flag with an index expected to be absent) its
    array size stays in force: BeginReadSectionInArray(nullptr,0) succeeds. *)
Definition bad_array : list byte := large_block false 0xd1 k_ab (num W16 false 0x100 ++ num W64 false 1 ++ repeat x01 16).
Theorem C12_failed_array_refuted : exists st,
  rrun env0 [RBeginArr 0 k_ab false None; RBeginIn 0 None 0 true] (r_open (RS bad_array 0 false))
  = Done ([RHandle None 0 false; RBool true], st).
Proof. eexists. vm_compute. reflexivity. Qed.
Print Assumptions C12_failed_array_refuted.

(** An element without content that is not allowed to be absent is refused, but counted as begun: the
    next number is then accepted. *)
Definition two_elements : list byte :=
  large_block false 0xd1 k_ab (num W16 false 0 ++ num W64 false 2 ++ num W64 false 0 ++ num W64 false 1 ++ [x00]).
Theorem C12_refused_element_counted_refuted : exists st,
  rrun env0 [RBeginArr 0 k_ab false None; RBeginIn 0 (Some 1) 0 false; RBeginIn 0 (Some 1) 0 false; RBeginIn 0 (Some 1) 1 false]
    (r_open (RS two_elements 0 false))
  = Done ([RHandle (Some 1) 2 true; RBool false; RBool false; RBool true], st).
Proof. eexists. vm_compute. reflexivity. Qed.
Print Assumptions C12_refused_element_counted_refuted.

(** ** The hypotheses are met *)
Definition i_num (n : byte) : node := NItem (Item (TUInt I32) k_ab (CV (VP [n; x00; x00; x00]))).
Definition doc0 : nodes :=
  Cons (i_num x01)
  (Cons (NSection k_ab (Cons (i_num x02) (Cons (NSection [x63] (Cons (i_num x03) Nil)) Nil)))
  (Cons (NNullSection k_ab)
  (Cons (NArray [x64] (Some [1; 0]) (SCons (Cons (NSection k_ab (Cons (i_num x04) Nil)) (Cons (NArray k_ab None SNil) Nil)) (SCons Nil SNil)))
  (Cons (NNullArray k_ab) (Cons (i_num x05) Nil))))).
Definition template0 : nodes :=
  Cons (i_num x00)
  (Cons (NSection k_ab (Cons (i_num x00) (Cons (NSection [x63] (Cons (i_num x00) Nil)) Nil)))
  (Cons (NSection k_ab (Cons (i_num x00) Nil))
  (Cons (NArray [x64] (Some []) (SCons (Cons (NSection k_ab (Cons (i_num x00) Nil)) (Cons (NArray k_ab None SNil) Nil)) (SCons Nil SNil)))
  (Cons (NNullArray k_ab) (Cons (i_num x00) Nil))))).
Example doc0_meets_hypotheses : nodes_ok doc0 /\ nodes_full doc0 /\ nodes_mirror doc0 template0 /\ room 16 10000 (len (nodes_bytes true doc0)).
Proof.
  split; [|split; [|split]].
  - cbn. unfold item_ok. cbn. repeat (apply Forall_cons || apply Forall_nil || split); try exact I; try reflexivity; vm_compute; discriminate.
  - cbn. repeat split.
  - cbn. unfold mirrors. cbn. repeat split.
  - vm_compute. repeat split; discriminate.
Qed.
Example doc0_runs : exists s0 st st', fresh 16 10000 true = Done s0 /\ write_nodes 0 doc0 (w_open s0) = Done (true, st) /\
  read_nodes env0 0 template0 (r_open (RS (ws_data (w_stream st)) 0 true)) = Done (true, doc0, st').
Proof. do 3 eexists. split; [vm_compute; reflexivity|]. split; vm_compute; reflexivity. Qed.
(** A history in the middle of an array, with both outcomes. *)
Example history0 : exists hist st, whist stream0 hist st /\ wlive 0 st /\
  wtrack 0 hist = OS (Some 1) 2 1 /\ w_begin_in 0 (Some 1) 0 st = Done (false, st) /\
  exists st', w_begin_in 0 (Some 1) 1 st = Done (true, st').
Proof.
  eexists _, _. split; [|split; [|split; [|split]]].
  - eapply (whist_call _ _ _ (WBeginIn 0 (Some 1) 0)); [eapply (whist_call _ _ _ (WBeginArr 0 k_ab 2 None)); [apply whist_nil|reflexivity|vm_compute; reflexivity]|exact I|vm_compute; reflexivity].
  - vm_compute. left. reflexivity.
  - vm_compute. reflexivity.
  - vm_compute. reflexivity.
  - eexists. vm_compute. reflexivity.
Qed.
Example read_history0 : exists hist st, rhist env0 (RS two_elements 0 false) hist st /\ no_failed_array hist /\ rlive 0 st /\
  rtrack 0 hist = OS (Some 1) 2 1.
Proof.
  eexists _, _. split; [|split; [|split]].
  - eapply (rhist_call _ _ _ _ (RBeginIn 0 (Some 1) 0 true)); [eapply (rhist_call _ _ _ _ (RBeginArr 0 k_ab false None)); [apply rhist_nil|vm_compute; reflexivity]|vm_compute; reflexivity].
  - repeat constructor.
  - vm_compute. left. reflexivity.
  - vm_compute. reflexivity.
Qed.
