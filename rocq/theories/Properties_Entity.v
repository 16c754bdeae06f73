(** * Properties C05-C10, C13, C35: EntityWriter and EntityReader, single values and arrays.
    Statements only; each proof is [exact] a lemma of EntityTheorems.v or a computation.
    Reading guide: [fresh]/[write_all]/[read_all]/[ew_write]/[er_read]/[written] are the model
    (Items.v, EntityWriter.v, EntityReader.v); [encode]/[block_length] the documented format
    (Format.v); [accepts]/[delivered]/[is_null]... the reader contract (Accept.v); [item_ok]/[room]/
    [content]... the vocabulary of ItemSpec.v. *)
From Verif Require Import Base Bytes Values FileSpec Streams Types Format Accept EntityWriter EntityReader Items ItemSpec
  EntityTheorems Damage DamageFacts.
Open Scope N_scope.

(** C05. A single or optional value of any type, written after any items to a stream of any byte
    order, is read back identically from the position it was written at, whatever follows in the
    stream and whatever the destination held; exactly the bytes written are consumed. *)
Theorem C05_single_roundtrip : forall init lim fl before t key v,
  Forall item_ok before -> item_ok (Item t key v) -> ~ is_array v ->
  room init lim (len (items_image fl before) + len (encode fl t key v)) ->
  exists s1 s2, written init lim fl before t key v s1 s2 /\
    forall e dest post, cval_ok t dest -> cval_ctype dest = cval_ctype v ->
      read_room e (ws_pos s2 - ws_pos s1) (ws_pos s2 + len post) ->
      er_read e t key dest (RS (ws_data s2 ++ post) (ws_pos s1) fl)
      = Done (true, v, RS (ws_data s2 ++ post) (ws_pos s2) fl).
Proof. exact t_single. Qed.
Print Assumptions C05_single_roundtrip.

(** C06. The same for the four array containers, for a destination whose old content is replaced
    (everything except a non-empty vector or idx_vector of references). *)
Theorem C06_array_roundtrip : forall init lim fl before t key v,
  Forall item_ok before -> item_ok (Item t key v) -> is_array v ->
  room init lim (len (items_image fl before) + len (encode fl t key v)) ->
  exists s1 s2, written init lim fl before t key v s1 s2 /\
    forall e dest post, cval_ok t dest -> cval_ctype dest = cval_ctype v -> replaced t dest ->
      read_room e (ws_pos s2 - ws_pos s1) (ws_pos s2 + len post) ->
      er_read e t key dest (RS (ws_data s2 ++ post) (ws_pos s1) fl)
      = Done (true, v, RS (ws_data s2 ++ post) (ws_pos s2) fl).
Proof. exact t_array. Qed.
Print Assumptions C06_array_roundtrip.

Definition env0 : renv := RE 100000 (fun _ => x00).
Definition k_ab : list byte := [x61; x62].

(** C06, finding: a vector of entity_ref that is not empty keeps its items in front of the ones read. *)
Theorem C06_reference_vector_appends_refuted :
  let id1 := VP (repeat x01 16) in let id2 := VP (repeat x02 16) in
  exists s1 s2, written 64 1000 false [] TEntityRef k_ab (CVec [id2]) s1 s2 /\
    er_read env0 TEntityRef k_ab (CVec [id1]) (RS (ws_data s2) 0 false)
    = Done (true, CVec [id1; id2], RS (ws_data s2) (ws_pos s2) false).
Proof.
  eexists _, _. split; [eexists; split; [vm_compute; reflexivity|split; vm_compute; reflexivity]|].
  vm_compute. reflexivity.
Qed.
Print Assumptions C06_reference_vector_appends_refuted.

(** C07. What was written is read back with the same content, absent or present, in whatever
    container of the same family can hold it: absent stays absent, present stays present. *)
Theorem C07_content_preserved : forall init lim fl before t key v w s1 s2 e dest post,
  Forall item_ok before -> item_ok (Item t key v) -> cval_ok t w -> content w = content v ->
  room init lim (len (items_image fl before) + len (encode fl t key v)) ->
  written init lim fl before t key v s1 s2 ->
  cval_ok t dest -> cval_ctype dest = cval_ctype w ->
  read_room e (ws_pos s2 - ws_pos s1) (ws_pos s2 + len post) ->
  er_read e t key dest (RS (ws_data s2 ++ post) (ws_pos s1) fl)
  = Done (true, delivered t dest w, RS (ws_data s2 ++ post) (ws_pos s2) fl).
Proof. exact t_content. Qed.
Print Assumptions C07_content_preserved.

(** C07. An absent value is rejected by every destination that is not optional. *)
Theorem C07_absent_rejected : forall init lim fl before t key v s1 s2 e dest post,
  Forall item_ok before -> item_ok (Item t key v) -> is_null v ->
  room init lim (len (items_image fl before) + len (encode fl t key v)) ->
  written init lim fl before t key v s1 s2 ->
  cval_ok t dest -> ~ is_optional dest -> ws_pos s2 + len post < two64 ->
  exists d s', er_read e t key dest (RS (ws_data s2 ++ post) (ws_pos s1) fl) = Done (false, d, s').
Proof. exact t_absent. Qed.
Print Assumptions C07_absent_rejected.

(** C07. The written forms are pairwise different, even with different bytes behind them: no two
    values of the same type and container (absent, empty, or anything else) can be confused. *)
Theorem C07_prefix_free : forall fl t key v v' post post',
  len key <= 40 -> cval_ok t v -> cval_ok t v' -> cval_ctype v = cval_ctype v' ->
  len (encode fl t key v ++ post) < two64 ->
  encode fl t key v ++ post = encode fl t key v' ++ post' -> v = v'.
Proof. exact EntityProps.encode_prefix_free. Qed.
Print Assumptions C07_prefix_free.

(** C08. A written item occupies one block: the bytes of the documented format, whose header states
    their number. *)
Theorem C08_self_delimiting : forall init lim fl before t key v s1 s2,
  Forall item_ok before -> item_ok (Item t key v) ->
  room init lim (len (items_image fl before) + len (encode fl t key v)) ->
  written init lim fl before t key v s1 s2 ->
  exists blk, ws_data s2 = ws_data s1 ++ blk /\ ws_pos s2 = ws_pos s1 + len blk /\ blk = encode fl t key v /\
    forall post, block_length fl (blk ++ post) = Some (len blk).
Proof. exact t_delimited. Qed.
Print Assumptions C08_self_delimiting.

(** C08. Skipping blocks by their headers alone passes exactly over the items written. *)
Theorem C08_skip_items : forall init lim fl l s0 s post,
  Forall item_ok l -> room init lim (len (items_image fl l)) ->
  fresh init lim fl = Done s0 -> write_all l s0 = Done (true, s) ->
  skip_blocks fl (length l) (ws_data s ++ post) = Some post.
Proof. exact t_skip. Qed.
Print Assumptions C08_skip_items.

(** C09. A read that succeeds on a written block asked for its value type; it asked for its key if
    the block is a string or array, or if the keys have the same length; and if a value was present,
    it asked for the same number and size of components and the same presence of an index. *)
Theorem C09_success_means_same_block : forall init lim fl before t key v s1 s2 e t' key' dest post r s',
  Forall item_ok before -> item_ok (Item t key v) ->
  room init lim (len (items_image fl before) + len (encode fl t key v)) ->
  written init lim fl before t key v s1 s2 ->
  cval_ok t' dest -> 0 < len key' -> len key' <= 40 -> e_lim e < 2^60 -> ws_pos s2 + len post < 2^62 ->
  er_read e t' key' dest (RS (ws_data s2 ++ post) (ws_pos s1) fl) = Done (true, r, s') ->
  type_byte t' (cval_ctype dest) = type_byte t (cval_ctype v) /\
  (large t (cval_ctype v) = true \/ len key' = len key -> key' = key) /\
  (key' = key -> ~ is_null v -> same_layout t' t /\ indexed (cval_ctype dest) = indexed (cval_ctype v)).
Proof. exact t_wrong. Qed.
Print Assumptions C09_success_means_same_block.

(** C09, finding: with keys of different lengths the value of a small block can be taken for a part
    of the key: a u64 written under "ab" is read as an absent optional u64 under a key of ten bytes. *)
Theorem C09_key_lengths_refuted :
  let abc := [x61; x62; x63; x64; x65; x66; x67; x68] in
  exists s1 s2, written 64 1000 false [] (TUInt I64) k_ab (CV (VP abc)) s1 s2 /\
    er_read env0 (TUInt I64) (abc ++ k_ab) (COpt None) (RS (ws_data s2) 0 false)
    = Done (true, COpt None, RS (ws_data s2) (ws_pos s2) false).
Proof.
  eexists _, _. split; [eexists; split; [vm_compute; reflexivity|split; vm_compute; reflexivity]|].
  vm_compute. reflexivity.
Qed.
Print Assumptions C09_key_lengths_refuted.

(** C09, finding: or for a value of another size: a u64 under "abcd" is read as a u32 under a key of
    eight bytes. *)
Theorem C09_value_sizes_refuted :
  exists s1 s2, written 64 1000 false [] (TUInt I64) [x61; x62; x63; x64] (CV (VP [x01; x02; x03; x04; x65; x66; x67; x68])) s1 s2 /\
    er_read env0 (TUInt I32) [x65; x66; x67; x68; x61; x62; x63; x64] (CV (VP [x00; x00; x00; x00])) (RS (ws_data s2) 0 false)
    = Done (true, CV (VP [x01; x02; x03; x04]), RS (ws_data s2) (ws_pos s2) false).
Proof.
  eexists _, _. split; [eexists; split; [vm_compute; reflexivity|split; vm_compute; reflexivity]|].
  vm_compute. reflexivity.
Qed.
Print Assumptions C09_value_sizes_refuted.

(** C10. Any list of items is read back completely and in order, ending where the writer ended. *)
Theorem C10_items_in_order : forall init lim fl ws rs e,
  Forall item_ok ws -> Forall2 mirrors ws rs -> Forall (fun r => replaced (i_type r) (i_val r)) rs ->
  room init lim (len (items_image fl ws)) -> 4 * len (items_image fl ws) <= e_lim e ->
  exists s0 s, fresh init lim fl = Done s0 /\ write_all ws s0 = Done (true, s) /\
    read_all e rs (RS (ws_data s) 0 fl) = Done (true, map i_val ws, RS (ws_data s) (ws_pos s) fl).
Proof. exact t_items. Qed.
Print Assumptions C10_items_in_order.

(** C13. On any stream (below 2^62 bytes) and at any position, a read of any type under a key of 1 to
    40 bytes either returns, having moved forward inside the stream, its result the decoding of
    exactly the bytes passed if it is true; or throws, only for strings and arrays, because the allocator refused
    at most four times the size of the stream or because the sizes in the block are damaged in one of the ways
    of Damage.v; and touches no other memory, except possibly for arrays of types with several components
    whose item count is damaged. *)
Theorem C13_reader_total : forall e t key dest data pos fl,
  pos <= len data -> len data < 2^62 -> e_lim e < 2^60 -> 0 < len key -> len key <= 40 -> cval_ok t dest ->
  match er_read e t key dest (RS data pos fl) with
  | Done (ok, v, s') =>
      cval_ctype v = cval_ctype dest /\
      exists n, pos + n <= len data /\ s' = RS data (pos + n) fl /\
        (ok = true -> exists w, accepts (pos + n =? len data) fl t key (take n (drop pos data)) w /\ v = delivered t dest w)
  | Throw => (is_array dest \/ t = TString) /\ (e_lim e < 4 * len data \/ size_damage fl pos t dest key (drop pos data))
  | Undef => (is_array dest /\ multi_component t) /\ count_damage fl t key (drop pos data)
  end.
Proof. exact t_reader_total. Qed.
Print Assumptions C13_reader_total.

(** C13, finding: an array of two-component vectors whose item count is odd makes the reader write
    behind the destination. *)
Theorem C13_component_count_refuted :
  er_read env0 (TVec D2 F32) k_ab (CVec [])
    (RS (large_block false 0x45 k_ab (num W16 false 4 ++ num W64 false 3 ++ repeat x07 12)) 0 false) = Undef.
Proof. vm_compute. reflexivity. Qed.
Print Assumptions C13_component_count_refuted.

(** C13, finding: a string block whose payload is shorter than its length field lets the reader ask
    for any allocation: here 2^40 bytes for a stream of 21 bytes. *)
Theorem C13_huge_allocation_refuted :
  er_read (RE (2^39) (fun _ => x00)) TString k_ab (CV (VS []))
    (RS (n2b 0xe0 :: num W64 false 4 ++ n2b 2 :: k_ab ++ num W64 false (2^40)) 0 false) = Throw.
Proof. vm_compute. reflexivity. Qed.
Print Assumptions C13_huge_allocation_refuted.

(** C13, findings: the other forms of size damage are real, too; streams of less than 60 bytes make the reader ask for
    more than 2^39 bytes. An array whose block ends inside its item count; an array of bools whose item count is 2^64-1;
    an array of two strings whose block ends after the first. *)
Theorem C13_array_allocation_refuted :
  let data := n2b 0x44 :: num W64 false 5 ++ n2b 2 :: k_ab ++ num W16 false 4 ++ num W64 false (2^40) in
  er_read (RE (2^39) (fun _ => x00)) (TFloat F32) k_ab (CVec []) (RS data 0 false) = Throw /\ meta_damage false 0 (TFloat F32) false k_ab data.
Proof. split; [vm_compute; reflexivity|]. exists 5, (num W16 false 4 ++ num W64 false (2^40)). split; [split|]; vm_compute; reflexivity. Qed.
Print Assumptions C13_array_allocation_refuted.
Theorem C13_bool_count_refuted :
  let data := large_block false 0x41 k_ab (num W16 false 0 ++ num W64 false (2^64 - 1)) in
  er_read (RE (2^39) (fun _ => x00)) TBool k_ab (CVec []) (RS data 0 false) = Throw /\ bools_damage false k_ab data.
Proof.
  split; [vm_compute; reflexivity|]. exists 13, [], 0, (2^64 - 1), None. split; [split; vm_compute; reflexivity|]. vm_compute. split; congruence.
Qed.
Print Assumptions C13_bool_count_refuted.
Theorem C13_string_array_refuted :
  let data := large_block false 0xe1 k_ab (num W16 false 0 ++ num W64 false 2 ++ string_bytes false (repeat x41 8)) ++ num W64 false (2^40) in
  er_read (RE (2^39) (fun _ => x00)) TString k_ab (CVec []) (RS data 0 false) = Throw /\ strings_damage false 0 k_ab data.
Proof.
  split; [vm_compute; reflexivity|]. exists 29, (num W64 false (2^40)), 0, 2, None, [repeat x41 8]. cbv zeta. split; [split; vm_compute; reflexivity|].
  vm_compute. repeat split; congruence.
Qed.
Print Assumptions C13_string_array_refuted.

(** C13, finding: a header cut off inside the key is accepted when the uninitialised key buffer
    happens to hold the rest of the key. *)
Theorem C13_cut_key_refuted :
  er_read (RE 100 (fun _ => x62)) TString k_ab (COpt None)
    (RS (n2b 0xe0 :: num W64 false 2 ++ n2b 2 :: [x61]) 0 false)
  = Done (true, COpt None, RS (n2b 0xe0 :: num W64 false 2 ++ n2b 2 :: [x61]) 11 false).
Proof. vm_compute. reflexivity. Qed.
Print Assumptions C13_cut_key_refuted.

(** C13, finding: under the empty key a single type byte is accepted as an absent string. *)
Theorem C13_empty_key_refuted :
  er_read env0 TString [] (COpt None) (RS [n2b 0xe0] 0 false) = Done (true, COpt None, RS [n2b 0xe0] 1 false).
Proof. vm_compute. reflexivity. Qed.
Print Assumptions C13_empty_key_refuted.

(** C05/C13, finding: a key of 41 bytes is written successfully, and reading it back overruns the key
    buffer of the reader. *)
Theorem C13_long_key_refuted :
  exists s1 s2, written 64 1000 false [] TBool (repeat x61 41) (CV (VB true)) s1 s2 /\
    er_read env0 TBool (repeat x61 41) (CV (VB true)) (RS (ws_data s2) 0 false) = Undef.
Proof.
  eexists _, _. split; [eexists; split; [vm_compute; reflexivity|split; vm_compute; reflexivity]|].
  vm_compute. reflexivity.
Qed.
Print Assumptions C13_long_key_refuted.

(** C35. Data type ids and container ids are unique, positive (data types) and fit 16 bits; the list of
    types is complete and has 54 entries. *)
Theorem C35_ids_unique : forall t t' c c', (dt_id t, ct_id c) = (dt_id t', ct_id c') -> t = t' /\ c = c'.
Proof. intros t t' c c' H. injection H as H1 H2. split; [exact (t_ids t t' H1)|exact (t_cids c c' H2)]. Qed.
Print Assumptions C35_ids_unique.
Theorem C35_ids_16_bit : forall t, 0 < dt_id t /\ dt_id t < 2^16.
Proof. exact t_ids_range. Qed.
Print Assumptions C35_ids_16_bit.
Theorem C35_all_types : (forall t, In t all_dtypes) /\ length all_dtypes = 54%nat.
Proof. split; [exact t_all|reflexivity]. Qed.
Print Assumptions C35_all_types.

(** ** The hypotheses are met *)
Definition sample_before : list item :=
  [Item TString k_ab (CV (VS [x68; x69])); Item TBool k_ab (CVec [VB true; VB false; VB true])].
Definition sample : item := Item (TVec D3 F32) k_ab (COptIdx (Some ([VP (repeat x01 12); VP (repeat x02 12)], [1; 0; 1]))).
Example sample_meets_hypotheses :
  Forall item_ok sample_before /\ item_ok sample /\
  room 16 10000 (len (items_image true sample_before) + len (encode true (i_type sample) (i_key sample) (i_val sample))).
Proof.
  split; [|split].
  - repeat (apply Forall_cons || apply Forall_nil || split); try exact I; try reflexivity; vm_compute; discriminate.
  - repeat (apply Forall_cons || apply Forall_nil || split); try exact I; try reflexivity; vm_compute; discriminate.
  - vm_compute. repeat split; discriminate.
Qed.
Example sample_runs :
  exists s0 s, fresh 16 10000 true = Done s0 /\ write_all (sample_before ++ [sample]) s0 = Done (true, s) /\
    read_all env0 [Item TString k_ab (CV (VS [x00])); Item TBool k_ab (CVec [VB false]); Item (TVec D3 F32) k_ab (COptIdx None)]
      (RS (ws_data s) 0 true)
    = Done (true, map i_val (sample_before ++ [sample]), RS (ws_data s) (ws_pos s) true).
Proof.
  eexists _, _. split; [vm_compute; reflexivity|]. split; [vm_compute; reflexivity|]. vm_compute. reflexivity.
Qed.
(** Both outcomes of C13 occur on corrupt data. *)
Example corrupt_rejected :
  er_read env0 (TUInt I32) k_ab (CV (VP (repeat x00 4))) (RS [x03; x06; x01; x02; x03; x04; x61; x63] 0 false)
  = Done (false, CV (VP [x01; x02; x03; x04]), RS [x03; x06; x01; x02; x03; x04; x61; x63] 8 false).
Proof. vm_compute. reflexivity. Qed.
