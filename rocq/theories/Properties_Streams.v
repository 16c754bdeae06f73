(** * Properties C01-C04: MemoryWriteStream and MemoryReadStream.
    Statements only; each proof is [exact] a lemma of StreamProps.v.
    Reading guide: [file]/[f_step]/[stored] are the byte file of FileSpec.v, [rcall_spec] is the
    read contract of ReadSpec.v; [ws_new]/[ws_calls]/[rs_calls]/[rs_scalars] are the model. *)
From Verif Require Import Base Bytes BytesFacts Values FileSpec ReadSpec Streams StreamProps.
Open Scope N_scope.

(** C01. Any history of writes, seeks and byte-order switches on a fresh stream leaves exactly the
    bytes, size, position and byte order of the abstract byte file, if twice every size reached
    fits the allocator limit. *)
Theorem C01_write_stream_is_file : forall init lim ops,
  0 < init -> init <= lim -> lim < two64 ->
  Forall wop_ok ops ->
  Forall (fun n => 2 * n <= lim) (f_sizes (File [] 0, false) ops) ->
  exists s0 s, ws_new init lim = (true, s0) /\ ws_calls ops s0 = Done s /\
    ws_data s = f_bytes (fst (fold_left f_step ops (File [] 0, false))) /\
    ws_size s = len (f_bytes (fst (fold_left f_step ops (File [] 0, false)))) /\
    ws_pos s = f_pos (fst (fold_left f_step ops (File [] 0, false))) /\
    ws_flip s = snd (fold_left f_step ops (File [] 0, false)).
Proof. exact c01_write_stream_is_file. Qed.
Print Assumptions C01_write_stream_is_file.

(** C01. Whatever the allocator limit, a history (sizes below 2^63) either is ended by bad_alloc or
    behaves as the byte file; it never has undefined behaviour. *)
Theorem C01_any_allocator : forall init lim ops,
  0 < init -> init <= lim -> lim < two64 ->
  Forall wop_ok ops ->
  Forall (fun n => n < 2^63) (f_sizes (File [] 0, false) ops) ->
  exists s0, ws_new init lim = (true, s0) /\
  (ws_calls ops s0 = Throw \/
   exists s, ws_calls ops s0 = Done s /\
    ws_data s = f_bytes (fst (fold_left f_step ops (File [] 0, false))) /\
    ws_size s = len (f_bytes (fst (fold_left f_step ops (File [] 0, false)))) /\
    ws_pos s = f_pos (fst (fold_left f_step ops (File [] 0, false))) /\
    ws_flip s = snd (fold_left f_step ops (File [] 0, false))).
Proof. exact c01_any_allocator. Qed.
Print Assumptions C01_any_allocator.

(** C01, finding: a caller that catches bad_alloc and goes on writing gets undefined behaviour,
    because the reserved size has already been raised when the allocation fails. *)
Theorem C01_after_bad_alloc_refuted :
  exists s0 s1, ws_new 4 10 = (true, s0) /\
    ws_raw (repeat x01 11) s0 = Done (false, s1) /\
    ws_raw (repeat x02 5) s1 = Undef.
Proof. exact c01_after_bad_alloc_refuted. Qed.
Print Assumptions C01_after_bad_alloc_refuted.

(** C02. Scalars written one by one in either byte order read back as the same scalars, in order, and
    the reader ends at the end of the data. *)
Theorem C02_roundtrip : forall init lim fl xs,
  0 < init -> init <= lim -> lim < two64 ->
  Forall scalar_ok xs ->
  2 * len (flat_map (stored fl) xs) <= lim ->
  exists s0 s, ws_new init lim = (true, s0) /\
    ws_calls (OFlip fl :: write_each xs) s0 = Done s /\
    ws_data s = flat_map (stored fl) xs /\
    rs_scalars (map scalar_kind xs) (RS (ws_data s) 0 fl)
    = Done (xs, RS (ws_data s) (len (ws_data s)) fl).
Proof. exact c02_roundtrip. Qed.
Print Assumptions C02_roundtrip.

(** C03. Reading what the other byte order wrote gives the byte-reversed integer; uuids and hashes
    are not affected by the byte order. *)
Theorem C03_cross_order : forall fl x pre post,
  scalar_ok x -> len pre + ksize (scalar_kind x) + len post < two64 ->
  rs_scalar (scalar_kind x) (RS (pre ++ stored fl x ++ post) (len pre) (negb fl))
  = Done (byte_swapped x, RS (pre ++ stored fl x ++ post) (len pre + ksize (scalar_kind x)) (negb fl)).
Proof. exact c03_cross_order. Qed.
Print Assumptions C03_cross_order.

(** C03. A stream written with one setting contains the integers in that byte order and is read with the other setting
    as the byte-reversed integers, and the same uuids and hashes. *)
Theorem C03_cross_streams : forall init lim fl xs,
  0 < init -> init <= lim -> lim < two64 ->
  Forall scalar_ok xs ->
  2 * len (flat_map (stored fl) xs) <= lim ->
  exists s0 s, ws_new init lim = (true, s0) /\
    ws_calls (OFlip fl :: write_each xs) s0 = Done s /\
    ws_data s = flat_map (stored fl) xs /\
    rs_scalars (map scalar_kind xs) (RS (ws_data s) 0 (negb fl))
    = Done (map byte_swapped xs, RS (ws_data s) (len (ws_data s)) (negb fl)).
Proof. exact c03_cross_streams. Qed.
Print Assumptions C03_cross_streams.

(** C03. The big-endian conversions are the byte reversal of the little-endian form, and inverse to each
    other. *)
Theorem C03_bigendian_is_reversal : forall v,
  be16 v = rev (le 2 v) /\ be32 v = rev (le 4 v) /\ be64 v = rev (le 8 v).
Proof. exact (fun v => conj (be16_rev v) (conj (be32_rev v) (be64_rev v))). Qed.
Print Assumptions C03_bigendian_is_reversal.
Theorem C03_bigendian_inverse : forall v,
  (v < 2^16 -> from_be16 (be16 v) = v) /\
  (v < 2^32 -> from_be32 (be32 v) = v) /\
  (v < 2^64 -> from_be64 (be64 v) = v).
Proof. exact c03_bigendian_inverse. Qed.
Print Assumptions C03_bigendian_inverse.
Theorem C03_bigendian_inverse_bytes : forall l,
  (length l = 2%nat -> be16 (from_be16 l) = l) /\
  (length l = 4%nat -> be32 (from_be32 l) = l) /\
  (length l = 8%nat -> be64 (from_be64 l) = l).
Proof. exact c03_bigendian_inverse'. Qed.
Print Assumptions C03_bigendian_inverse_bytes.
(** C03. Swapping an array reverses the bytes of every word and leaves the words in place. *)
Theorem C03_swap_reverses_words : forall w ws,
  Forall (fun x => len x = wbytes w) ws ->
  swap_words w (length ws) (concat ws) = concat (map (@rev byte) ws).
Proof. exact c03_swap_reverses_words. Qed.
Print Assumptions C03_swap_reverses_words.

(** C04. Any history of calls with sufficient buffers follows the read contract: no undefined
    behaviour, the position stays inside the data, and each read delivers exactly the complete items
    available. *)
Theorem C04_read_stream_safe : forall ops data flip,
  len data < two64 -> Forall (rop_ok (len data)) ops ->
  exists rs s', rs_calls ops (RS data 0 flip) = Done (rs, s') /\
    rcalls_spec ops (RS data 0 flip) rs s'.
Proof. exact c04_read_stream_safe. Qed.
Print Assumptions C04_read_stream_safe.

(** C04, finding: without the bound on the count the position addition wraps and the copy leaves the
    buffers, although only 2 bytes of data exist. *)
Theorem C04_unbounded_count_refuted :
  exists ops data, len data < two64 /\ rs_calls ops (RS data 0 false) = Undef /\
    Forall (fun o => match o with RRead k count dest => count <= two64 - 1 | _ => True end) ops.
Proof. exact c04_refuted. Qed.
Print Assumptions C04_unbounded_count_refuted.

(** ** Witnesses: the hypotheses are met by concrete non-trivial cases. *)
Definition ex_ops : list wop :=
  [OWrite (KW W32) [SInt W32 258; SInt W32 7]; OSeek 2; OFlip true;
   OWrite (KW W16) [SInt W16 513]; OSeek 20; OWrite (KW W8) [SInt W8 9]].
Example ex_c01 : Forall wop_ok ex_ops /\
  Forall (fun n => 2 * n <= 4096) (f_sizes (File [] 0, false) ex_ops) /\
  Forall (fun n => n < 2^63) (f_sizes (File [] 0, false) ex_ops) /\
  fst (fold_left f_step ex_ops (File [] 0, false))
  = File ([x02; x01; x02; x01; x07; x00; x00; x00] ++ repeat x00 12 ++ [x09]) 21.
Proof.
  split; [|split; [|split]].
  - repeat constructor; cbn; lia.
  - repeat constructor; vm_compute; discriminate.
  - repeat constructor.
  - vm_compute. reflexivity.
Qed.
Definition ex_scalars : list scalar :=
  [SInt W64 81985529216486895; SUuid 287454020 21862 30600 (repeat xaa 8); SHash (repeat x5a 32); SInt W8 255].
Example ex_c02 : Forall scalar_ok ex_scalars /\ 2 * len (flat_map (stored true) ex_scalars) <= 4096.
Proof. split; [repeat constructor; cbn; lia|vm_compute; discriminate]. Qed.
Example ex_c03 : byte_swapped (SInt W16 258) = SInt W16 513 /\ be32 1 = [x00; x00; x00; x01].
Proof. vm_compute. auto. Qed.
Example ex_c04 :
  Forall (rop_ok 5) [RRead (KW W16) 3 (repeat x00 6); RSeek 9; RSeek 1; RPeek; REof; RRead KUuid 1 (repeat x00 16)] /\
  exists s', rs_calls [RRead (KW W16) 3 (repeat x00 6); RSeek 9; RSeek 1; RPeek; REof; RRead KUuid 1 (repeat x00 16)]
     (RS [x01; x02; x03; x04; x05] 0 true)
   = Done ([ORead 2 [x02; x01; x04; x03; x00; x05]; OBool false; OBool true; OByte x02; OBool false; ORead 0 (repeat x00 16)], s').
Proof.
  split; [|eexists; vm_compute; reflexivity].
  repeat (apply Forall_cons; [first [exact I|split; [vm_compute; discriminate|vm_compute; reflexivity]]|]).
  apply Forall_nil.
Qed.
