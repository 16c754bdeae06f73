(** * EntityWriter: the value and array writing functions. Model only. *)
From Verif Require Import Base Bytes Values Streams Types.
Open Scope N_scope.

(** The length argument of a key: ISDKeyMacro casts strlen to u8, ISD/ISD_Types.h:32. *)
Definition klen (key : list byte) : N := len key mod 256.
(** The key bytes the functions use. *)
Definition kbytes (key : list byte) : list byte := take (klen key) key.

(** MAXINT64 (Windows SDK: the largest i64), the placeholder block size. *)
Definition maxint64 : N := 2^63 - 1.

(** ISD/ISD_EntityWriterTemplates.inl:14-34 begin_write_large_block. *)
Definition begin_write (vt : N) (key : list byte) (s : wstream) : res (bool * wstream) :=
  let start := ws_pos s in
  let expected := add64 (add64 start (klen key)) 10 in
  do s1 <- ws_u8 vt s;
  do s2 <- ws_u64 maxint64 s1;
  do s3 <- ws_u8 (klen key) s2;
  do s4 <- ws_write (KW W8) (klen key) (kbytes key) s3;
  Done (ws_pos s4 =? expected, s4).

(** ISD/ISD_EntityWriterTemplates.inl:38-46 end_write_large_block. *)
Definition end_write (start : N) (s : wstream) : res (bool * wstream) :=
  let endp := ws_pos s in
  let block_size := sub64 (sub64 endp start) 9 in
  do s1 <- thrown (ws_setpos (add64 start 1) s);
  do s2 <- ws_u64 block_size s1;
  do s3 <- thrown (ws_setpos endp s2);
  Done (start <? endp, s3).

(** ISD/ISD_EntityWriterTemplates.inl:50-78 write_single_value, general template: [data] is the
    memory image of the object, None for nullptr. *)
Definition write_pod (vt : N) (k : kind) (count : N) (key : list byte) (data : option (list byte))
  (s : wstream) : res (bool * wstream) :=
  let data_size := match data with Some _ => ksize k * count | None => 0 end in
  let block_size := data_size + klen key in
  let expected := add64 (add64 (ws_pos s) 2) block_size in
  do s1 <- ws_u8 vt s;
  do s2 <- ws_u8 (block_size mod 256) s1;
  do s3 <- (match data with
            | Some img => if 0 <? data_size then ws_write k count img s2 else Done s2
            | None => Done s2 end);
  do s4 <- ws_write (KW W8) (klen key) (kbytes key) s3;
  Done (ws_pos s4 =? expected, s4).

(** ISD/ISD_EntityWriterTemplates.inl:81-87: bool, through a u8 that is 0 or 1. *)
Definition write_bool (vt : N) (key : list byte) (data : option bool) (s : wstream)
  : res (bool * wstream) :=
  write_pod vt (KW W8) 1 key
    (match data with Some b => Some (le 1 (if b then 1 else 0)) | None => None end) s.

(** ISD/ISD_EntityWriterTemplates.inl:90-147: string. *)
Definition write_string (vt : N) (key : list byte) (data : option (list byte)) (s : wstream)
  : res (bool * wstream) :=
  let start := ws_pos s in
  do r <- begin_write vt key s; let '(ok, s1) := r in
  if negb ok then Done (false, s1) else
  let data_start := ws_pos s1 in
  match data with
  | None => end_write start s1
  | Some str =>
    let values_size := add64 (len str) 8 in
    do s2 <- ws_u64 (len str) s1;
    do s3 <- (if 0 <? len str then ws_write (KW W8) (len str) str s2 else Done s2);
    let expected := add64 data_start values_size in
    do r2 <- end_write start s3; let '(ok2, s4) := r2 in
    if negb ok2 then Done (false, s4) else
    Done (ws_pos s4 =? expected, s4)
  end.

(** ISD/ISD_EntityWriterTemplates.inl:150-192 write_array_metadata_and_index. [ix] are the i32
    values of the index as bit patterns. *)
Definition write_meta (per_item item_count : N) (ix : option (list N)) (s : wstream)
  : res (bool * wstream) :=
  let start := ws_pos s in
  let flags := N.lor (match ix with Some _ => 0x100 | None => 0 end) per_item in
  do s1 <- ws_u16 flags s;
  do s2 <- ws_u64 item_count s1;
  match ix with
  | Some l =>
    do s3 <- ws_u64 (len l) s2;
    do s4 <- ws_write (KW W32) (len l) (flat_map (le 4) l) s3;
    Done (ws_pos s4 =? add64 (add64 (add64 start 2) 8) (add64 (mul64 (len l) 4) 8), s4)
  | None => Done (ws_pos s2 =? add64 (add64 start 2) 8, s2)
  end.

(** Memory image of the objects of a vector. *)
Definition pod_image (v : val) : list byte := match v with VP img => img | _ => [] end.
Definition pods_image (l : list val) : list byte := flat_map pod_image l.

(** ISD/ISD_EntityWriterTemplates.inl:276-288: the packing loop, from index [i] on; an access behind
    the packed vector is undefined. *)
Definition val_bool (v : val) : bool := match v with VB b => b | _ => false end.
Fixpoint pack_loop (i : N) (l : list bool) (vec : list byte) : res (list byte) :=
  match l with
  | [] => Done vec
  | b :: l' =>
    if b then
      let packed_index := N.shiftr i 3 in
      let packed_subindex := N.land i 7 in
      if packed_index <? len vec then
        let old := nth (N.to_nat packed_index) vec x00 in
        pack_loop (i + 1) l'
          (set_nth (N.to_nat packed_index) (n2b (N.lor (b2n old) (N.shiftl 1 packed_subindex))) vec)
      else Undef
    else pack_loop (i + 1) l' vec
  end.

(** ISD/ISD_EntityWriterTemplates.inl:346-360: the loop writing strings; returns the accumulated
    values_size. *)
Definition val_string (v : val) : list byte := match v with VS s => s | _ => [] end.
Fixpoint write_strings (l : list (list byte)) (vsize : N) (s : wstream) : res (N * wstream) :=
  match l with
  | [] => Done (vsize, s)
  | str :: l' =>
    do s1 <- ws_u64 (len str) s;
    do s2 <- (if 0 <? len str then ws_write (KW W8) (len str) str s1 else Done s1);
    write_strings l' (add64 vsize (len str)) s2
  end.

(** The part of write_array between begin and end of the block that writes the items:
    general template :219-242, bool :268-305, string :331-372. *)
Definition write_items (h : shape) (items : list val) (ix : option (list N)) (s : wstream)
  : res (bool * wstream) :=
  match h with
  | ShPod k n =>
    let values_count := mul64 (len items) n in
    do r <- write_meta (ksize k) values_count ix s; let '(ok, s1) := r in
    if negb ok then Done (false, s1) else
    if 0 <? values_count then
      let expected := add64 (ws_pos s1) (mul64 values_count (ksize k)) in
      do s2 <- ws_write k values_count (pods_image items) s1;
      Done (ws_pos s2 =? expected, s2)
    else Done (true, s1)
  | ShBool =>
    do r <- write_meta 0 (len items) ix s; let '(ok, s1) := r in
    if negb ok then Done (false, s1) else
    if 0 <? len items then
      let packed := add64 (len items) 7 / 8 in
      let expected := add64 (ws_pos s1) packed in
      do vec <- pack_loop 0 (map val_bool items) (rep x00 packed);
      do s2 <- ws_write (KW W8) packed vec s1;
      Done (ws_pos s2 =? expected, s2)
    else Done (true, s1)
  | ShString =>
    do r <- write_meta 0 (len items) ix s; let '(ok, s1) := r in
    if negb ok then Done (false, s1) else
    if 0 <? len items then
      do r2 <- write_strings (map val_string items) (mul64 8 (len items)) s1;
      let '(vsize, s2) := r2 in
      Done (ws_pos s2 =? add64 (ws_pos s1) vsize, s2)
    else Done (true, s1)
  end.

(** ISD/ISD_EntityWriterTemplates.inl:197-251, 254-315, 318-383 write_array. *)
Definition write_array (vt : N) (h : shape) (key : list byte) (items : option (list val))
  (ix : option (list N)) (s : wstream) : res (bool * wstream) :=
  let start := ws_pos s in
  do r <- begin_write vt key s; let '(ok, s1) := r in
  if negb ok then Done (false, s1) else
  do r2 <- (match items with Some l => write_items h l ix s1 | None => Done (true, s1) end);
  let '(ok2, s2) := r2 in
  if negb ok2 then Done (false, s2) else end_write start s2.

(** write_single_value by type. *)
Definition write_single (vt : N) (h : shape) (key : list byte) (v : option val) (s : wstream)
  : res (bool * wstream) :=
  match h with
  | ShBool => write_bool vt key (option_map val_bool v) s
  | ShString => write_string vt key (option_map val_string v) s
  | ShPod k n => write_pod vt k n key (option_map pod_image v) s
  end.

(** EntityWriter::Write<T>: CodeGenerator/Generators/ISD_EntityWriter.py:179-227. For entity_ref and
    package_ref (:108-177) the value is converted to a uuid or hash (same image, same ValueType) and
    written by the uuid or hash function; the copy of the vectors is not modelled separately. *)
Definition ew_write (t : dtype) (key : list byte) (c : cval) (s : wstream) : res (bool * wstream) :=
  let h := dshape t in
  match c with
  | CV v => write_single (vt_single t) h key (Some v) s
  | COpt o => write_single (vt_single t) h key o s
  | CVec l => write_array (vt_array t) h key (Some l) None s
  | COptVec o => write_array (vt_array t) h key o None s
  | CIdx l ix => write_array (vt_array t) h key (Some l) (Some ix) s
  | COptIdx o => write_array (vt_array t) h key (option_map fst o) (option_map snd o) s
  end.
