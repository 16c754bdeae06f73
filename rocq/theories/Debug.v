(** * Debug: the debug build of the reader, the writer and the graph validation. Model only.

    With _DEBUG defined, the ISDSanityCheckDebugMacro and ISDSanityCheckCoreDebugMacro statements
    (ISD/ISD_Types.h:24-30) throw a std::exception when their condition is false; the other model
    files describe the release build, where they are empty. Every function below is the release
    function with its checks. *)
From Verif Require Import Base Bytes Values Streams Types EntityWriter EntityReader Sections Protocol Keys StdSet
  Validator Graph.
Open Scope N_scope.

(** ISD/ISD_Types.h:25-26. *)
Definition check {A} (b : bool) (m : res A) : res A := if b then m else Throw.

(** ** Writer *)

(** ISD/ISD_EntityWriterTemplates.inl:14-34 begin_write_large_block; checks in lines 18 and 32. *)
Definition d_begin_write (vt : N) (key : list byte) (s : wstream) : res (bool * wstream) :=
  let start := ws_pos s in
  check (klen key <=? max_key)
  (let expected := add64 (add64 start (klen key)) 10 in
   do s1 <- ws_u8 vt s;
   do s2 <- ws_u64 maxint64 s1;
   do s3 <- ws_u8 (klen key) s2;
   do s4 <- ws_write (KW W8) (klen key) (kbytes key) s3;
   check (ws_pos s4 =? expected) (Done (ws_pos s4 =? expected, s4))).

(** ISD/ISD_EntityWriterTemplates.inl:50-78; checks in lines 59, 60 and 76. *)
Definition d_write_pod (vt : N) (k : kind) (count : N) (key : list byte) (data : option (list byte))
  (s : wstream) : res (bool * wstream) :=
  let data_size := match data with Some _ => ksize k * count | None => 0 end in
  let block_size := data_size + klen key in
  check (klen key <=? max_key) (check (block_size <? 256)
  (let expected := add64 (add64 (ws_pos s) 2) block_size in
   do s1 <- ws_u8 vt s;
   do s2 <- ws_u8 (block_size mod 256) s1;
   do s3 <- (match data with
             | Some img => if 0 <? data_size then ws_write k count img s2 else Done s2
             | None => Done s2 end);
   do s4 <- ws_write (KW W8) (klen key) (kbytes key) s3;
   check (ws_pos s4 =? expected) (Done (ws_pos s4 =? expected, s4)))).

(** ISD/ISD_EntityWriterTemplates.inl:81-87. *)
Definition d_write_bool (vt : N) (key : list byte) (data : option bool) (s : wstream)
  : res (bool * wstream) :=
  d_write_pod vt (KW W8) 1 key
    (match data with Some b => Some (le 1 (if b then 1 else 0)) | None => None end) s.

(** ISD/ISD_EntityWriterTemplates.inl:90-147. *)
Definition d_write_string (vt : N) (key : list byte) (data : option (list byte)) (s : wstream)
  : res (bool * wstream) :=
  let start := ws_pos s in
  do r <- d_begin_write vt key s; let '(ok, s1) := r in
  if negb ok then Done (false, s1) else
  let data_start := ws_pos s1 in
  match data with
  | None => end_write start s1
  | Some str =>
    let values_size := add64 (len str) 8 in
    do s2 <- ws_u64 (len str) s1;
    do s3 <- (if 0 <? len str then ws_write (KW W8) (len str) str s2 else Done s2);
    let expected := add64 data_start values_size in
    do r2 <- end_write start s3; let '(ok2, s4) := r2 in
    if negb ok2 then Done (false, s4) else
    Done (ws_pos s4 =? expected, s4)
  end.

(** ISD/ISD_EntityWriterTemplates.inl:150-192; check in line 153. *)
Definition d_write_meta (per_item item_count : N) (ix : option (list N)) (s : wstream)
  : res (bool * wstream) :=
  check (per_item <=? 0xff) (write_meta per_item item_count ix s).

(** ISD/ISD_EntityWriterTemplates.inl:219-242, 268-305, 331-372. *)
Definition d_write_items (h : shape) (items : list val) (ix : option (list N)) (s : wstream)
  : res (bool * wstream) :=
  match h with
  | ShPod k n =>
    let values_count := mul64 (len items) n in
    do r <- d_write_meta (ksize k) values_count ix s; let '(ok, s1) := r in
    if negb ok then Done (false, s1) else
    if 0 <? values_count then
      let expected := add64 (ws_pos s1) (mul64 values_count (ksize k)) in
      do s2 <- ws_write k values_count (pods_image items) s1;
      Done (ws_pos s2 =? expected, s2)
    else Done (true, s1)
  | ShBool =>
    do r <- d_write_meta 0 (len items) ix s; let '(ok, s1) := r in
    if negb ok then Done (false, s1) else
    if 0 <? len items then
      let packed := add64 (len items) 7 / 8 in
      let expected := add64 (ws_pos s1) packed in
      do vec <- pack_loop 0 (map val_bool items) (rep x00 packed);
      do s2 <- ws_write (KW W8) packed vec s1;
      Done (ws_pos s2 =? expected, s2)
    else Done (true, s1)
  | ShString =>
    do r <- d_write_meta 0 (len items) ix s; let '(ok, s1) := r in
    if negb ok then Done (false, s1) else
    if 0 <? len items then
      do r2 <- write_strings (map val_string items) (mul64 8 (len items)) s1;
      let '(vsize, s2) := r2 in
      Done (ws_pos s2 =? add64 (ws_pos s1) vsize, s2)
    else Done (true, s1)
  end.

(** ISD/ISD_EntityWriterTemplates.inl:197-251, 254-315, 318-383 write_array. *)
Definition d_write_array (vt : N) (h : shape) (key : list byte) (items : option (list val))
  (ix : option (list N)) (s : wstream) : res (bool * wstream) :=
  let start := ws_pos s in
  do r <- d_begin_write vt key s; let '(ok, s1) := r in
  if negb ok then Done (false, s1) else
  do r2 <- (match items with Some l => d_write_items h l ix s1 | None => Done (true, s1) end);
  let '(ok2, s2) := r2 in
  if negb ok2 then Done (false, s2) else end_write start s2.

(** write_single_value by type. *)
Definition d_write_single (vt : N) (h : shape) (key : list byte) (v : option val) (s : wstream)
  : res (bool * wstream) :=
  match h with
  | ShBool => d_write_bool vt key (option_map val_bool v) s
  | ShString => d_write_string vt key (option_map val_string v) s
  | ShPod k n => d_write_pod vt k n key (option_map pod_image v) s
  end.

(** EntityWriter::Write<T>: CodeGenerator/Generators/ISD_EntityWriter.py:108-227. *)
Definition d_ew_write (t : dtype) (key : list byte) (c : cval) (s : wstream) : res (bool * wstream) :=
  let h := dshape t in
  match c with
  | CV v => d_write_single (vt_single t) h key (Some v) s
  | COpt o => d_write_single (vt_single t) h key o s
  | CVec l => d_write_array (vt_array t) h key (Some l) None s
  | COptVec o => d_write_array (vt_array t) h key o None s
  | CIdx l ix => d_write_array (vt_array t) h key (Some l) (Some ix) s
  | COptIdx o => d_write_array (vt_array t) h key (option_map fst o) (option_map snd o) s
  end.

(** EntityWriter::Write on the object [h]. *)
Definition d_w_write (h : N) (t : dtype) (key : list byte) (v : cval) (st : wstate) : res (bool * wstate) :=
  match split_at wf_id h (w_chain st) with
  | None => Undef
  | Some _ => do r <- d_ew_write t key v (w_stream st); let '(ok, s1) := r in Done (ok, WSt s1 (w_chain st) (w_next st))
  end.
(** ISD/ISD_EntityWriterTemplates.inl:386-404 BeginWriteSection. *)
Definition d_w_begin (h : N) (key : list byte) (st : wstate) : res (option N * wstate) :=
  match split_at wf_id h (w_chain st) with
  | None => Undef
  | Some (a, f, b) =>
    match b with
    | _ :: _ => Done (None, st)
    | [] =>
      let c := wf_new (w_next st) (w_stream st) in
      do r <- d_begin_write vt_subsection key (w_stream st); let '(ok, s1) := r in
      Done (if ok then Some (w_next st) else None, WSt s1 (a ++ [f; c]) (w_next st + 1))
    end
  end.
(** ISD/ISD_EntityWriterTemplates.inl:434-469 BeginWriteSectionsArray. *)
Definition d_w_begin_arr (h : N) (key : list byte) (size : N) (ix : option (list N)) (st : wstate)
  : res (option N * wstate) :=
  match split_at wf_id h (w_chain st) with
  | None => Undef
  | Some (a, f, b) =>
    match b with
    | _ :: _ => Done (None, st)
    | [] =>
      let c := wf_new (w_next st) (w_stream st) in
      let next := w_next st + 1 in
      do r <- d_begin_write vt_array_subsection key (w_stream st); let '(ok, s1) := r in
      if negb ok then Done (None, WSt s1 (a ++ [f; c]) next) else
      if size =? ones then
        Done (Some (w_next st), WSt s1 (a ++ [WF (wf_id f) (wf_start f) 0 (wf_index f) (wf_arr_start f); c]) next)
      else
        do r2 <- d_write_meta 0 size ix s1; let '(ok2, s2) := r2 in
        if negb ok2 then Done (None, WSt s2 (a ++ [f; c]) next)
        else Done (Some (w_next st), WSt s2 (a ++ [WF (wf_id f) (wf_start f) size ones 0; c]) next)
    end
  end.
(** One call; the End functions and BeginWriteSectionInArray contain no check. *)
Definition d_wstep (c : wcall) (st : wstate) : res (wret * wstate) :=
  match c with
  | WWrite h t key v => as_bool (d_w_write h t key v st)
  | WBegin h key => as_handle (d_w_begin h key st)
  | WBeginArr h key size ix => as_handle (d_w_begin_arr h key size ix st)
  | _ => wstep c st
  end.

(** ** Reader *)

(** ISD/ISD_EntityReaderTemplates.inl:26-72; check in line 29. *)
Definition d_begin_read (e : renv) (vt : N) (key : list byte) (s : rstream) : res (N * rstream) :=
  check (klen key <=? max_key) (begin_read e vt key s).

(** ISD/ISD_EntityReaderTemplates.inl:83-170; checks in lines 107, 108 and 159. *)
Definition d_read_pod (e : renv) (vt : N) (k : kind) (count : N) (key : list byte) (empty_ok : bool)
  (dest : list byte) (s : rstream) : res (rstat * list byte * rstream) :=
  let start := rs_pos s in
  do r1 <- rs_u8 s; let '(value_type, s1) := r1 in
  if negb (value_type =? vt) then Done (SFail, dest, s1) else
  let size_if_empty := klen key in
  let size_full := ksize k * count + size_if_empty in
  check (klen key <=? max_key) (check (size_full <? 256)
  (do r2 <- rs_u8 s1; let '(block_size, s2) := r2 in
   let is_empty := negb (block_size =? size_full) in
   if is_empty && negb (empty_ok && (block_size =? size_if_empty)) then Done (SFail, dest, s2) else
   do r3 <- (if is_empty then Done (count, dest, s2) else rs_read k count dest s2);
   let '(read_count, dest1, s3) := r3 in
   if negb (read_count =? count) then Done (SFail, dest1, s3) else
   do r4 <- rs_read (KW W8) (klen key) (junk e max_key) s3; let '(kl, buf, s4) := r4 in
   if negb (kl =? klen key) then Done (SFail, dest1, s4) else
   do same <- key_matches key buf;
   if negb same then Done (SFail, dest1, s4) else
   let expected := add64 (add64 start 2) (if is_empty then size_if_empty else size_full) in
   check (rs_pos s4 =? expected)
   (if negb (rs_pos s4 =? expected) then Done (SFail, dest1, s4) else
    Done (if is_empty then SEmpty else SOk, dest1, s4)))).

(** ISD/ISD_EntityReaderTemplates.inl:173-182. *)
Definition d_read_bool (e : renv) (vt : N) (key : list byte) (empty_ok : bool) (dest : bool) (s : rstream)
  : res (rstat * bool * rstream) :=
  do r <- d_read_pod e vt (KW W8) 1 key empty_ok (junk e 1) s; let '(st, d, s1) := r in
  match st with
  | SFail => Done (SFail, dest, s1)
  | _ => Done (st, negb (of_le d =? 0), s1)
  end.

(** ISD/ISD_EntityReaderTemplates.inl:186-258; the check of line 190 (dest_data is not null) always
    holds, every caller passes the address of an object. *)
Definition d_read_string (e : renv) (vt : N) (key : list byte) (empty_ok : bool) (dest : list byte)
  (s : rstream) : res (rstat * list byte * rstream) :=
  do r1 <- d_begin_read e vt key s; let '(expected, s1) := r1 in
  if expected =? 0 then Done (SFail, dest, s1) else
  if rs_pos s1 =? expected then Done (end_read_empty empty_ok expected s1, dest, s1) else
  do r2 <- rs_u64 s1; let '(size, s2) := r2 in
  if sub64 expected (rs_pos s2) <? size then Done (SFail, dest, s2) else
  do dest1 <- resize e 1 x00 size dest;
  do r3 <- (if 0 <? size then rs_read (KW W8) size dest1 s2 else Done (size, dest1, s2));
  let '(got, dest2, s3) := r3 in
  if negb (got =? size) then Done (SFail, dest2, s3) else
  if end_read s3 expected then Done (SOk, dest2, s3) else Done (SFail, dest2, s3).

(** ISD/ISD_EntityReaderTemplates.inl:284-353; check in line 317. *)
Definition d_read_meta (e : renv) (count0 block_end : N) (ix : option (list N)) (s : rstream)
  : res (bool * N * N * option (list N) * rstream) :=
  let start := rs_pos s in
  let expected0 := add64 start 10 in
  do r1 <- rs_u16 s; let '(flags, s1) := r1 in
  let per_item := N.land flags 0xff in
  let has_index := negb (N.land flags 0x100 =? 0) in
  let is64 := negb (N.land flags 0x200 =? 0) in
  if is64 then Done (false, per_item, count0, ix, s1) else
  do r2 <- rs_u64 s1; let '(count, s2) := r2 in
  if has_index then
    match ix with
    | None => Done (false, per_item, count, ix, s2)
    | Some l =>
      check (rs_pos s2 <=? block_end)
      (do r3 <- rs_u64 s2; let '(icount, s3) := r3 in
       if sub64 block_end (rs_pos s3) / 4 <? icount then Done (false, per_item, count, ix, s3) else
       do l1 <- resize e 4 0 icount l;
       do r4 <- rs_read (KW W32) icount (flat_map (le 4) l1) s3; let '(_, img, s4) := r4 in
       let l2 := words32 (N.to_nat icount) img in
       let expected := add64 expected0 (add64 8 (mul64 icount 4)) in
       Done (rs_pos s4 =? expected, per_item, count, Some l2, s4))
    end
  else
    match ix with
    | Some _ => Done (false, per_item, count, ix, s2)
    | None => Done (rs_pos s2 =? expected0, per_item, count, ix, s2)
    end.

(** ISD/ISD_EntityReaderTemplates.inl:355-419, 422-481, 483-558 read_array; the checks of lines 361,
    424 and 487 (dest_items is not null) always hold. *)
Definition d_read_array (e : renv) (vt : N) (h : shape) (key : list byte) (empty_ok : bool)
  (dest : list val) (ix : option (list N)) (s : rstream)
  : res (rstat * list val * option (list N) * rstream) :=
  do r1 <- d_begin_read e vt key s; let '(block_end, s1) := r1 in
  if block_end =? 0 then Done (SFail, dest, ix, s1) else
  if block_end =? rs_pos s1 then Done (end_read_empty empty_ok block_end s1, dest, ix, s1) else
  do r2 <- d_read_meta e 0 block_end ix s1; let '(ok, per_item, count, ix1, s2) := r2 in
  if negb ok then Done (SFail, dest, ix1, s2) else
  do r3 <- read_items e h block_end per_item count dest s2; let '(ok2, dest1, s3) := r3 in
  if negb ok2 then Done (SFail, dest1, ix1, s3) else
  if end_read s3 block_end then Done (SOk, dest1, ix1, s3) else Done (SFail, dest1, ix1, s3).

(** read_single_item by type. *)
Definition d_read_single (e : renv) (vt : N) (h : shape) (key : list byte) (empty_ok : bool) (dest : val)
  (s : rstream) : res (rstat * val * rstream) :=
  match h with
  | ShBool => do r <- d_read_bool e vt key empty_ok (val_bool dest) s; let '(st, b, s1) := r in Done (st, VB b, s1)
  | ShString => do r <- d_read_string e vt key empty_ok (val_string dest) s; let '(st, b, s1) := r in Done (st, VS b, s1)
  | ShPod k n => do r <- d_read_pod e vt k n key empty_ok (pod_image dest) s; let '(st, b, s1) := r in Done (st, VP b, s1)
  end.

(** EntityReader::Read<T>: CodeGenerator/Generators/ISD_EntityReader.py:235-291. The checks in value()
    and vector() (ISD/ISD_optional_value.h:33-34, ISD/ISD_optional_vector.h:43-44,
    ISD/ISD_optional_idx_vector.h:44-45) hold, since set() was called before. *)
Definition d_er_read_plain (e : renv) (t : dtype) (key : list byte) (dest : cval) (s : rstream)
  : res (bool * cval * rstream) :=
  let h := dshape t in
  match dest with
  | CV v =>
    do r <- d_read_single e (vt_single t) h key false v s; let '(st, v1, s1) := r in
    Done (st_ok st, CV v1, s1)
  | COpt _ =>
    do r <- d_read_single e (vt_single t) h key true (val_default h) s; let '(st, v1, s1) := r in
    Done (st_ok st, match st with SEmpty => COpt None | _ => COpt (Some v1) end, s1)
  | CVec l =>
    do r <- d_read_array e (vt_array t) h key false l None s; let '(st, l1, _, s1) := r in
    Done (st_ok st, CVec l1, s1)
  | COptVec _ =>
    do r <- d_read_array e (vt_array t) h key true [] None s; let '(st, l1, _, s1) := r in
    Done (st_ok st, match st with SEmpty => COptVec None | _ => COptVec (Some l1) end, s1)
  | CIdx l ix =>
    do r <- d_read_array e (vt_array t) h key false l (Some ix) s; let '(st, l1, ix1, s1) := r in
    Done (st_ok st, CIdx l1 (ix_or_nil ix1), s1)
  | COptIdx _ =>
    do r <- d_read_array e (vt_array t) h key true [] (Some []) s; let '(st, l1, ix1, s1) := r in
    Done (st_ok st, match st with SEmpty => COptIdx None | _ => COptIdx (Some (l1, ix_or_nil ix1)) end, s1)
  end.
(** CodeGenerator/Generators/ISD_EntityReader.py:116-233. *)
Definition d_er_read_override (e : renv) (t : dtype) (key : list byte) (dest : cval) (s : rstream)
  : res (bool * cval * rstream) :=
  do r <- d_er_read_plain e t key (cval_default t (cval_ctype dest)) s; let '(ok, tmp, s1) := r in
  if negb ok then Done (false, dest, s1) else
  Done (true,
    match dest, tmp with
    | CVec l, CVec l1 => CVec (l ++ l1)
    | CIdx l _, CIdx l1 ix1 => CIdx (l ++ l1) ix1
    | _, _ => tmp
    end, s1).
(** EntityReader::Read<T>. *)
Definition d_er_read (e : renv) (t : dtype) (key : list byte) (dest : cval) (s : rstream)
  : res (bool * cval * rstream) :=
  match t with
  | TEntityRef => d_er_read_override e TUuid key dest s
  | TPackageRef => d_er_read_override e THash key dest s
  | _ => d_er_read_plain e t key dest s
  end.

(** EntityReader::Read on the object [h]. *)
Definition d_r_read (e : renv) (h : N) (t : dtype) (key : list byte) (dest : cval) (st : rstate)
  : res (bool * cval * rstate) :=
  match split_at rf_id h (r_chain st) with
  | None => Undef
  | Some _ => do r <- d_er_read e t key dest (r_stream st); let '(ok, v, s1) := r in
              Done (ok, v, RSt s1 (r_chain st) (r_next st))
  end.
(** ISD/ISD_EntityReaderTemplates.inl:563-590 BeginReadSection. *)
Definition d_r_begin (e : renv) (h : N) (key : list byte) (null_ok : bool) (st : rstate)
  : res (option N * bool * rstate) :=
  match split_at rf_id h (r_chain st) with
  | None => Undef
  | Some (a, f, b) =>
    match b with
    | _ :: _ => Done (None, false, st)
    | [] =>
      do r <- d_begin_read e vt_subsection key (r_stream st); let '(endp, s1) := r in
      let st1 := RSt s1 (r_chain st) (r_next st) in
      if endp =? 0 then Done (None, false, st1) else
      if endp =? rs_pos s1 then Done (None, st_ok (end_read_empty null_ok endp s1), st1) else
      Done (Some (r_next st), true, RSt s1 (a ++ [f; rf_new (r_next st) endp]) (r_next st + 1))
    end
  end.
(** ISD/ISD_EntityReaderTemplates.inl:614-649 BeginReadSectionsArray. *)
Definition d_r_begin_arr (e : renv) (h : N) (key : list byte) (null_ok : bool) (ix : option (list N)) (st : rstate)
  : res (option N * N * bool * option (list N) * rstate) :=
  match split_at rf_id h (r_chain st) with
  | None => Undef
  | Some (a, f, b) =>
    match b with
    | _ :: _ => Done (None, 0, false, ix, st)
    | [] =>
      do r <- d_begin_read e vt_array_subsection key (r_stream st); let '(endp, s1) := r in
      let st1 := RSt s1 (r_chain st) (r_next st) in
      if endp =? 0 then Done (None, 0, false, ix, st1) else
      if endp =? rs_pos s1 then Done (None, 0, st_ok (end_read_empty null_ok endp s1), ix, st1) else
      do r2 <- d_read_meta e (rf_size f) endp ix s1; let '(ok, _, count, ix1, s2) := r2 in
      if negb ok then
        Done (None, 0, false, ix1, RSt s2 (a ++ [RF (rf_id f) (rf_end f) count (rf_index f) (rf_end_pos f)]) (r_next st))
      else
        Done (Some (r_next st), count, true, ix1,
          RSt s2 (a ++ [RF (rf_id f) (rf_end f) count ones (rf_end_pos f); rf_new (r_next st) endp]) (r_next st + 1))
    end
  end.
(** One call; the other functions contain no check. *)
Definition d_rstep (e : renv) (c : rcall) (st : rstate) : res (rret * rstate) :=
  match c with
  | RRead h t key dest => do x <- d_r_read e h t key dest st; let '(ok, v, st1) := x in Done (RValue ok v, st1)
  | RBegin h key null_ok => do x <- d_r_begin e h key null_ok st; let '(c, ok, st1) := x in Done (RHandle c 0 ok, st1)
  | RBeginArr h key null_ok ix =>
    do x <- d_r_begin_arr e h key null_ok ix st; let '(c, size, ok, _, st1) := x in Done (RHandle c size ok, st1)
  | _ => rstep e c st
  end.

(** ** DirectedGraph validation *)
Section Graph.
Context {K : Type} (Ko : keyops K).
Notation lt := (k_lt Ko).

(** The iterator range of ISD/ISD_DirectedGraph.h:272-273 and 328-329. *)
Definition out_edges (edges : list (K * K)) (curr : K) : list (K * K) :=
  range (lower_bound (pair_lt lt) (curr, k_inf Ko) edges) (upper_bound (pair_lt lt) (curr, k_sup Ko) edges).

(** The loop over the children in ValidateNoCycles, ISD/ISD_DirectedGraph.h:274-295; check in line
    276. *)
Fixpoint d_scan (curr : K) (on_stack checked : list K) (es : list (K * K)) (stack : list K) : res (bool * list K) :=
  match es with
  | [] => Done (false, stack)
  | p :: r =>
    check (k_eq Ko (fst p) curr)
    (let c := snd p in
     if negb (contains Ko checked c) then d_scan curr on_stack checked r (c :: stack)
     else if contains Ko on_stack c then Done (true, stack)
     else d_scan curr on_stack checked r stack)
  end.
(** Lines 253-296. *)
Fixpoint d_dfs (n : nat) (edges : list (K * K)) (stack on_stack checked : list K)
  : option (res (bool * list K * list K)) :=
  match stack with
  | [] => Some (Done (false, on_stack, checked))
  | curr :: rest =>
    match n with
    | O => None
    | S n' =>
      let '(stack1, on1, checked1) :=
        if negb (contains Ko checked curr) then (stack, set_insert lt curr on_stack, set_insert lt curr checked)
        else (rest, set_erase lt curr on_stack, checked) in
      match d_scan curr on1 checked1 (out_edges edges curr) stack1 with
      | Done (cycle, stack2) => if cycle then Some (Done (true, on1, checked1)) else d_dfs n' edges stack2 on1 checked1
      | Throw => Some Throw
      | Undef => Some Undef
      end
    end
  end.
(** Lines 241-297. *)
Fixpoint d_no_cycles_loop (n : nat) (edges todo : list (K * K)) (on_stack checked : list K) : option (res (list N)) :=
  match todo with
  | [] => Some (Done [])
  | p :: r =>
    if contains Ko checked (fst p) then d_no_cycles_loop n edges r on_stack checked
    else match d_dfs n edges [fst p] on_stack checked with
         | None => None
         | Some (Done (true, _, _)) => Some (Done [InvalidSetup])
         | Some (Done (false, on1, checked1)) => d_no_cycles_loop n edges r on1 checked1
         | Some Throw => Some Throw
         | Some Undef => Some Undef
         end
  end.
(** Lines 330-341: the children of a node that go into the queue; check in line 332. *)
Fixpoint d_fresh (curr : K) (reached : list K) (es : list (K * K)) : res (list K) :=
  match es with
  | [] => Done []
  | p :: r =>
    check (k_eq Ko (fst p) curr)
    (do l <- d_fresh curr reached r; Done (if negb (contains Ko reached (snd p)) then snd p :: l else l))
  end.
(** Lines 314-342. *)
Fixpoint d_bfs (n : nat) (edges : list (K * K)) (queue reached : list K) : option (res (list K)) :=
  match queue with
  | [] => Some (Done reached)
  | curr :: rest =>
    match n with
    | O => None
    | S n' =>
      if contains Ko reached curr then d_bfs n' edges rest reached
      else
        let reached1 := set_insert lt curr reached in
        match d_fresh curr reached1 (out_edges edges curr) with
        | Done l => d_bfs n' edges (rest ++ l) reached1
        | Throw => Some Throw
        | Undef => Some Undef
        end
    end
  end.
(** MF::Validate, ISD/ISD_DirectedGraph.h:359-430. *)
Definition d_g_validate (n : nat) (f : gflags) (g : graph K) : option (res (list N)) :=
  let dn := downstream_nodes Ko (g_edges g) in
  let rn := root_nodes Ko (g_edges g) in
  let e1 := if f_single f then (if negb (Nat.eqb (length rn) 1) then [InvalidCount] else []) else [] in
  let e2 := if f_rooted f then (if f_single f then (if negb (Nat.eqb (length (g_roots g)) 1) then [InvalidCount] else []) else []) else [] in
  let e3 := if f_rooted f then map (fun _ => InvalidObject) (filter (contains Ko dn) (g_roots g)) else [] in
  let e4 := if f_rooted f then map (fun _ => MissingObject) (filter (fun x => negb (contains Ko (g_roots g) x)) rn) else [] in
  match (if f_rooted f then
           match d_bfs n (g_edges g) (g_roots g) [] with
           | None => None
           | Some m => Some (do reached <- m;
               Done (map (fun _ => InvalidSetup) (filter (fun x => negb (contains Ko reached x)) dn)))
           end
         else Some (Done [])) with
  | None => None
  | Some Throw => Some Throw
  | Some Undef => Some Undef
  | Some (Done e5) =>
    match (if f_acyclic f then d_no_cycles_loop n (g_edges g) (g_edges g) [] [] else Some (Done [])) with
    | None => None
    | Some m => Some (do e6 <- m; Done (e1 ++ e2 ++ e3 ++ e4 ++ e5 ++ e6))
    end
  end.
End Graph.
