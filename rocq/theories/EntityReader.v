(** * EntityReader: the value and array reading functions. Model only. *)
From Verif Require Import Base Bytes Values Streams Types EntityWriter.
Open Scope N_scope.

(** Environment of a read: [e_lim] is the largest allocation that succeeds (string and vector resize
    throw above it), [e_junk] the contents of uninitialised stack memory. *)
Record renv := RE { e_lim : N; e_junk : nat -> byte }.
Definition junk (e : renv) (n : N) : list byte := map (e_junk e) (seq 0 (N.to_nat n)).

(** ISD/ISD_EntityReaderTemplates.inl:16-21 reader_status. *)
Inductive rstat := SFail | SEmpty | SOk.

(** EntityMaxKeyLength, ISD/ISD_Types.h:46. *)
Definition max_key : N := 40.

(** memcmp( key, read_key, n ) == 0 for a read_key buffer of EntityMaxKeyLength bytes; undefined when
    the length exceeds it. *)
Definition bytes_eqb (a b : list byte) : bool :=
  (len a =? len b) && forallb (fun p => Byte.eqb (fst p) (snd p)) (combine a b).
Definition key_matches (key buf : list byte) : res bool :=
  if len buf <? klen key then Undef else Done (bytes_eqb (kbytes key) (take (klen key) buf)).

(** ISD/ISD_EntityReaderTemplates.inl:26-72 begin_read_large_block; 0 is failure. *)
Definition begin_read (e : renv) (vt : N) (key : list byte) (s : rstream) : res (N * rstream) :=
  do r1 <- rs_u8 s; let '(value_type, s1) := r1 in
  if negb (value_type =? vt) then Done (0, s1) else
  do r2 <- rs_u64 s1; let '(block_size, s2) := r2 in
  let expected := add64 (rs_pos s2) block_size in
  if rs_size s2 <? expected then Done (0, s2) else
  do r3 <- rs_u8 s2; let '(ks, s3) := r3 in
  if negb (ks =? klen key) then Done (0, s3) else
  do r4 <- rs_read (KW W8) (klen key) (junk e max_key) s3; let '(_, buf, s4) := r4 in
  do same <- key_matches key buf;
  if (same : bool) then Done (expected, s4) else Done (0, s4).

(** ISD/ISD_EntityReaderTemplates.inl:75-79 end_read_large_block. *)
Definition end_read (s : rstream) (expected : N) : bool := rs_pos s =? expected.

(** ISD/ISD_EntityReaderTemplates.inl:83-170 read_single_item, general template. [dest] is the memory
    image of the destination object. *)
Definition read_pod (e : renv) (vt : N) (k : kind) (count : N) (key : list byte) (empty_ok : bool)
  (dest : list byte) (s : rstream) : res (rstat * list byte * rstream) :=
  let start := rs_pos s in
  do r1 <- rs_u8 s; let '(value_type, s1) := r1 in
  if negb (value_type =? vt) then Done (SFail, dest, s1) else
  let size_if_empty := klen key in
  let size_full := ksize k * count + size_if_empty in
  do r2 <- rs_u8 s1; let '(block_size, s2) := r2 in
  let is_empty := negb (block_size =? size_full) in
  if is_empty && negb (empty_ok && (block_size =? size_if_empty)) then Done (SFail, dest, s2) else
  do r3 <- (if is_empty then Done (count, dest, s2) else rs_read k count dest s2);
  let '(read_count, dest1, s3) := r3 in
  if negb (read_count =? count) then Done (SFail, dest1, s3) else
  do r4 <- rs_read (KW W8) (klen key) (junk e max_key) s3; let '(kl, buf, s4) := r4 in
  if negb (kl =? klen key) then Done (SFail, dest1, s4) else
  do same <- key_matches key buf;
  if negb same then Done (SFail, dest1, s4) else
  let expected := add64 (add64 start 2) (if is_empty then size_if_empty else size_full) in
  if negb (rs_pos s4 =? expected) then Done (SFail, dest1, s4) else
  Done (if is_empty then SEmpty else SOk, dest1, s4).

(** ISD/ISD_EntityReaderTemplates.inl:173-182: bool through an uninitialised u8. *)
Definition read_bool (e : renv) (vt : N) (key : list byte) (empty_ok : bool) (dest : bool) (s : rstream)
  : res (rstat * bool * rstream) :=
  do r <- read_pod e vt (KW W8) 1 key empty_ok (junk e 1) s; let '(st, d, s1) := r in
  match st with
  | SFail => Done (SFail, dest, s1)
  | _ => Done (st, negb (of_le d =? 0), s1)
  end.

(** std::string::resize / std::vector::resize: keeps the common prefix, appends [fill]; throws when
    [n] elements of [size] bytes exceed the allocation limit. *)
Definition resize {A} (e : renv) (size : N) (fill : A) (n : N) (l : list A) : res (list A) :=
  if e_lim e <? n * size then Throw else Done (take n l ++ rep fill (n - len l)).

(** ISD/ISD_EntityReaderTemplates.inl:260-281 end_read_empty_large_block. *)
Definition end_read_empty (empty_ok : bool) (expected : N) (s : rstream) : rstat :=
  if empty_ok then (if end_read s expected then SEmpty else SFail) else SFail.

(** ISD/ISD_EntityReaderTemplates.inl:186-258: string. *)
Definition read_string (e : renv) (vt : N) (key : list byte) (empty_ok : bool) (dest : list byte)
  (s : rstream) : res (rstat * list byte * rstream) :=
  do r1 <- begin_read e vt key s; let '(expected, s1) := r1 in
  if expected =? 0 then Done (SFail, dest, s1) else
  if rs_pos s1 =? expected then Done (end_read_empty empty_ok expected s1, dest, s1) else
  do r2 <- rs_u64 s1; let '(size, s2) := r2 in
  if sub64 expected (rs_pos s2) <? size then Done (SFail, dest, s2) else
  do dest1 <- resize e 1 x00 size dest;
  do r3 <- (if 0 <? size then rs_read (KW W8) size dest1 s2 else Done (size, dest1, s2));
  let '(got, dest2, s3) := r3 in
  if negb (got =? size) then Done (SFail, dest2, s3) else
  if end_read s3 expected then Done (SOk, dest2, s3) else Done (SFail, dest2, s3).

(** The i32 values of an index from their memory image. *)
Fixpoint words32 (n : nat) (l : list byte) : list N :=
  match n with O => [] | S n' => of_le (take 4 l) :: words32 n' (drop 4 l) end.

(** ISD/ISD_EntityReaderTemplates.inl:284-353 read_array_metadata_and_index. Returns success, item
    size, item count and the index; [ix] is None when dest_index is nullptr, [count0] is the value of
    out_item_count before the call. *)
Definition read_meta (e : renv) (count0 block_end : N) (ix : option (list N)) (s : rstream)
  : res (bool * N * N * option (list N) * rstream) :=
  let start := rs_pos s in
  let expected0 := add64 start 10 in
  do r1 <- rs_u16 s; let '(flags, s1) := r1 in
  let per_item := N.land flags 0xff in
  let has_index := negb (N.land flags 0x100 =? 0) in
  let is64 := negb (N.land flags 0x200 =? 0) in
  if is64 then Done (false, per_item, count0, ix, s1) else
  do r2 <- rs_u64 s1; let '(count, s2) := r2 in
  if has_index then
    match ix with
    | None => Done (false, per_item, count, ix, s2)
    | Some l =>
      do r3 <- rs_u64 s2; let '(icount, s3) := r3 in
      if sub64 block_end (rs_pos s3) / 4 <? icount then Done (false, per_item, count, ix, s3) else
      do l1 <- resize e 4 0 icount l;
      do r4 <- rs_read (KW W32) icount (flat_map (le 4) l1) s3; let '(_, img, s4) := r4 in
      let l2 := words32 (N.to_nat icount) img in
      let expected := add64 expected0 (add64 8 (mul64 icount 4)) in
      Done (rs_pos s4 =? expected, per_item, count, Some l2, s4)
    end
  else
    match ix with
    | Some _ => Done (false, per_item, count, ix, s2)
    | None => Done (rs_pos s2 =? expected0, per_item, count, ix, s2)
    end.

(** The objects of a vector from the memory image of its elements ([size] bytes each). *)
Fixpoint pods_of (n : nat) (size : N) (l : list byte) : list val :=
  match n with O => [] | S n' => VP (take size l) :: pods_of n' size (drop size l) end.

(** ISD/ISD_EntityReaderTemplates.inl:461-467: the unpacking loop. *)
Fixpoint unpack_loop (n : nat) (i : N) (vec : list byte) : res (list bool) :=
  match n with
  | O => Done []
  | S n' =>
    let packed_index := N.shiftr i 3 in
    let packed_subindex := N.land i 7 in
    if packed_index <? len vec then
      let b := negb (N.land (b2n (nth (N.to_nat packed_index) vec x00)) (N.shiftl 1 packed_subindex) =? 0) in
      do l <- unpack_loop n' (i + 1) vec; Done (b :: l)
    else Undef
  end.

(** ISD/ISD_EntityReaderTemplates.inl:517-546: the loop reading strings into the elements of the
    resized vector; returns false when it returned fail, with the vector at that moment. *)
Fixpoint read_strings (e : renv) (block_end : N) (l : list (list byte)) (s : rstream)
  : res (bool * list (list byte) * rstream) :=
  match l with
  | [] => Done (true, [], s)
  | d :: l' =>
    do r1 <- rs_u64 s; let '(size, s1) := r1 in
    if sub64 block_end (rs_pos s1) <? size then Done (false, d :: l', s1) else
    do d1 <- resize e 1 x00 size d;
    do r2 <- (if 0 <? size then rs_read (KW W8) size d1 s1 else Done (size, d1, s1));
    let '(got, d2, s2) := r2 in
    if negb (got =? size) then Done (false, d2 :: l', s2) else
    do r3 <- read_strings e block_end l' s2; let '(ok, l2, s3) := r3 in
    Done (ok, d2 :: l2, s3)
  end.

(** sizeof(std::string) in the 64-bit MSVC library. *)
Definition sizeof_string : N := 32.

(** read_array after the block header and metadata: general template
    ISD/ISD_EntityReaderTemplates.inl:386-411, bool :447-473, string :512-551. The result is the status
    before the final end_read_large_block check. *)
Definition read_items (e : renv) (h : shape) (block_end per_item count : N) (dest : list val)
  (s : rstream) : res (bool * list val * rstream) :=
  match h with
  | ShPod k n =>
    if negb (ksize k =? per_item) then Done (false, dest, s) else
    if sub64 block_end (rs_pos s) / ksize k <? count then Done (false, dest, s) else
    let type_count := count / n in
    do dest1 <- resize e (n * ksize k) (val_default h) type_count dest;
    do r <- rs_read k count (pods_image dest1) s; let '(got, img, s1) := r in
    Done (got =? count, pods_of (N.to_nat type_count) (n * ksize k) img, s1)
  | ShBool =>
    let packed := add64 count 7 / 8 in
    if sub64 block_end (rs_pos s) <? packed then Done (false, dest, s) else
    do dest1 <- (if e_lim e <? (count + 7) / 8 then Throw
                 else Done (take count dest ++ rep (VB false) (count - len dest)));
    do vec <- resize e 1 x00 packed [];
    do r <- rs_read (KW W8) packed vec s; let '(_, vec1, s1) := r in
    do bits <- unpack_loop (N.to_nat count) 0 vec1;
    Done (true, map VB bits, s1)
  | ShString =>
    if sub64 block_end (rs_pos s) / 8 <? count then Done (false, dest, s) else
    do dest1 <- resize e sizeof_string (VS []) count dest;
    do r <- read_strings e block_end (map val_string dest1) s; let '(ok, l, s1) := r in
    Done (ok, map VS l, s1)
  end.

(** ISD/ISD_EntityReaderTemplates.inl:355-419, 422-481, 483-558 read_array. *)
Definition read_array (e : renv) (vt : N) (h : shape) (key : list byte) (empty_ok : bool)
  (dest : list val) (ix : option (list N)) (s : rstream)
  : res (rstat * list val * option (list N) * rstream) :=
  do r1 <- begin_read e vt key s; let '(block_end, s1) := r1 in
  if block_end =? 0 then Done (SFail, dest, ix, s1) else
  if block_end =? rs_pos s1 then Done (end_read_empty empty_ok block_end s1, dest, ix, s1) else
  do r2 <- read_meta e 0 block_end ix s1; let '(ok, per_item, count, ix1, s2) := r2 in
  if negb ok then Done (SFail, dest, ix1, s2) else
  do r3 <- read_items e h block_end per_item count dest s2; let '(ok2, dest1, s3) := r3 in
  if negb ok2 then Done (SFail, dest1, ix1, s3) else
  if end_read s3 block_end then Done (SOk, dest1, ix1, s3) else Done (SFail, dest1, ix1, s3).

(** read_single_item by type. *)
Definition read_single (e : renv) (vt : N) (h : shape) (key : list byte) (empty_ok : bool) (dest : val)
  (s : rstream) : res (rstat * val * rstream) :=
  match h with
  | ShBool => do r <- read_bool e vt key empty_ok (val_bool dest) s; let '(st, b, s1) := r in Done (st, VB b, s1)
  | ShString => do r <- read_string e vt key empty_ok (val_string dest) s; let '(st, b, s1) := r in Done (st, VS b, s1)
  | ShPod k n => do r <- read_pod e vt k n key empty_ok (pod_image dest) s; let '(st, b, s1) := r in Done (st, VP b, s1)
  end.

Definition st_ok (st : rstat) : bool := match st with SFail => false | _ => true end.

(** The index vector after a read (always present for the indexed containers). *)
Definition ix_or_nil (o : option (list N)) : list N := match o with Some l => l | None => [] end.

(** EntityReader::Read<T> for types without override:
    CodeGenerator/Generators/ISD_EntityReader.py:235-291. Optional destinations are first set(), which
    stores a value-initialised object or an empty vector whatever was there before
    (ISD/ISD_optional_value.h:29, ISD/ISD_optional_vector.h:38, ISD/ISD_optional_idx_vector.h:38). *)
Definition er_read_plain (e : renv) (t : dtype) (key : list byte) (dest : cval) (s : rstream)
  : res (bool * cval * rstream) :=
  let h := dshape t in
  match dest with
  | CV v =>
    do r <- read_single e (vt_single t) h key false v s; let '(st, v1, s1) := r in
    Done (st_ok st, CV v1, s1)
  | COpt _ =>
    do r <- read_single e (vt_single t) h key true (val_default h) s; let '(st, v1, s1) := r in
    Done (st_ok st, match st with SEmpty => COpt None | _ => COpt (Some v1) end, s1)
  | CVec l =>
    do r <- read_array e (vt_array t) h key false l None s; let '(st, l1, _, s1) := r in
    Done (st_ok st, CVec l1, s1)
  | COptVec _ =>
    do r <- read_array e (vt_array t) h key true [] None s; let '(st, l1, _, s1) := r in
    Done (st_ok st, match st with SEmpty => COptVec None | _ => COptVec (Some l1) end, s1)
  | CIdx l ix =>
    do r <- read_array e (vt_array t) h key false l (Some ix) s; let '(st, l1, ix1, s1) := r in
    Done (st_ok st, CIdx l1 (ix_or_nil ix1), s1)
  | COptIdx _ =>
    do r <- read_array e (vt_array t) h key true [] (Some []) s; let '(st, l1, ix1, s1) := r in
    Done (st_ok st, match st with SEmpty => COptIdx None | _ => COptIdx (Some (l1, ix_or_nil ix1)) end, s1)
  end.

(** EntityReader::Read<T> for entity_ref and package_ref: a temporary of the item type is read; then
    single and optional destinations are replaced (set() clears), while the items are appended to a
    vector or idx_vector destination (emplace_back without clear):
    CodeGenerator/Generators/ISD_EntityReader.py:116-233. [t] is the item type (uuid or hash). *)
Definition er_read_override (e : renv) (t : dtype) (key : list byte) (dest : cval) (s : rstream)
  : res (bool * cval * rstream) :=
  do r <- er_read_plain e t key (cval_default t (cval_ctype dest)) s; let '(ok, tmp, s1) := r in
  if negb ok then Done (false, dest, s1) else
  Done (true,
    match dest, tmp with
    | CVec l, CVec l1 => CVec (l ++ l1)
    | CIdx l _, CIdx l1 ix1 => CIdx (l ++ l1) ix1
    | _, _ => tmp
    end, s1).

(** EntityReader::Read<T>. *)
Definition er_read (e : renv) (t : dtype) (key : list byte) (dest : cval) (s : rstream)
  : res (bool * cval * rstream) :=
  match t with
  | TEntityRef => er_read_override e TUuid key dest s
  | TPackageRef => er_read_override e THash key dest s
  | _ => er_read_plain e t key dest s
  end.
