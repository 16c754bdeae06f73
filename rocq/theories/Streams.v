(** * Streams: MemoryWriteStream and MemoryReadStream. Model only; facts are in StreamFacts.v. *)
From Verif Require Import Base Bytes Values.
Open Scope N_scope.

(** ** MemoryWriteStream *)

(** Data members of MemoryWriteStream, ISD/ISD_MemoryWriteStream.h:27-34.
    [ws_mem] is the content of the allocated area (always the whole allocation);
    [ws_lim] is the environment: VirtualAlloc succeeds for sizes 1..ws_lim and fails otherwise
    (PageSize is unused by the code and omitted). *)
Record wstream := WS {
  ws_mem : list byte;
  ws_size : N;
  ws_pos : N;
  ws_res : N;
  ws_flip : bool;
  ws_lim : N }.

(** ISD/ISD_MemoryWriteStream.h:98-125 ReserveForSize. Returns false when std::bad_alloc is
    thrown; the returned stream is the object state at that moment (DataReservedSize has
    already been changed, the allocation has not). VirtualAlloc zero-fills. *)
Definition ws_reserve (r : N) (s : wstream) : bool * wstream :=
  let d := mul64 (ws_res s) 2 in
  let d := if d <? r then r else d in
  if (0 <? d) && (d <=? ws_lim s)
  then (true, WS (take (ws_size s) (ws_mem s) ++ rep x00 (d - len (take (ws_size s) (ws_mem s))))
                 (ws_size s) (ws_pos s) d (ws_flip s) (ws_lim s))
  else (false, WS (ws_mem s) (ws_size s) (ws_pos s) d (ws_flip s) (ws_lim s)).

(** ISD/ISD_MemoryWriteStream.h:51 constructor: reserves the initial allocation. *)
Definition ws_new (initial lim : N) : bool * wstream :=
  ws_reserve initial (WS [] 0 0 0 false lim).

(** ISD/ISD_MemoryWriteStream.h:136-144 Resize. *)
Definition ws_resize (n : N) (s : wstream) : bool * wstream :=
  let '(ok, s1) := if ws_res s <? n then ws_reserve n s else (true, s) in
  if ok then (true, WS (ws_mem s1) n (ws_pos s1) (ws_res s1) (ws_flip s1) (ws_lim s1))
  else (false, s1).

(** ISD/ISD_MemoryWriteStream.h:146-158 WriteRawData. The boolean is false when bad_alloc left the
    call; the memcpy is undefined when it would leave the allocation. *)
Definition ws_raw (src : list byte) (s : wstream) : res (bool * wstream) :=
  let count := len src in
  let end_pos := add64 (ws_pos s) count in
  let '(ok, s1) := if ws_size s <? end_pos then ws_resize end_pos s else (true, s) in
  if ok then
    if ws_pos s1 + count <=? len (ws_mem s1)
    then Done (true, WS (take (ws_pos s1) (ws_mem s1) ++ src ++ drop (ws_pos s1 + count) (ws_mem s1))
                        (ws_size s1) end_pos (ws_res s1) (ws_flip s1) (ws_lim s1))
    else Undef
  else Done (false, s1).

(** ISD/ISD_MemoryWriteStream.h:160-174 WriteValues<T> and :176-179 WriteValues<u8>.
    [src] is the memory image of the [count] source words; reading behind it is undefined. *)
Definition ws_words (w : wsize) (count : N) (src : list byte) (s : wstream) : res (bool * wstream) :=
  let n := match w with W8 => count | _ => mul64 count (wbytes w) end in
  if len src <? n then Undef else
  do r <- ws_raw (take n src) s;
  let '(ok, s1) := r in
  match w with
  | W8 => Done (ok, s1)
  | _ =>
    if ok && ws_flip s then
      if ws_pos s + count * wbytes w <=? len (ws_mem s1)
      then Done (true, WS (take (ws_pos s) (ws_mem s1)
                             ++ swap_words w (N.to_nat count) (drop (ws_pos s) (ws_mem s1)))
                          (ws_size s1) (ws_pos s1) (ws_res s1) (ws_flip s1) (ws_lim s1))
      else Undef
    else Done (ok, s1)
  end.

(** ISD/ISD_MemoryWriteStream.h:191-198 SetPosition. *)
Definition ws_setpos (p : N) (s : wstream) : bool * wstream :=
  let '(ok, s1) := if ws_size s <? p then ws_resize p s else (true, s) in
  if ok then (true, WS (ws_mem s1) (ws_size s1) p (ws_res s1) (ws_flip s1) (ws_lim s1))
  else (false, s1).

(** ISD/ISD_MemoryWriteStream.h:205-208 SetFlipByteOrder. *)
Definition ws_setflip (b : bool) (s : wstream) : wstream :=
  WS (ws_mem s) (ws_size s) (ws_pos s) (ws_res s) b (ws_lim s).

(** ISD/ISD_MemoryWriteStream.h:55 GetData (the first GetSize() bytes of it). *)
Definition ws_data (s : wstream) : list byte := take (ws_size s) (ws_mem s).

(** An exception ends the enclosing computation. *)
Definition thrown (r : bool * wstream) : res wstream :=
  let '(ok, s) := r in if ok then Done s else Throw.
Definition thrown_res (r : res (bool * wstream)) : res wstream :=
  do x <- r; thrown x.

(** ISD/ISD_MemoryWriteStream.h:243-261: the loop writing [count] uuids. *)
Fixpoint ws_uuids (count : nat) (src : list byte) (s : wstream) : res wstream :=
  match count with
  | O => Done s
  | S c =>
    if len src <? 16 then Undef else
    do s1 <- thrown_res (ws_words W8 16 (uuid_to_wire (take 16 src)) s);
    ws_uuids c (drop 16 src) s1
  end.

(** ISD/ISD_MemoryWriteStream.h:225-272: Write( const T *src, u64 count ) by kind; [src] is the
    memory image of the source array. Signed integers and floats are written through the unsigned
    word of the same size (:229-240). *)
Definition ws_write (k : kind) (count : N) (src : list byte) (s : wstream) : res wstream :=
  match k with
  | KW w => thrown_res (ws_words w count src s)
  | KUuid => ws_uuids (N.to_nat count) src s
  | KHash => thrown_res (ws_words W8 (mul64 32 count) src s)
  end.

(** ISD/ISD_MemoryWriteStream.h:211-222: single values. *)
Definition ws_u8 (v : N) (s : wstream) : res wstream := ws_write (KW W8) 1 (le 1 v) s.
Definition ws_u16 (v : N) (s : wstream) : res wstream := ws_write (KW W16) 1 (le 2 v) s.
Definition ws_u32 (v : N) (s : wstream) : res wstream := ws_write (KW W32) 1 (le 4 v) s.
Definition ws_u64 (v : N) (s : wstream) : res wstream := ws_write (KW W64) 1 (le 8 v) s.

(** ** MemoryReadStream *)

(** Data members of MemoryReadStream, ISD/ISD_MemoryReadStream.h:22-25; DataSize is the length
    of the data. *)
Record rstream := RS {
  rs_data : list byte;
  rs_pos : N;
  rs_flip : bool }.

(** ISD/ISD_MemoryReadStream.h:124-127 GetSize. *)
Definition rs_size (s : rstream) : N := len (rs_data s).

(** ISD/ISD_MemoryReadStream.h:84-90 Peek. *)
Definition rs_peek (s : rstream) : byte :=
  if rs_size s <=? rs_pos s then x00 else nth (N.to_nat (rs_pos s)) (rs_data s) x00.

(** ISD/ISD_MemoryReadStream.h:92-106 ReadRawData. [dest] is the destination memory (its whole
    length may be written). The memcpy is undefined if it leaves the source or the destination. *)
Definition rs_raw (count : N) (dest : list byte) (s : rstream) : res (N * list byte * rstream) :=
  let end0 := add64 (rs_pos s) count in
  let '(end_pos, n) := if rs_size s <? end0 then (rs_size s, sub64 (rs_size s) (rs_pos s))
                       else (end0, count) in
  if (rs_pos s + n <=? rs_size s) && (n <=? len dest)
  then Done (n, take n (drop (rs_pos s) (rs_data s)) ++ drop n dest,
             RS (rs_data s) end_pos (rs_flip s))
  else Undef.

(** ISD/ISD_MemoryReadStream.h:108-117 ReadValues<T> and :119-122 ReadValues<u8>. Note that the
    swap covers [count] words whatever number was read. *)
Definition rs_words (w : wsize) (count : N) (dest : list byte) (s : rstream)
  : res (N * list byte * rstream) :=
  match w with
  | W8 => rs_raw count dest s
  | _ =>
    do r <- rs_raw (mul64 count (wbytes w)) dest s;
    let '(got, d, s1) := r in
    let readc := got / wbytes w in
    if rs_flip s then
      if count * wbytes w <=? len d
      then Done (readc, swap_words w (N.to_nat count) d, s1)
      else Undef
    else Done (readc, d, s1)
  end.

(** ISD/ISD_MemoryReadStream.h:197-211: the loop reading uuids; [i] counts the items done. *)
Fixpoint rs_uuids (count : nat) (i : N) (dest : list byte) (s : rstream)
  : res (N * list byte * rstream) :=
  match count with
  | O => Done (i, dest, s)
  | S c =>
    do r <- rs_words W8 16 (rep x00 16) s;
    let '(got, raw, s1) := r in
    if got =? 16 then
      if (i + 1) * 16 <=? len dest
      then rs_uuids c (i + 1)
             (take (i * 16) dest ++ uuid_from_wire raw ++ drop ((i + 1) * 16) dest) s1
      else Undef
    else Done (i, dest, s1)
  end.

(** ISD/ISD_MemoryReadStream.h:175-224: Read( T *dest, u64 count ) by kind. *)
Definition rs_read (k : kind) (count : N) (dest : list byte) (s : rstream)
  : res (N * list byte * rstream) :=
  match k with
  | KW w => rs_words w count dest s
  | KUuid => rs_uuids (N.to_nat count) 0 dest s
  | KHash =>
    do r <- rs_words W8 (mul64 32 count) dest s;
    let '(got, d, s1) := r in Done (got / 32, d, s1)
  end.

(** ISD/ISD_MemoryReadStream.h:161-172 Read<T>(): a zero-initialised destination of one item, its
    memory image is returned. *)
Definition rs_read1 (k : kind) (s : rstream) : res (list byte * rstream) :=
  do r <- rs_read k 1 (rep x00 (ksize k)) s;
  let '(_, d, s1) := r in Done (d, s1).

(** The unsigned instances, as numbers. *)
Definition rs_word (w : wsize) (s : rstream) : res (N * rstream) :=
  do r <- rs_read1 (KW w) s; let '(d, s1) := r in Done (of_le d, s1).
Definition rs_u8 := rs_word W8.
Definition rs_u16 := rs_word W16.
Definition rs_u32 := rs_word W32.
Definition rs_u64 := rs_word W64.

(** ISD/ISD_MemoryReadStream.h:134-142 SetPosition. *)
Definition rs_setpos (p : N) (s : rstream) : bool * rstream :=
  if rs_size s <? p then (false, s) else (true, RS (rs_data s) p (rs_flip s)).

(** ISD/ISD_MemoryReadStream.h:144-147 IsEOF. *)
Definition rs_eof (s : rstream) : bool := rs_size s <=? rs_pos s.

(** ISD/ISD_MemoryReadStream.h:154-157 SetFlipByteOrder. *)
Definition rs_setflip (b : bool) (s : rstream) : rstream := RS (rs_data s) (rs_pos s) b.

(** ** Calls through the public interface *)

(** Memory image of an array of scalars. *)
Definition images (xs : list scalar) : list byte := flat_map image xs.

(** One public call on a write stream: Write( const T*, count ) (ISD/ISD_MemoryWriteStream.h:225-272),
    SetPosition (:191-198), SetFlipByteOrder (:205-208). *)
Definition ws_call (o : wop) (s : wstream) : res wstream :=
  match o with
  | OWrite k xs => ws_write k (len xs) (images xs) s
  | OSeek p => thrown (ws_setpos p s)
  | OFlip b => Done (ws_setflip b s)
  end.

(** A history of calls. *)
Fixpoint ws_calls (ops : list wop) (s : wstream) : res wstream :=
  match ops with
  | [] => Done s
  | o :: ops' => do s1 <- ws_call o s; ws_calls ops' s1
  end.

(** Read<T>() for each kind, as a scalar (ISD/ISD_MemoryReadStream.h:161-172). *)
Definition rs_scalar (k : kind) (s : rstream) : res (scalar * rstream) :=
  do r <- rs_read1 k s; let '(d, s1) := r in Done (scalar_of k d, s1).

(** A sequence of Read<T>() calls. *)
Fixpoint rs_scalars (ks : list kind) (s : rstream) : res (list scalar * rstream) :=
  match ks with
  | [] => Done ([], s)
  | k :: ks' =>
    do r <- rs_scalar k s; let '(x, s1) := r in
    do r' <- rs_scalars ks' s1; let '(xs, s2) := r' in Done (x :: xs, s2)
  end.

(** One public call on a read stream with its observable result. *)
Inductive rop :=
| RRead (k : kind) (count : N) (dest : list byte)
| RSeek (p : N)
| RFlip (b : bool)
| RPeek
| REof.
Inductive rout :=
| ORead (n : N) (dest : list byte)
| OBool (b : bool)
| OUnit
| OByte (b : byte).
Definition rs_call (o : rop) (s : rstream) : res (rout * rstream) :=
  match o with
  | RRead k count dest =>
    do r <- rs_read k count dest s; let '(n, d, s1) := r in Done (ORead n d, s1)
  | RSeek p => let '(b, s1) := rs_setpos p s in Done (OBool b, s1)
  | RFlip b => Done (OUnit, rs_setflip b s)
  | RPeek => Done (OByte (rs_peek s), s)
  | REof => Done (OBool (rs_eof s), s)
  end.
Fixpoint rs_calls (ops : list rop) (s : rstream) : res (list rout * rstream) :=
  match ops with
  | [] => Done ([], s)
  | o :: ops' =>
    do r <- rs_call o s; let '(x, s1) := r in
    do r' <- rs_calls ops' s1; let '(xs, s2) := r' in Done (x :: xs, s2)
  end.
