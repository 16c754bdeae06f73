(** * StreamHeap: the streams on shared memory. Model only (C61).
    Streams.v has one write stream that owns its bytes and one read stream with bytes of its own. Here the bytes are
    areas of memory with an address, a write stream has a pointer to its area, a read stream has a pointer into the area
    of a write stream, and a program has any number of both. Facts are in StreamHeapFacts.v. *)
From Verif Require Import Base Bytes Values Streams.
Open Scope N_scope.

(** ** Memory
    The areas handed out by VirtualAlloc, by address; None is an area that was released. Addresses are not used again
    (a simplification: Windows may use them again, a program that depends on it is undefined here). *)
Definition areas := list (option (list byte)).

(** The content of an area that was not released. (Memory, no line of the code.) *)
Definition ar_get (h : areas) (a : nat) : option (list byte) :=
  match nth_error h a with Some (Some m) => Some m | _ => None end.

(** VirtualAlloc( nullptr, d, ... ), ISD/ISD_MemoryWriteStream.h:109: zero bytes at a new address; fails for no bytes and
    for more than [lim] bytes, which is the std::bad_alloc of :110-113. *)
Definition ar_alloc (lim d : N) (h : areas) : res (areas * nat) :=
  if (0 <? d) && (d <=? lim) then Done (h ++ [Some (rep x00 d)], length h) else Throw.

(** VirtualFree, ISD/ISD_MemoryWriteStream.h:120 and :131. Releasing an area twice is undefined. *)
Definition ar_free (a : nat) (h : areas) : res areas :=
  match ar_get h a with Some _ => Done (set_nth a None h) | None => Undef end.

(** The source of a memcpy: [n] bytes at [pos] of the area. (Memory, no line of the code.) *)
Definition ar_read (a : nat) (pos n : N) (h : areas) : res (list byte) :=
  match ar_get h a with
  | Some m => if pos + n <=? len m then Done (take n (drop pos m)) else Undef
  | None => Undef
  end.

(** The destination of a memcpy. (Memory, no line of the code.) *)
Definition ar_write (a : nat) (pos : N) (bs : list byte) (h : areas) : res areas :=
  match ar_get h a with
  | Some m => if pos + len bs <=? len m
              then Done (set_nth a (Some (take pos m ++ bs ++ drop (pos + len bs) m)) h) else Undef
  | None => Undef
  end.

(** ** MemoryWriteStream *)

(** ISD/ISD_MemoryWriteStream.h:29-36: the data members (PageSize is not used by the code and omitted). Data is None
    for nullptr. *)
Record wobj := WO {
  wo_data : option nat;
  wo_size : N;
  wo_pos : N;
  wo_res : N;
  wo_flip : bool }.

(** ISD/ISD_MemoryWriteStream.h:98-125 ReserveForSize. *)
Definition ho_reserve (lim r : N) (h : areas) (o : wobj) : res (areas * wobj) :=
  let d := mul64 (wo_res o) 2 in
  let d := if d <? r then r else d in
  do x <- ar_alloc lim d h;
  let '(h1, new) := x in
  do h2 <- match wo_data o with
           | None => Done h1
           | Some old =>
             do bs <- ar_read old 0 (wo_size o) h1;
             do h' <- ar_write new 0 bs h1;
             ar_free old h'
           end;
  Done (h2, WO (Some new) (wo_size o) (wo_pos o) d (wo_flip o)).

(** ISD/ISD_MemoryWriteStream.h:136-144 Resize. *)
Definition ho_resize (lim n : N) (h : areas) (o : wobj) : res (areas * wobj) :=
  do x <- if wo_res o <? n then ho_reserve lim n h o else Done (h, o);
  let '(h1, o1) := x in
  Done (h1, WO (wo_data o1) n (wo_pos o1) (wo_res o1) (wo_flip o1)).

(** ISD/ISD_MemoryWriteStream.h:146-158 WriteRawData. *)
Definition ho_raw (lim : N) (src : list byte) (h : areas) (o : wobj) : res (areas * wobj) :=
  let end_pos := add64 (wo_pos o) (len src) in
  do x <- if wo_size o <? end_pos then ho_resize lim end_pos h o else Done (h, o);
  let '(h1, o1) := x in
  match wo_data o1 with
  | None => Undef
  | Some a =>
    do h2 <- ar_write a (wo_pos o1) src h1;
    Done (h2, WO (Some a) (wo_size o1) end_pos (wo_res o1) (wo_flip o1))
  end.

(** ISD/ISD_MemoryWriteStream.h:160-174 WriteValues<T>, :176-179 WriteValues<u8>: the words are swapped in the area, at
    the address Data has after the write. *)
Definition ho_words (lim : N) (w : wsize) (count : N) (src : list byte) (h : areas) (o : wobj)
  : res (areas * wobj) :=
  let n := match w with W8 => count | _ => mul64 count (wbytes w) end in
  if len src <? n then Undef else
  do x <- ho_raw lim (take n src) h o;
  let '(h1, o1) := x in
  match w with
  | W8 => Done (h1, o1)
  | _ =>
    if wo_flip o then
      match wo_data o1 with
      | None => Undef
      | Some a =>
        do bs <- ar_read a (wo_pos o) (count * wbytes w) h1;
        do h2 <- ar_write a (wo_pos o) (swap_words w (N.to_nat count) bs) h1;
        Done (h2, o1)
      end
    else Done (h1, o1)
  end.

(** ISD/ISD_MemoryWriteStream.h:243-261: the loop writing uuids. *)
Fixpoint ho_uuids (lim : N) (count : nat) (src : list byte) (h : areas) (o : wobj) : res (areas * wobj) :=
  match count with
  | O => Done (h, o)
  | S c =>
    if len src <? 16 then Undef else
    do x <- ho_words lim W8 16 (uuid_to_wire (take 16 src)) h o;
    let '(h1, o1) := x in
    ho_uuids lim c (drop 16 src) h1 o1
  end.

(** ISD/ISD_MemoryWriteStream.h:191-198 SetPosition. *)
Definition ho_setpos (lim p : N) (h : areas) (o : wobj) : res (areas * wobj) :=
  do x <- if wo_size o <? p then ho_resize lim p h o else Done (h, o);
  let '(h1, o1) := x in
  Done (h1, WO (wo_data o1) (wo_size o1) p (wo_res o1) (wo_flip o1)).

(** One public call: Write( const T*, count ) (ISD/ISD_MemoryWriteStream.h:225-272), SetPosition (:191-198),
    SetFlipByteOrder (:205-208). *)
Definition ho_call (lim : N) (o : wop) (h : areas) (x : wobj) : res (areas * wobj) :=
  match o with
  | OWrite (KW w) xs => ho_words lim w (len xs) (images xs) h x
  | OWrite KUuid xs => ho_uuids lim (N.to_nat (len xs)) (images xs) h x
  | OWrite KHash xs => ho_words lim W8 (mul64 32 (len xs)) (images xs) h x
  | OSeek p => ho_setpos lim p h x
  | OFlip b => Done (h, WO (wo_data x) (wo_size x) (wo_pos x) (wo_res x) b)
  end.

(** ** MemoryReadStream *)

(** ISD/ISD_MemoryReadStream.h:22-25: the data members; Data is the beginning of an area here. *)
Record robj := RO { ro_data : nat; ro_size : N; ro_pos : N; ro_flip : bool }.

(** Does the call use the Data pointer? ISD/ISD_MemoryReadStream.h:84-90 Peek does before the end, :92-106 ReadRawData
    (the memcpy) always, the loop :197-211 of uuids only if one is to be read. *)
Definition touches (o : rop) (size pos : N) : bool :=
  match o with
  | RRead KUuid n _ => negb (n =? 0)
  | RRead _ _ _ => true
  | RPeek => pos <? size
  | _ => false
  end.

(** One public call (ISD/ISD_MemoryReadStream.h:84-224, [rs_call] of Streams.v) on the bytes that are at the pointer now.
    Using a pointer to a released area is undefined. *)
Definition ro_call (o : rop) (h : areas) (r : robj) : res (rout * robj) :=
  do bytes <- match ar_get h (ro_data r) with
              | Some m => if ro_size r <=? len m then Done (take (ro_size r) m) else Undef
              | None => if touches o (ro_size r) (ro_pos r) then Undef else Done (rep x00 (ro_size r))
              end;
  do x <- rs_call o (RS bytes (ro_pos r) (ro_flip r));
  let '(out, s) := x in
  Done (out, RO (ro_data r) (ro_size r) (rs_pos s) (rs_flip s)).

(** ** Programs *)

(** What a program can do; streams are numbered in the order of their construction.
    [SNew]: MemoryWriteStream( init ), ISD/ISD_MemoryWriteStream.h:51. [SCopy]: MemoryWriteStream( const MemoryWriteStream & ),
    which the class does not declare. [SDel]: the destructor (:52). [SWrite]: a call of [wop]. [SState]: GetData, GetSize,
    GetPosition and GetFlipByteOrder (:55-66). [SView]: MemoryReadStream( w.GetData(), w.GetSize(), flip ),
    ISD/ISD_MemoryReadStream.h:35. [SRead]: a call of [rop]. *)
Inductive scmd :=
| SNew (init : N)
| SCopy (w : nat)
| SDel (w : nat)
| SWrite (w : nat) (o : wop)
| SState (w : nat)
| SView (w : nat) (flip : bool)
| SRead (r : nat) (o : rop).

(** What the program sees of it. (Results of the calls of [scmd].) *)
Inductive sout :=
| XUnit
| XState (bytes : list byte) (size pos : N) (flip : bool)
| XRead (x : rout).

(** The streams of the program and the memory; a destroyed write stream is None. *)
Record mem := MM { mm_areas : areas; mm_writers : list (option wobj); mm_readers : list robj }.

(** A write stream that was constructed and not destroyed; using another is undefined. (Object lifetime in C++.) *)
Definition live (w : nat) (m : mem) : res wobj :=
  match nth_error (mm_writers m) w with Some (Some o) => Done o | _ => Undef end.

(** One step of a program. Lines as in [scmd]; the implicit copy constructor copies the members; the destructor calls
    FreeAllocation (ISD/ISD_MemoryWriteStream.h:127-133). *)
Definition m_step (lim : N) (c : scmd) (m : mem) : res (sout * mem) :=
  match c with
  | SNew init =>
    do x <- ho_reserve lim init (mm_areas m) (WO None 0 0 0 false);
    let '(h, o) := x in Done (XUnit, MM h (mm_writers m ++ [Some o]) (mm_readers m))
  | SCopy w =>
    do o <- live w m;
    Done (XUnit, MM (mm_areas m) (mm_writers m ++ [Some o]) (mm_readers m))
  | SDel w =>
    do o <- live w m;
    do h <- match wo_data o with Some a => ar_free a (mm_areas m) | None => Done (mm_areas m) end;
    Done (XUnit, MM h (set_nth w None (mm_writers m)) (mm_readers m))
  | SWrite w op =>
    do o <- live w m;
    do x <- ho_call lim op (mm_areas m) o;
    let '(h, o1) := x in Done (XUnit, MM h (set_nth w (Some o1) (mm_writers m)) (mm_readers m))
  | SState w =>
    do o <- live w m;
    match wo_data o with
    | Some a =>
      do bs <- ar_read a 0 (wo_size o) (mm_areas m);
      Done (XState bs (wo_size o) (wo_pos o) (wo_flip o), m)
    | None => Undef
    end
  | SView w flip =>
    do o <- live w m;
    match wo_data o with
    | Some a => Done (XUnit, MM (mm_areas m) (mm_writers m) (mm_readers m ++ [RO a (wo_size o) 0 flip]))
    | None => Undef
    end
  | SRead r op =>
    match nth_error (mm_readers m) r with
    | Some o =>
      do x <- ro_call op (mm_areas m) o;
      let '(out, o1) := x in
      Done (XRead out, MM (mm_areas m) (mm_writers m) (set_nth r o1 (mm_readers m)))
    | None => Undef
    end
  end.

(** A program: its results and the memory behind it. An exception or undefined behaviour ends it. *)
Fixpoint m_run (lim : N) (cs : list scmd) (m : mem) : res (list sout * mem) :=
  match cs with
  | [] => Done ([], m)
  | c :: cs' =>
    do x <- m_step lim c m;
    let '(out, m1) := x in
    do y <- m_run lim cs' m1;
    let '(outs, m2) := y in Done (out :: outs, m2)
  end.

(** Before the program nothing is allocated. (Initial state.) *)
Definition m_none : mem := MM [] [] [].
