(** * Parts: programs that put values, objects of classes and sections of both into one stream, with one
    EntityWriter, and read them with one EntityReader. Model of the way the library is used
    (Tests/EntityTests.cpp:1-70, Tests/SectionHierarchyReadWriteTests.cpp:1-325): every call is a call of
    the code modelled in Sections.v and EntityGen.v. *)
From Verif Require Import Base Bytes Values Streams Types EntityWriter EntityReader Items Sections Keys Classes Table EntityGen.
Open Scope N_scope.

(** A value with its key, an object of a class, a section with parts in it, an absent section, an array of sections with parts
    in them (with an optional index; an element with nothing in it is an absent element), an absent array. *)
Inductive part :=
| PItem (i : item)
| PObj (s : schema) (x : ty s)
| PSection (key : list byte) (body : parts)
| PNull (key : list byte)
| PArray (key : list byte) (ix : option (list N)) (elems : pelems)
| PNullArray (key : list byte)
with parts := PNil | PCons (p : part) (r : parts)
with pelems := PENil | PECons (body : parts) (r : pelems).
Fixpoint pelen (l : pelems) : N := match l with PENil => 0 | PECons _ r => pelen r + 1 end.

Section Run.
Context (U : forall t, umap_impl (key t)).
(** Writing: EntityWriter::Write, MF::Write of the class, BeginWriteSection and EndWriteSection, WriteNullSection,
    and the calls for arrays of sections as in Documents.v;
    the program stops at the first failure. *)
Fixpoint write_part (h : N) (p : part) (st : wstate) : res (bool * wstate) :=
  match p with
  | PItem i => w_write h (i_type i) (i_key i) (i_val i) st
  | PObj s x => m_write (smf U s) h x st
  | PSection key body =>
    do r <- w_begin h key st; let '(c, st1) := r in
    match c with
    | None => Done (false, st1)
    | Some hc =>
      do r2 <- write_parts hc body st1; let '(ok, st2) := r2 in
      if ok then w_end h (Some hc) st2 else Done (false, st2)
    end
  | PNull key => w_null h key st
  | PArray key ix elems =>
    do r <- w_begin_arr h key (pelen elems) ix st; let '(c, st1) := r in
    match c with
    | None => Done (false, st1)
    | Some hc =>
      do r2 <- write_pelems h hc 0 elems st1; let '(ok, st2) := r2 in
      if ok then w_end_arr h (Some hc) st2 else Done (false, st2)
    end
  | PNullArray key => w_null_arr h key st
  end
with write_parts (h : N) (l : parts) (st : wstate) : res (bool * wstate) :=
  match l with
  | PNil => Done (true, st)
  | PCons p r => do r1 <- write_part h p st; let '(ok, st1) := r1 in
                 if ok then write_parts h r st1 else Done (false, st1)
  end
with write_pelems (h hc : N) (i : N) (l : pelems) (st : wstate) : res (bool * wstate) :=
  match l with
  | PENil => Done (true, st)
  | PECons body r =>
    do r1 <- w_begin_in h (Some hc) i st; let '(ok, st1) := r1 in
    if negb ok then Done (false, st1) else
    do r2 <- write_parts hc body st1; let '(ok2, st2) := r2 in
    if negb ok2 then Done (false, st2) else
    do r3 <- w_end_in h (Some hc) i st2; let '(ok3, st3) := r3 in
    if ok3 then write_pelems h hc (i + 1) r st3 else Done (false, st3)
  end.
(** Reading with the corresponding calls into the values and objects of a second program: EntityReader::Read, MF::Read,
    BeginReadSection (a null section is accepted) and EndReadSection, and the calls for arrays of sections as in Documents.v
    (a null array is accepted; the program expects a certain number of elements). The result is what was read. *)
Fixpoint read_part (e : renv) (h : N) (p : part) (st : rstate) : res (bool * part * rstate) :=
  match p with
  | PItem i => do r <- r_read e h (i_type i) (i_key i) (i_val i) st; let '(ok, v, st1) := r in
               Done (ok, PItem (Item (i_type i) (i_key i) v), st1)
  | PObj s x => do r <- m_read (smf U s) e h x st; let '(ok, y, st1) := r in Done (ok, PObj s y, st1)
  | PSection key body =>
    do r <- r_begin e h key true st; let '(c, ok, st1) := r in
    match c with
    | None => Done (ok, PNull key, st1)
    | Some hc =>
      do r2 <- read_parts e hc body st1; let '(ok2, body', st2) := r2 in
      if negb ok2 then Done (false, PSection key body', st2) else
      do r3 <- r_end h (Some hc) st2; let '(ok3, st3) := r3 in Done (ok3, PSection key body', st3)
    end
  | PNull key =>
    do r <- r_begin e h key true st; let '(c, ok, st1) := r in
    Done (match c with None => ok | Some _ => false end, PNull key, st1)
  | PArray key ix elems =>
    do r <- r_begin_arr e h key true (match ix with Some _ => Some [] | None => None end) st;
    let '(c, count, ok, ix', st1) := r in
    match c with
    | None => Done (ok, PNullArray key, st1)
    | Some hc =>
      if negb (count =? pelen elems) then Done (false, PNullArray key, st1) else
      do r2 <- read_pelems e h hc 0 elems st1; let '(ok2, elems', st2) := r2 in
      if negb ok2 then Done (false, PArray key ix' elems', st2) else
      do r3 <- r_end_arr h (Some hc) st2; let '(ok3, st3) := r3 in Done (ok3, PArray key ix' elems', st3)
    end
  | PNullArray key =>
    do r <- r_begin_arr e h key true None st; let '(c, _, ok, _, st1) := r in
    Done (match c with None => ok | Some _ => false end, PNullArray key, st1)
  end
with read_parts (e : renv) (h : N) (l : parts) (st : rstate) : res (bool * parts * rstate) :=
  match l with
  | PNil => Done (true, PNil, st)
  | PCons p r =>
    do r1 <- read_part e h p st; let '(ok, p', st1) := r1 in
    if negb ok then Done (false, PCons p' PNil, st1) else
    do r2 <- read_parts e h r st1; let '(ok2, r', st2) := r2 in Done (ok2, PCons p' r', st2)
  end
with read_pelems (e : renv) (h hc : N) (i : N) (l : pelems) (st : rstate) : res (bool * pelems * rstate) :=
  match l with
  | PENil => Done (true, PENil, st)
  | PECons body r =>
    do r1 <- r_begin_in h (Some hc) i true st; let '(ok, has_data, st1) := r1 in
    if negb ok then Done (false, PENil, st1) else
    do r2 <- (if has_data : bool then read_parts e hc body st1 else Done (true, PNil, st1));
    let '(ok2, body', st2) := r2 in
    if negb ok2 then Done (false, PECons body' PENil, st2) else
    do r3 <- r_end_in h (Some hc) i st2; let '(ok3, st3) := r3 in
    if negb ok3 then Done (false, PECons body' PENil, st3) else
    do r4 <- read_pelems e h hc (i + 1) r st3; let '(ok4, r', st4) := r4 in Done (ok4, PECons body' r', st4)
  end.
End Run.
