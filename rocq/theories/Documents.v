(** * Documents: trees of items and sections, and the call sequences that write and read them.
    Model of the way the generated code and EntityTable use the section calls. *)
From Verif Require Import Base Bytes Values Streams Types EntityWriter EntityReader Items Sections.
Open Scope N_scope.

(** A document: items, sections, absent sections, arrays of sections (with an optional index; an
    element without content is an absent element), absent arrays. *)
Inductive node :=
| NItem (i : item)
| NSection (key : list byte) (body : nodes)
| NNullSection (key : list byte)
| NArray (key : list byte) (ix : option (list N)) (elems : sections)
| NNullArray (key : list byte)
with nodes := Nil | Cons (n : node) (r : nodes)
with sections := SNil | SCons (body : nodes) (r : sections).

Fixpoint slen (l : sections) : N := match l with SNil => 0 | SCons _ r => slen r + 1 end.

(** Writing: BeginWriteSection, the content through the writer it returns, EndWriteSection
    (CodeGenerator/Generators/EntityGenerator.py:199-229); WriteNullSection for an absent one;
    BeginWriteSectionsArray, then for every element BeginWriteSectionInArray, the content,
    EndWriteSectionInArray, at the end EndWriteSectionsArray (ISD/ISD_EntityTable.h:153-195). The
    sequence stops at the first failure. *)
Fixpoint write_node (h : N) (n : node) (st : wstate) : res (bool * wstate) :=
  match n with
  | NItem i => w_write h (i_type i) (i_key i) (i_val i) st
  | NSection key body =>
    do r <- w_begin h key st; let '(c, st1) := r in
    match c with
    | None => Done (false, st1)
    | Some hc =>
      do r2 <- write_nodes hc body st1; let '(ok, st2) := r2 in
      if ok then w_end h (Some hc) st2 else Done (false, st2)
    end
  | NNullSection key => w_null h key st
  | NArray key ix elems =>
    do r <- w_begin_arr h key (slen elems) ix st; let '(c, st1) := r in
    match c with
    | None => Done (false, st1)
    | Some hc =>
      do r2 <- write_elems h hc 0 elems st1; let '(ok, st2) := r2 in
      if ok then w_end_arr h (Some hc) st2 else Done (false, st2)
    end
  | NNullArray key => w_null_arr h key st
  end
with write_nodes (h : N) (l : nodes) (st : wstate) : res (bool * wstate) :=
  match l with
  | Nil => Done (true, st)
  | Cons n r => do r1 <- write_node h n st; let '(ok, st1) := r1 in
                if ok then write_nodes h r st1 else Done (false, st1)
  end
with write_elems (h hc : N) (i : N) (l : sections) (st : wstate) : res (bool * wstate) :=
  match l with
  | SNil => Done (true, st)
  | SCons body r =>
    do r1 <- w_begin_in h (Some hc) i st; let '(ok, st1) := r1 in
    if negb ok then Done (false, st1) else
    do r2 <- write_nodes hc body st1; let '(ok2, st2) := r2 in
    if negb ok2 then Done (false, st2) else
    do r3 <- w_end_in h (Some hc) i st2; let '(ok3, st3) := r3 in
    if ok3 then write_elems h hc (i + 1) r st3 else Done (false, st3)
  end.

(** Reading with the mirrored calls (CodeGenerator/Generators/EntityGenerator.py:231-269,
    ISD/ISD_EntityTable.h:198-255), directed by a tree of expectations: the items with their
    destinations, the sections (absent is allowed), the arrays with or without an index and the
    expectation for each element. The result is the document found. *)

Fixpoint read_node (e : renv) (h : N) (n : node) (st : rstate) : res (bool * node * rstate) :=
  match n with
  | NItem i => do r <- r_read e h (i_type i) (i_key i) (i_val i) st; let '(ok, v, st1) := r in
               Done (ok, NItem (Item (i_type i) (i_key i) v), st1)
  | NSection key body =>
    do r <- r_begin e h key true st; let '(c, ok, st1) := r in
    match c with
    | None => Done (ok, NNullSection key, st1)
    | Some hc =>
      do r2 <- read_nodes e hc body st1; let '(ok2, body', st2) := r2 in
      if negb ok2 then Done (false, NSection key body', st2) else
      do r3 <- r_end h (Some hc) st2; let '(ok3, st3) := r3 in Done (ok3, NSection key body', st3)
    end
  | NNullSection key =>
    do r <- r_begin e h key true st; let '(c, ok, st1) := r in
    Done (match c with None => ok | Some _ => false end, NNullSection key, st1)
  | NArray key ix elems =>
    do r <- r_begin_arr e h key true (match ix with Some _ => Some [] | None => None end) st;
    let '(c, count, ok, ix', st1) := r in
    match c with
    | None => Done (ok, NNullArray key, st1)
    | Some hc =>
      if negb (count =? slen elems) then Done (false, NNullArray key, st1) else
      do r2 <- read_elems e h hc 0 elems st1; let '(ok2, elems', st2) := r2 in
      if negb ok2 then Done (false, NArray key ix' elems', st2) else
      do r3 <- r_end_arr h (Some hc) st2; let '(ok3, st3) := r3 in Done (ok3, NArray key ix' elems', st3)
    end
  | NNullArray key =>
    do r <- r_begin_arr e h key true None st; let '(c, count, ok, ix', st1) := r in
    Done (match c with None => ok | Some _ => false end, NNullArray key, st1)
  end
with read_nodes (e : renv) (h : N) (l : nodes) (st : rstate) : res (bool * nodes * rstate) :=
  match l with
  | Nil => Done (true, Nil, st)
  | Cons n r =>
    do r1 <- read_node e h n st; let '(ok, n', st1) := r1 in
    if negb ok then Done (false, Cons n' Nil, st1) else
    do r2 <- read_nodes e h r st1; let '(ok2, r', st2) := r2 in Done (ok2, Cons n' r', st2)
  end
with read_elems (e : renv) (h hc : N) (i : N) (l : sections) (st : rstate) : res (bool * sections * rstate) :=
  match l with
  | SNil => Done (true, SNil, st)
  | SCons body r =>
    do r1 <- r_begin_in h (Some hc) i true st; let '(ok, has_data, st1) := r1 in
    if negb ok then Done (false, SNil, st1) else
    do r2 <- (if has_data : bool then read_nodes e hc body st1 else Done (true, Nil, st1));
    let '(ok2, body', st2) := r2 in
    if negb ok2 then Done (false, SCons body' SNil, st2) else
    do r3 <- r_end_in h (Some hc) i st2; let '(ok3, st3) := r3 in
    if negb ok3 then Done (false, SCons body' SNil, st3) else
    do r4 <- read_elems e h hc (i + 1) r st3; let '(ok4, r', st4) := r4 in Done (ok4, SCons body' r', st4)
  end.
