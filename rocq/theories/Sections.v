(** * Sections: the Begin/End calls of EntityWriter and EntityReader. Model only.

    An EntityWriter owns its active subsection (a unique_ptr), so the live objects form a chain from
    the object the user created down to the innermost open section. A handle (EntityWriter pointer)
    is the identity of an object; None is nullptr. Identities are never reused in the model, whereas
    an allocator may reuse the address of a deleted object. Calling a member function of an object
    that is no longer alive is undefined. *)
From Verif Require Import Base Bytes Values Streams Types EntityWriter EntityReader.
Open Scope N_scope.

Definition ones : N := two64 - 1.  (* (size_t)~0 *)

(** The object with identity [h] in a chain: its owners, itself, what it owns. *)
Fixpoint split_at {A} (id : A -> N) (h : N) (l : list A) : option (list A * A * list A) :=
  match l with
  | [] => None
  | f :: r =>
    if id f =? h then Some ([], f, r)
    else match split_at id h r with Some (a, g, b) => Some (f :: a, g, b) | None => None end
  end.
Definition head_id {A} (id : A -> N) (l : list A) : option N :=
  match l with [] => None | f :: _ => Some (id f) end.
Definition hdl_eqb (a b : option N) : bool :=
  match a, b with Some x, Some y => x =? y | None, None => true | _, _ => false end.

(** ** Writer *)

(** Fields of EntityWriter: CodeGenerator/Generators/ISD_EntityWriter.py:22-29 (the stream is shared,
    active_subsection is the next object of the chain). *)
Record wframe := WF { wf_id : N; wf_start : N; wf_size : N; wf_index : N; wf_arr_start : N }.
Record wstate := WSt { w_stream : wstream; w_chain : list wframe; w_next : N }.

(** Constructor: CodeGenerator/Generators/ISD_EntityWriter.py:96. *)
Definition wf_new (id : N) (s : wstream) : wframe := WF id (ws_pos s) 0 ones 0.
(** An EntityWriter on a stream; its handle is 0. *)
Definition w_open (s : wstream) : wstate := WSt s [wf_new 0 s] 1.

(** EntityWriter::Write on the object [h]. *)
Definition w_write (h : N) (t : dtype) (key : list byte) (v : cval) (st : wstate) : res (bool * wstate) :=
  match split_at wf_id h (w_chain st) with
  | None => Undef
  | Some _ => do r <- ew_write t key v (w_stream st); let '(ok, s1) := r in Done (ok, WSt s1 (w_chain st) (w_next st))
  end.

(** ISD/ISD_EntityWriterTemplates.inl:386-404 BeginWriteSection. *)
Definition w_begin (h : N) (key : list byte) (st : wstate) : res (option N * wstate) :=
  match split_at wf_id h (w_chain st) with
  | None => Undef
  | Some (a, f, b) =>
    match b with
    | _ :: _ => Done (None, st)
    | [] =>
      let c := wf_new (w_next st) (w_stream st) in
      do r <- begin_write vt_subsection key (w_stream st); let '(ok, s1) := r in
      Done (if ok then Some (w_next st) else None, WSt s1 (a ++ [f; c]) (w_next st + 1))
    end
  end.

(** ISD/ISD_EntityWriterTemplates.inl:406-422 EndWriteSection; with nullptr while no section is active
    the comparison passes and the null pointer is dereferenced. *)
Definition w_end (h : N) (arg : option N) (st : wstate) : res (bool * wstate) :=
  match split_at wf_id h (w_chain st) with
  | None => Undef
  | Some (a, f, b) =>
    if negb (hdl_eqb (head_id wf_id b) arg) then Done (false, st) else
    match b with
    | [] => Undef
    | c :: _ =>
      do r <- end_write (wf_start c) (w_stream st); let '(ok, s1) := r in
      if ok then Done (true, WSt s1 (a ++ [f]) (w_next st))
      else Done (false, WSt s1 (w_chain st) (w_next st))
    end
  end.

(** ISD/ISD_EntityWriterTemplates.inl:424-432 WriteNullSection. *)
Definition w_null (h : N) (key : list byte) (st : wstate) : res (bool * wstate) :=
  do r <- w_begin h key st; let '(c, st1) := r in
  match c with None => Done (false, st1) | Some _ => w_end h c st1 end.

(** ISD/ISD_EntityWriterTemplates.inl:434-469 BeginWriteSectionsArray; array_size ~0 is the null
    array. *)
Definition w_begin_arr (h : N) (key : list byte) (size : N) (ix : option (list N)) (st : wstate)
  : res (option N * wstate) :=
  match split_at wf_id h (w_chain st) with
  | None => Undef
  | Some (a, f, b) =>
    match b with
    | _ :: _ => Done (None, st)
    | [] =>
      let c := wf_new (w_next st) (w_stream st) in
      let next := w_next st + 1 in
      do r <- begin_write vt_array_subsection key (w_stream st); let '(ok, s1) := r in
      if negb ok then Done (None, WSt s1 (a ++ [f; c]) next) else
      if size =? ones then
        Done (Some (w_next st), WSt s1 (a ++ [WF (wf_id f) (wf_start f) 0 (wf_index f) (wf_arr_start f); c]) next)
      else
        do r2 <- write_meta 0 size ix s1; let '(ok2, s2) := r2 in
        if negb ok2 then Done (None, WSt s2 (a ++ [f; c]) next)
        else Done (Some (w_next st), WSt s2 (a ++ [WF (wf_id f) (wf_start f) size ones 0; c]) next)
    end
  end.

(** ISD/ISD_EntityWriterTemplates.inl:471-496 BeginWriteSectionInArray. *)
Definition w_begin_in (h : N) (arg : option N) (i : N) (st : wstate) : res (bool * wstate) :=
  match split_at wf_id h (w_chain st) with
  | None => Undef
  | Some (a, f, b) =>
    if negb (hdl_eqb (head_id wf_id b) arg) then Done (false, st) else
    if negb (add64 (wf_index f) 1 =? i) then Done (false, st) else
    if wf_size f <=? i then Done (false, st) else
    let start := ws_pos (w_stream st) in
    do s1 <- ws_u64 maxint64 (w_stream st);
    Done (ws_pos s1 =? add64 start 8,
          WSt s1 (a ++ WF (wf_id f) (wf_start f) (wf_size f) i start :: b) (w_next st))
  end.

(** ISD/ISD_EntityWriterTemplates.inl:498-512 EndWriteSectionInArray. *)
Definition w_end_in (h : N) (arg : option N) (i : N) (st : wstate) : res (bool * wstate) :=
  match split_at wf_id h (w_chain st) with
  | None => Undef
  | Some (a, f, b) =>
    if negb (hdl_eqb (head_id wf_id b) arg) || negb (wf_index f =? i) then Done (false, st) else
    let endp := ws_pos (w_stream st) in
    let size := sub64 (sub64 endp (wf_arr_start f)) 8 in
    do s1 <- thrown (ws_setpos (wf_arr_start f) (w_stream st));
    do s2 <- ws_u64 size s1;
    do s3 <- thrown (ws_setpos endp s2);
    Done (wf_arr_start f <? endp, WSt s3 (w_chain st) (w_next st))
  end.

(** ISD/ISD_EntityWriterTemplates.inl:514-539 EndWriteSectionsArray. *)
Definition w_end_arr (h : N) (arg : option N) (st : wstate) : res (bool * wstate) :=
  match split_at wf_id h (w_chain st) with
  | None => Undef
  | Some (a, f, b) =>
    if negb (hdl_eqb (head_id wf_id b) arg) then Done (false, st) else
    if negb (add64 (wf_index f) 1 =? wf_size f) then Done (false, st) else
    match b with
    | [] => Undef
    | c :: _ =>
      do r <- end_write (wf_start c) (w_stream st); let '(ok, s1) := r in
      if ok then Done (true, WSt s1 (a ++ [WF (wf_id f) (wf_start f) 0 ones 0]) (w_next st))
      else Done (false, WSt s1 (w_chain st) (w_next st))
    end
  end.

(** ISD/ISD_EntityWriterTemplates.inl:541-549 WriteNullSectionsArray. *)
Definition w_null_arr (h : N) (key : list byte) (st : wstate) : res (bool * wstate) :=
  do r <- w_begin_arr h key ones None st; let '(c, st1) := r in
  match c with None => Done (false, st1) | Some _ => w_end_arr h c st1 end.

(** ** Reader *)

(** Fields of EntityReader: CodeGenerator/Generators/ISD_EntityReader.py:22-28. *)
Record rframe := RF { rf_id : N; rf_end : N; rf_size : N; rf_index : N; rf_end_pos : N }.
Record rstate := RSt { r_stream : rstream; r_chain : list rframe; r_next : N }.

(** Constructors: CodeGenerator/Generators/ISD_EntityReader.py:98-104. *)
Definition rf_new (id endp : N) : rframe := RF id endp 0 ones 0.
Definition r_open (s : rstream) : rstate := RSt s [rf_new 0 (rs_size s)] 1.

(** EntityReader::Read on the object [h]. *)
Definition r_read (e : renv) (h : N) (t : dtype) (key : list byte) (dest : cval) (st : rstate)
  : res (bool * cval * rstate) :=
  match split_at rf_id h (r_chain st) with
  | None => Undef
  | Some _ => do r <- er_read e t key dest (r_stream st); let '(ok, v, s1) := r in
              Done (ok, v, RSt s1 (r_chain st) (r_next st))
  end.

(** ISD/ISD_EntityReaderTemplates.inl:563-590 BeginReadSection. *)
Definition r_begin (e : renv) (h : N) (key : list byte) (null_ok : bool) (st : rstate)
  : res (option N * bool * rstate) :=
  match split_at rf_id h (r_chain st) with
  | None => Undef
  | Some (a, f, b) =>
    match b with
    | _ :: _ => Done (None, false, st)
    | [] =>
      do r <- begin_read e vt_subsection key (r_stream st); let '(endp, s1) := r in
      let st1 := RSt s1 (r_chain st) (r_next st) in
      if endp =? 0 then Done (None, false, st1) else
      if endp =? rs_pos s1 then Done (None, st_ok (end_read_empty null_ok endp s1), st1) else
      Done (Some (r_next st), true, RSt s1 (a ++ [f; rf_new (r_next st) endp]) (r_next st + 1))
    end
  end.

(** ISD/ISD_EntityReaderTemplates.inl:592-609 EndReadSection. *)
Definition r_end (h : N) (arg : option N) (st : rstate) : res (bool * rstate) :=
  match split_at rf_id h (r_chain st) with
  | None => Undef
  | Some (a, f, b) =>
    if negb (hdl_eqb (head_id rf_id b) arg) then Done (false, st) else
    match b with
    | [] => Undef
    | c :: _ =>
      if end_read (r_stream st) (rf_end c)
      then Done (true, RSt (r_stream st) (a ++ [RF (rf_id f) (rf_end f) (rf_size f) (rf_index f) 0]) (r_next st))
      else Done (false, st)
    end
  end.

(** ISD/ISD_EntityReaderTemplates.inl:614-649 BeginReadSectionsArray: handle, array size, success and
    the index. The array size field is assigned by read_array_metadata_and_index even when it
    fails. *)
Definition r_begin_arr (e : renv) (h : N) (key : list byte) (null_ok : bool) (ix : option (list N)) (st : rstate)
  : res (option N * N * bool * option (list N) * rstate) :=
  match split_at rf_id h (r_chain st) with
  | None => Undef
  | Some (a, f, b) =>
    match b with
    | _ :: _ => Done (None, 0, false, ix, st)
    | [] =>
      do r <- begin_read e vt_array_subsection key (r_stream st); let '(endp, s1) := r in
      let st1 := RSt s1 (r_chain st) (r_next st) in
      if endp =? 0 then Done (None, 0, false, ix, st1) else
      if endp =? rs_pos s1 then Done (None, 0, st_ok (end_read_empty null_ok endp s1), ix, st1) else
      do r2 <- read_meta e (rf_size f) endp ix s1; let '(ok, _, count, ix1, s2) := r2 in
      if negb ok then
        Done (None, 0, false, ix1, RSt s2 (a ++ [RF (rf_id f) (rf_end f) count (rf_index f) (rf_end_pos f)]) (r_next st))
      else
        Done (Some (r_next st), count, true, ix1,
          RSt s2 (a ++ [RF (rf_id f) (rf_end f) count ones (rf_end_pos f); rf_new (r_next st) endp]) (r_next st + 1))
    end
  end.

(** ISD/ISD_EntityReaderTemplates.inl:651-688 BeginReadSectionInArray. [opt] tells whether
    dest_section_has_data was given; the second component is what it receives. *)
Definition r_begin_in (h : N) (arg : option N) (i : N) (opt : bool) (st : rstate) : res (bool * bool * rstate) :=
  match split_at rf_id h (r_chain st) with
  | None => Undef
  | Some (a, f, b) =>
    if negb (hdl_eqb (head_id rf_id b) arg) then Done (false, false, st) else
    if negb (add64 (rf_index f) 1 =? i) then Done (false, false, st) else
    if rf_size f <=? i then Done (false, false, st) else
    do r <- rs_u64 (r_stream st); let '(size, s1) := r in
    let st1 := RSt s1 (a ++ RF (rf_id f) (rf_end f) (rf_size f) i (add64 (rs_pos s1) size) :: b) (r_next st) in
    if opt then Done (true, negb (size =? 0), st1)
    else if size =? 0 then Done (false, false, st1) else Done (true, true, st1)
  end.

(** ISD/ISD_EntityReaderTemplates.inl:690-707 EndReadSectionInArray. *)
Definition r_end_in (h : N) (arg : option N) (i : N) (st : rstate) : res (bool * rstate) :=
  match split_at rf_id h (r_chain st) with
  | None => Undef
  | Some (a, f, b) =>
    if negb (hdl_eqb (head_id rf_id b) arg) || negb (rf_index f =? i) then Done (false, st) else
    Done (rs_pos (r_stream st) =? rf_end_pos f, st)
  end.

(** ISD/ISD_EntityReaderTemplates.inl:709-733 EndReadSectionsArray. *)
Definition r_end_arr (h : N) (arg : option N) (st : rstate) : res (bool * rstate) :=
  match split_at rf_id h (r_chain st) with
  | None => Undef
  | Some (a, f, b) =>
    if negb (hdl_eqb (head_id rf_id b) arg) then Done (false, st) else
    if negb (add64 (rf_index f) 1 =? rf_size f) then Done (false, st) else
    match b with
    | [] => Undef
    | c :: _ =>
      if end_read (r_stream st) (rf_end c)
      then Done (true, RSt (r_stream st) (a ++ [RF (rf_id f) (rf_end f) 0 ones 0]) (r_next st))
      else Done (false, st)
    end
  end.
