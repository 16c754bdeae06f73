(** * Protocol: histories of section calls on one EntityWriter or EntityReader and the objects they
    return. Model. *)
From Verif Require Import Base Bytes Values Streams Types EntityWriter EntityReader Sections.
Open Scope N_scope.

(** The calls. WriteNullSection and WriteNullSectionsArray are a begin followed by an end
    (ISD/ISD_EntityWriterTemplates.inl:424-432, 541-549) and need no constructor of their own. *)
Inductive wcall :=
| WWrite (h : N) (t : dtype) (key : list byte) (v : cval)
| WBegin (h : N) (key : list byte)
| WEnd (h : N) (arg : option N)
| WBeginArr (h : N) (key : list byte) (size : N) (ix : option (list N))
| WBeginIn (h : N) (arg : option N) (i : N)
| WEndIn (h : N) (arg : option N) (i : N)
| WEndArr (h : N) (arg : option N).

(** What a call returns: a handle or a bool. *)
Inductive wret := WHandle (c : option N) | WBool (b : bool).
Definition as_handle (r : res (option N * wstate)) : res (wret * wstate) :=
  do x <- r; let '(c, st) := x in Done (WHandle c, st).
Definition as_bool (r : res (bool * wstate)) : res (wret * wstate) :=
  do x <- r; let '(b, st) := x in Done (WBool b, st).

(** One call: ISD/ISD_EntityWriterTemplates.inl:386-549. *)
Definition wstep (c : wcall) (st : wstate) : res (wret * wstate) :=
  match c with
  | WWrite h t key v => as_bool (w_write h t key v st)
  | WBegin h key => as_handle (w_begin h key st)
  | WEnd h arg => as_bool (w_end h arg st)
  | WBeginArr h key size ix => as_handle (w_begin_arr h key size ix st)
  | WBeginIn h arg i => as_bool (w_begin_in h arg i st)
  | WEndIn h arg i => as_bool (w_end_in h arg i st)
  | WEndArr h arg => as_bool (w_end_arr h arg st)
  end.

(** array_size is a size_t. *)
Definition wcall_ok (c : wcall) : Prop := match c with WBeginArr _ _ size _ => size < two64 | _ => True end.

(** [whist s hist st]: the calls and results [hist], made one after another on an EntityWriter created
    on the stream [s] and on the writers it returned, lead to [st]. *)
Inductive whist (s : wstream) : list (wcall * wret) -> wstate -> Prop :=
| whist_nil : whist s [] (w_open s)
| whist_call hist st c r st' : whist s hist st -> wcall_ok c -> wstep c st = Done (r, st') -> whist s (hist ++ [(c, r)]) st'.

(** The object is alive. *)
Definition wlive (h : N) (st : wstate) : Prop := In h (map wf_id (w_chain st)).

(** The reader calls; BeginReadSection and BeginReadSectionsArray also return success, the size and the
    index. *)
Inductive rcall :=
| RRead (h : N) (t : dtype) (key : list byte) (dest : cval)
| RBegin (h : N) (key : list byte) (null_ok : bool)
| REnd (h : N) (arg : option N)
| RBeginArr (h : N) (key : list byte) (null_ok : bool) (ix : option (list N))
| RBeginIn (h : N) (arg : option N) (i : N) (opt : bool)
| REndIn (h : N) (arg : option N) (i : N)
| REndArr (h : N) (arg : option N).
Inductive rret := RValue (ok : bool) (v : cval) | RHandle (c : option N) (size : N) (ok : bool) | RBool (b : bool).
Definition as_rbool (r : res (bool * rstate)) : res (rret * rstate) :=
  do x <- r; let '(b, st) := x in Done (RBool b, st).

(** One call: ISD/ISD_EntityReaderTemplates.inl:563-733. *)
Definition rstep (e : renv) (c : rcall) (st : rstate) : res (rret * rstate) :=
  match c with
  | RRead h t key dest => do x <- r_read e h t key dest st; let '(ok, v, st1) := x in Done (RValue ok v, st1)
  | RBegin h key null_ok => do x <- r_begin e h key null_ok st; let '(c, ok, st1) := x in Done (RHandle c 0 ok, st1)
  | REnd h arg => as_rbool (r_end h arg st)
  | RBeginArr h key null_ok ix =>
    do x <- r_begin_arr e h key null_ok ix st; let '(c, size, ok, _, st1) := x in Done (RHandle c size ok, st1)
  | RBeginIn h arg i opt => do x <- r_begin_in h arg i opt st; let '(ok, _, st1) := x in Done (RBool ok, st1)
  | REndIn h arg i => as_rbool (r_end_in h arg i st)
  | REndArr h arg => as_rbool (r_end_arr h arg st)
  end.

Inductive rhist (e : renv) (s : rstream) : list (rcall * rret) -> rstate -> Prop :=
| rhist_nil : rhist e s [] (r_open s)
| rhist_call hist st c r st' : rhist e s hist st -> rstep e c st = Done (r, st') -> rhist e s (hist ++ [(c, r)]) st'.
Definition rlive (h : N) (st : rstate) : Prop := In h (map rf_id (r_chain st)).
