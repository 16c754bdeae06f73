(** * Items: sequences of Write and Read calls on one EntityWriter / EntityReader. Model. *)
From Verif Require Import Base Bytes Values Streams Types EntityWriter EntityReader.
Open Scope N_scope.

(** One Write call: its type, key and value. *)
Record item := Item { i_type : dtype; i_key : list byte; i_val : cval }.

(** A MemoryWriteStream of the given initial allocation with its byte order set, as a caller of
    EntityWriter makes it (ISD/ISD_MemoryWriteStream.h:61-68, ISD/ISD_PacketSerializer.cpp:44-60);
    Throw if the first allocation fails. *)
Definition fresh (init lim : N) (fl : bool) : res wstream :=
  match ws_new init lim with
  | (true, s0) => ws_calls [OFlip fl] s0
  | (false, _) => Throw
  end.

(** Write calls one after another until one fails, as the generated MF::Write functions do
    (CodeGenerator/Generators/EntityGenerator.py:199-229). *)
Fixpoint write_all (l : list item) (s : wstream) : res (bool * wstream) :=
  match l with
  | [] => Done (true, s)
  | i :: l' =>
    do r <- ew_write (i_type i) (i_key i) (i_val i) s; let '(ok, s1) := r in
    if ok then write_all l' s1 else Done (false, s1)
  end.

(** Read calls one after another until one fails (CodeGenerator/Generators/EntityGenerator.py:231-269):
    type, key and destination of each. *)
Fixpoint read_all (e : renv) (l : list item) (s : rstream) : res (bool * list cval * rstream) :=
  match l with
  | [] => Done (true, [], s)
  | i :: l' =>
    do r <- er_read e (i_type i) (i_key i) (i_val i) s; let '(ok, v, s1) := r in
    if ok then
      do r2 <- read_all e l' s1; let '(ok2, vs, s2) := r2 in Done (ok2, v :: vs, s2)
    else Done (false, [v], s1)
  end.

(** [v] was written with type [t] under [key] after the items [before] were written to a new stream:
    [s1] and [s2] are the stream before and after. *)
Definition written (init lim : N) (fl : bool) (before : list item) (t : dtype) (key : list byte) (v : cval)
  (s1 s2 : wstream) : Prop :=
  exists s0, fresh init lim fl = Done s0 /\ write_all before s0 = Done (true, s1) /\
    ew_write t key v s1 = Done (true, s2).
