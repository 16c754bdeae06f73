(** * VaryingIO: Varying::MF::Write and Varying::MF::Read on Varyings whose data is in the heap
    (ISD/ISD_Varying.cpp:155-203), and programs that use them beside the operations of Varying.v. *)
From Verif Require Import Base Bytes Values Streams Types EntityWriter EntityReader Sections DynTypes Varying.
Open Scope N_scope.

(** MF::Write of variable [i], lines 155-176; the ids are converted to u16. *)
Definition h_write (i h : N) (st : wstate) (s : hstate) : res (bool * wstate) :=
  do v <- var i s;
  match h_data v with
  | None => Done (false, st)
  | Some a =>
    do r <- w_write h (TUInt I16) key_type_ (u16_val (h_ty v mod 2^16)) st; let '(ok, st1) := r in
    if negb ok then Done (false, st1) else
    do r2 <- w_write h (TUInt I16) key_container (u16_val (h_ct v mod 2^16)) st1; let '(ok2, st2) := r2 in
    if negb ok2 then Done (false, st2) else
    do x <- load (Some a) s;
    do r3 <- dyn_write (h_ty v) (h_ct v) key_data h x st2; let '(ok3, st3) := r3 in
    Done (ok3, st3)
  end.

(** What an operation shows: the value of Varying.v's operations, the result of a write with the writer
    after it, or the result of a read with the reader after it. *)
Inductive xout := XOut (o : vout) | XWrote (b : bool) (st : wstate) | XGot (b : bool) (st : rstate) | XThrown.
(** MF::Read of variable [i], lines 178-203. If reading the data throws, the object of type [k] that was
    being read is left with an arbitrary value, [lft k]. *)
Definition h_read (e : renv) (i h : N) (lft : tclass -> cval) (st : rstate) (s : hstate) : res (xout * hstate) :=
  do r0 <- h_deinit i s; let '(_, s0) := r0 in
  match r_read e h (TUInt I16) key_type_ (u16_val 0) st with
  | Undef => Undef
  | Throw => Done (XThrown, s0)
  | Done (false, _, st1) => Done (XGot false st1, s0)
  | Done (true, ty, st1) =>
    match r_read e h (TUInt I16) key_container (u16_val 0) st1 with
    | Undef => Undef
    | Throw => Done (XThrown, s0)
    | Done (false, _, st2) => Done (XGot false st2, s0)
    | Done (true, ct, st2) =>
      do r3 <- h_set_type i (u16_of ty) (u16_of ct) s0; let '(ok3, s3) := r3 in
      if negb ok3 then Done (XGot false st2, s3) else
      do v <- var i s3;
      do x <- load (h_data v) s3;
      match dyn_read e (h_ty v) (h_ct v) key_data h x st2 with
      | Undef => Undef
      | Throw => Done (XThrown, store (h_data v) (match x with Some o => Some (Obj (o_class o) (lft (o_class o))) | None => None end) s3)
      | Done (ok4, x', st4) => Done (XGot ok4 st4, store (h_data v) x' s3)
      end
    end
  end.

(** One operation of a program: an operation of Varying.v, MF::Write( vi, writer ) or MF::Read( vi, reader ),
    with the state of the writer or the reader. *)
Inductive xop :=
| XOp (o : vop)
| XWrite (i h : N) (st : wstate)
| XRead (e : renv) (i h : N) (lft : tclass -> cval) (st : rstate).
Definition x_step (o : xop) (s : hstate) : res (xout * hstate) :=
  match o with
  | XOp o => do r <- v_step o s; Done (XOut (fst r), snd r)
  | XWrite i h st => match h_write i h st s with
                     | Done (b, st') => Done (XWrote b st', s)
                     | Throw => Done (XThrown, s)
                     | Undef => Undef
                     end
  | XRead e i h lft st => h_read e i h lft st s
  end.
Fixpoint x_run (l : list xop) (s : hstate) : res (list xout * hstate) :=
  match l with
  | [] => Done ([], s)
  | o :: r => do a <- x_step o s; let '(x, s1) := a in do b <- x_run r s1; let '(xs, s2) := b in Done (x :: xs, s2)
  end.
