(** * VaryingIOSpec: Varyings that are written and read, as typed values. Specification: no heap. *)
From Verif Require Import Base Bytes Values Streams Types EntityWriter EntityReader Sections ArraySafety DynTypes Varying VaryingSpec VaryingIO.
Open Scope N_scope.

(** A write shows what the class's write does on the value; the variables keep theirs. A read gives the
    variable the value, and the result, that the class's read gives on the value; after an exception it
    holds nothing, or some object of some type. *)
Definition x_spec (o : xop) (E : env) (out : xout) (E' : env) : Prop :=
  match o with
  | XOp o => exists r, out = XOut r /\ v_spec o E r E'
  | XWrite i h st => E' = E /\ exists x, E i = Some x /\
      match v_write h (v_of x) st with Done (b, st') => out = XWrote b st' | Throw => out = XThrown | Undef => False end
  | XRead e i h _ st => exists x y, E i = Some x /\ E' = bind_var i (Some y) E /\ well_typed y /\
      match v_read e h (v_of x) st with
      | Done (b, v, st') => out = XGot b st' /\ v = v_of y /\ (b = true -> exists k c, y = Holds k c)
      | Throw => out = XThrown
      | Undef => False
      end
  end.
Fixpoint x_specs (l : list xop) (E : env) (outs : list xout) (E' : env) : Prop :=
  match l, outs with
  | [], [] => E' = E
  | o :: r, x :: xs => exists E1, x_spec o E x E1 /\ x_specs r E1 xs E'
  | _, _ => False
  end.

(** Programs that use only objects within their lifetime, and readers and writers for which the class's own
    functions have a defined outcome on the value (C38 and C32 say when); memory is less than 2^60.
    An operation is legal given the variables before it; a program if every operation is, whatever
    the operations before it gave. *)
Definition live_in (E : env) (i : N) : bool := match E i with Some _ => true | None => false end.
Definition x_legal (E : env) (o : xop) : Prop :=
  match o with
  | XOp o => v_legal (live_in E) o
  | XWrite i h st => exists x, E i = Some x /\ v_write h (v_of x) st <> Undef
  | XRead e i h lft st => e_small e /\ (forall k, typed k (lft k)) /\ exists x, E i = Some x /\ v_read e h (v_of x) st <> Undef
  end.
Fixpoint x_legal_run (E : env) (l : list xop) : Prop :=
  match l with [] => True | o :: r => x_legal E o /\ forall out E', x_spec o E out E' -> x_legal_run E' r end.
Definition x_no_move_assign (o : xop) : Prop := match o with XOp (VMoveAssign _ _) => False | _ => True end.
