(** * SectionEndSpec: what it takes to close a section. Specification and the call sequences it is
    about. *)
From Verif Require Import Base Bytes Values Streams Types EntityWriter EntityReader Sections Protocol Format.
Open Scope N_scope.

(** Calls, and what they returned, that lead from one state to another. *)
Inductive rcont (e : renv) : rstate -> list (rcall * rret) -> rstate -> Prop :=
| rcont_nil st : rcont e st [] st
| rcont_call st c r st1 l st2 : rstep e c st = Done (r, st1) -> rcont e st1 l st2 -> rcont e st ((c, r) :: l) st2.
Inductive wcont : wstate -> list (wcall * wret) -> wstate -> Prop :=
| wcont_nil st : wcont st [] st
| wcont_call st c r st1 l st2 : wstep c st = Done (r, st1) -> wcont st1 l st2 -> wcont st ((c, r) :: l) st2.

(** No section of the array of [h] was begun by the calls. *)
Definition no_begin_in (h : N) (l : list (rcall * rret)) : Prop :=
  Forall (fun p => match fst p with RBeginIn h' _ _ _ => h' <> h | _ => True end) l.
Definition no_begin_in_w (h : N) (l : list (wcall * wret)) : Prop :=
  Forall (fun p => match fst p with WBeginIn h' _ _ => h' <> h | _ => True end) l.

(** The outcome of an end call that must find the stream at [endp]: refused without any change, or the
    section [c] is closed and the stream left as it is. *)
Definition closes_only_at (endp : N) (c : N) (r : res (bool * rstate)) (st : rstate) : Prop :=
  (rs_pos (r_stream st) <> endp -> r = Done (false, st)) /\
  (rs_pos (r_stream st) = endp -> exists st', r = Done (true, st') /\ r_stream st' = r_stream st /\ ~ rlive c st').
