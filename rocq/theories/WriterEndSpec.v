(** * WriterEndSpec: what calls on a writer may do to the bytes written before. Specification. *)
From Verif Require Import Base Bytes Values Streams Types Format EntityWriter Sections Protocol SectionEndSpec.
Open Scope N_scope.

(** The bytes of the stream. *)
Definition bytes_of (st : wstate) : list byte := ws_data (w_stream st).
(** The calls that end something. *)
Definition is_end (c : wcall) : bool := match c with WEnd _ _ | WEndIn _ _ _ | WEndArr _ _ => true | _ => false end.
(** (size_t)-1 is not the number of an element. *)
Definition sane (c : wcall) : Prop := match c with WEndIn _ _ i => i <> ones | _ => True end.
(** ... in any call of a history. *)
Definition all_sane (l : list (wcall * wret)) : Prop := Forall (fun p => sane (fst p)) l.
(** [D] with the eight bytes at [p] replaced by the number of bytes behind them. *)
Definition sized (fl : bool) (p : N) (D : list byte) : list byte :=
  take p D ++ num W64 fl (len D - (p + 8)) ++ drop (p + 8) D.
(** No element of an array of the given writers was begun. *)
Definition no_element_of (hs : N -> Prop) (l : list (wcall * wret)) : Prop :=
  Forall (fun p => match fst p with WBeginIn h _ _ => ~ hs h | _ => True end) l.
(** The bytes from [q] to [e] are the same. *)
Definition same_between (q e : N) (D D' : list byte) : Prop := take (e - q) (drop q D) = take (e - q) (drop q D').
