(** * FullSpec: objects in which every Varying holds a value. Specification, by recursion over the definition of the
    class; EntitySpec's [s_fits] is the conjunction of the two predicates. *)
From Verif Require Import Base Bytes Values Types Keys Containers Graph GraphSpec Classes Table TableSpec IndexedVector Varying VaryingSpec EntityGen EntitySpec.
Local Open Scope N_scope.

(** Every Varying of the object, at any depth, holds a value (Initialize was called and succeeded). *)
Fixpoint s_full (s : schema) : ty s -> Prop :=
  match s with
  | SGraph _ _ | SIdx _ => fun _ => True
  | STable k _ s' => fun m => forall i x, In (i, Some x) (t_list m) -> s_full s' x
  | SVarying => fun v => exists k c, v = v_of (Holds k c)
  | SEntity fs => f_full fs
  end
with f_full (fs : fields) : fty fs -> Prop :=
  match fs with
  | FNil => fun _ => True
  | FBase _ t c r => fun x => f_full r (snd x)
  | FClass _ s r => fun x => s_full s (fst x) /\ f_full r (snd x)
  | FOpt _ s r => fun x => match fst x with Some a => s_full s a | None => True end /\ f_full r (snd x)
  end.
(** Every graph and table of the object, at any depth, has a size that vectors can have. *)
Fixpoint s_small (s : schema) : ty s -> Prop :=
  match s with
  | SGraph k _ => fun g => graph_fits g
  | STable k _ s' => fun m => len (t_list m) < 2^63 /\ forall i x, In (i, Some x) (t_list m) -> s_small s' x
  | SIdx _ | SVarying => fun _ => True
  | SEntity fs => f_small fs
  end
with f_small (fs : fields) : fty fs -> Prop :=
  match fs with
  | FNil => fun _ => True
  | FBase _ t c r => fun x => f_small r (snd x)
  | FClass _ s r => fun x => s_small s (fst x) /\ f_small r (snd x)
  | FOpt _ s r => fun x => match fst x with Some a => s_small s a | None => True end /\ f_small r (snd x)
  end.
