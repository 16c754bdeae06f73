(** * DebugClassesSpec: when the builds can differ on the objects of a class. Specification. *)
From Verif Require Import Base Values Types Keys Classes Table EntityGen ItemSpec ReadAnySpec DebugSpec.
Open Scope N_scope.

(** All variables, at every depth, have names of at most 40 bytes. *)
Fixpoint s_short (s : schema) : Prop :=
  match s with
  | STable _ _ s' => s_short s'
  | SEntity fs => f_short fs
  | _ => True
  end
with f_short (fs : fields) : Prop :=
  match fs with
  | FNil => True
  | FBase n _ _ r => len n <= 40 /\ f_short r
  | FClass n s r | FOpt n s r => len n <= 40 /\ s_short s /\ f_short r
  end.
(** The nodes of all graphs are numbers, ids or references (not strings, which have no greatest value). *)
Fixpoint s_nodes (s : schema) : Prop :=
  match s with
  | SGraph k _ => is_node (kt k) = true
  | STable _ _ s' => s_nodes s'
  | SEntity fs => f_nodes fs
  | _ => True
  end
with f_nodes (fs : fields) : Prop :=
  match fs with
  | FNil => True
  | FBase _ _ _ r => f_nodes r
  | FClass _ s r | FOpt _ s r => s_nodes s /\ f_nodes r
  end.
(** From [pos] on there is a block of one of the indexed arrays that are asked for, and it is cut short (DebugSpec.v). *)
Definition cut_array (data : list byte) (flip : bool) (pos : N) (asks : list byte -> dtype -> ctype -> Prop) : Prop :=
  exists n t c q, asks n t c /\ (c = CtIdx \/ c = CtOptIdx) /\ pos <= q <= len data /\
    cut_short flip q (len data) (vt_array t) n (drop q data).
