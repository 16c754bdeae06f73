(** * TruncSpec: vocabulary of the statements about data that was cut off. Specification. *)
From Verif Require Import Base Bytes Items Documents EntityGen.
Local Open Scope N_scope.

(** [p] is what is left of [b] after some of its end was lost. *)
Definition cut_off (p b : list byte) : Prop := exists q, q <> [] /\ b = p ++ q.

(** The key of a node; documents (at the top level) and entities whose keys and names are not empty. *)
Definition node_key (n : node) : list byte :=
  match n with NItem i => i_key i | NSection k _ | NNullSection k | NArray k _ _ | NNullArray k => k end.
Fixpoint nodes_keyed (l : nodes) : Prop :=
  match l with Nil => True | Cons n r => 0 < len (node_key n) /\ nodes_keyed r end.
Fixpoint f_named (fs : fields) : Prop :=
  match fs with FNil => True | FBase n _ _ r | FClass n _ r | FOpt n _ r => 0 < len n /\ f_named r end.
Definition s_named (s : schema) : Prop := match s with SEntity fs => f_named fs | _ => True end.
