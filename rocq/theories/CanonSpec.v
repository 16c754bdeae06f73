(** * CanonSpec: classes whose objects have one written form. Specification. *)
From Verif Require Import Base Values Types Keys Containers Classes Table IndexedVector DynTypes Varying EntityGen.

(** Classes without entity tables: a table is written in the order of its std::unordered_map, which is not part of its
    value. *)
Fixpoint s_tableless (s : schema) : Prop :=
  match s with STable _ _ _ => False | SEntity fs => f_tableless fs | _ => True end
with f_tableless (fs : fields) : Prop :=
  match fs with
  | FNil => True
  | FBase _ _ _ r => f_tableless r
  | FClass _ s r | FOpt _ s r => s_tableless s /\ f_tableless r
  end.
