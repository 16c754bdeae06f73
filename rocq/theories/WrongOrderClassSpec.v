(** * WrongOrderClassSpec: classes whose objects are stored in small blocks only, and their objects with the
    bytes of every number reversed. Specification. *)
From Verif Require Import Base Bytes Values Types ItemSpec DynTypes Varying VaryingSpec EntityGen WrongOrderSpec.
Local Open Scope N_scope.

(** Entities all of whose variables are single or optional values of base types but strings. *)
Fixpoint small_fields (fs : fields) : Prop :=
  match fs with
  | FNil => True
  | FBase _ t c r => large t c = false /\ small_fields r
  | FClass _ _ _ | FOpt _ _ _ => False
  end.
(** The one class whose type numbers 0x0101, 0x0000 read the same in both byte orders: a float matrix with
    four rows and columns. *)
Definition palindrome : tclass := (TMat D4 F32, CtNone).
(** Objects that can be read with the wrong byte order: those of small entities, and a Varying that holds such a matrix. *)
Definition order_blind (s : schema) : ty s -> Prop :=
  match s with
  | SEntity fs => fun _ => small_fields fs
  | SVarying => fun v => exists c, v = v_of (Holds palindrome c)
  | _ => fun _ => False
  end.

Fixpoint swapped_fields (fs : fields) : fty fs -> fty fs :=
  match fs with
  | FNil => fun x => x
  | FBase _ t _ r => fun x => (swapped t (fst x), swapped_fields r (snd x))
  | FClass _ _ r | FOpt _ _ r => fun x => (fst x, swapped_fields r (snd x))
  end.
Definition swapped_object (s : schema) : ty s -> ty s :=
  match s with
  | SEntity fs => swapped_fields fs
  | SVarying => fun v => match v_data v with
                         | Some o => v_of (Holds (o_class o) (swapped (fst (o_class o)) (o_val o)))
                         | None => v
                         end
  | _ => fun x => x
  end.
