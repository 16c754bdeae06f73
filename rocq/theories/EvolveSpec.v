(** * EvolveSpec: changing the definition of a class while data of the old definition exists. Specification.
    Nothing here refers to the functions of the classes. *)
From Verif Require Import Base Bytes Values Types Accept ItemSpec Containers Graph Classes Table TableSpec IndexedVector Varying EntityGen EntitySpec.
Local Open Scope N_scope.

(** Types whose values are stored the same way: a reference is stored like the value it refers to. *)
Definition same_data (t t' : dtype) : Prop :=
  t = t' \/ (In t [TUuid; TEntityRef] /\ In t' [TUuid; TEntityRef]) \/ (In t [THash; TPackageRef] /\ In t' [THash; TPackageRef]).
(** What the value [v] of a variable of type [t] is for a variable of type [t'] and container [c']: the same
    content, if the types store it the same way. Of an absent value only the kind of type counts (the ValueType
    byte: of integers, for instance, not the number of bits). *)
Definition value_as (t : dtype) (v : cval) (t' : dtype) (c' : ctype) (w : cval) : Prop :=
  cval_ctype w = c' /\ content w = content v /\
  (same_data t t' \/ (is_null v /\ type_byte t' c' = type_byte t (cval_ctype v))).

(** One name is the end of the other. *)
Definition ends_with (a b : list byte) : Prop := exists c, a = c ++ b.
(** The first variables of two definitions cannot be confused: a value and an object; objects with different names;
    values with different names, neither of which is the end of the other unless it is a string or an array. *)
Definition clash (fs fs' : fields) : Prop :=
  match fs, fs' with
  | FBase _ _ _ _, (FClass _ _ _ | FOpt _ _ _) | (FClass _ _ _ | FOpt _ _ _), FBase _ _ _ _ => True
  | (FClass n _ _ | FOpt n _ _), (FClass n' _ _ | FOpt n' _ _) => n <> n'
  | FBase n t c _, FBase n' _ _ _ => n <> n' /\ (large t c = true \/ (~ ends_with n n' /\ ~ ends_with n' n))
  | _, _ => False
  end.

(** The changes of a class definition: nothing is changed; the flags of a graph are changed; the flags of a table, and
    the definition of its entities; the variables of an entity. Of the variables, the type and container of a value can be
    changed, the definition of an object, and whether it is optional; or, from some variable on, the variables are
    others. *)
Inductive s_change : schema -> schema -> Type :=
| ChSame s : s_change s s
| ChGraph k f f' : s_change (SGraph k f) (SGraph k f')
| ChTable k f f' s s' : s_change s s' -> s_change (STable k f s) (STable k f' s')
| ChEntity fs fs' : f_change fs fs' -> s_change (SEntity fs) (SEntity fs')
with f_change : fields -> fields -> Type :=
| ChNil : f_change FNil FNil
| ChBase n t c t' c' r r' : f_change r r' -> f_change (FBase n t c r) (FBase n t' c' r')
| ChClass n s s' r r' : s_change s s' -> f_change r r' -> f_change (FClass n s r) (FClass n s' r')
| ChClassOpt n s s' r r' : s_change s s' -> f_change r r' -> f_change (FClass n s r) (FOpt n s' r')
| ChOptClass n s s' r r' : s_change s s' -> f_change r r' -> f_change (FOpt n s r) (FClass n s' r')
| ChOpt n s s' r r' : s_change s s' -> f_change r r' -> f_change (FOpt n s r) (FOpt n s' r')
| ChOther fs fs' : clash fs fs' -> f_change fs fs'.

(** Two tables have the same keys, the same null entities, and related entities. *)
Definition table_as {K T T'} (Ko : Keys.keyops K) (R : T -> T' -> Prop) (m : table K T) (m' : table K T') : Prop :=
  forall k, match t_find Ko k m, t_find Ko k m' with
            | None, None | Some None, Some None => True
            | Some (Some a), Some (Some b) => R a b
            | _, _ => False
            end.

(** [s_as e x y]: the object [y] of the new definition says what the object [x] of the old one says. *)
Fixpoint s_as {s s'} (e : s_change s s') : ty s -> ty s' -> Prop :=
  match e in s_change s s' return ty s -> ty s' -> Prop with
  | ChSame s => fun x y => s_ident s y x
  | ChGraph k f f' => fun x y =>
      (forall a, In a (g_roots y) <-> In a (g_roots x)) /\ (forall a b, GraphSpec.edge y a b <-> GraphSpec.edge x a b)
  | ChTable k f f' s s' e' => fun x y => table_as (kops k) (s_as e') x y
  | ChEntity fs fs' e' => f_as e'
  end
with f_as {fs fs'} (e : f_change fs fs') : fty fs -> fty fs' -> Prop :=
  match e in f_change fs fs' return fty fs -> fty fs' -> Prop with
  | ChNil => fun _ _ => True
  | ChBase n t c t' c' r r' e' => fun x y => value_as t (fst x) t' c' (fst y) /\ f_as e' (snd x) (snd y)
  | ChClass n s s' r r' d e' => fun x y => s_as d (fst x) (fst y) /\ f_as e' (snd x) (snd y)
  | ChClassOpt n s s' r r' d e' => fun x y =>
      match fst y with Some b => s_as d (fst x) b | None => False end /\ f_as e' (snd x) (snd y)
  | ChOptClass n s s' r r' d e' => fun x y =>
      match fst x with Some a => s_as d a (fst y) | None => False end /\ f_as e' (snd x) (snd y)
  | ChOpt n s s' r r' d e' => fun x y =>
      match fst x, fst y with Some a, Some b => s_as d a b | None, None => True | _, _ => False end /\ f_as e' (snd x) (snd y)
  | ChOther fs fs' _ => fun _ _ => False
  end.

(** All names are not empty. *)
Fixpoint s_keyed (s : schema) : Prop :=
  match s with STable _ _ s' => s_keyed s' | SEntity fs => f_keyed fs | _ => True end
with f_keyed (fs : fields) : Prop :=
  match fs with
  | FNil => True
  | FBase n _ _ r => 0 < len n /\ f_keyed r
  | FClass n s r | FOpt n s r => 0 < len n /\ s_keyed s /\ f_keyed r
  end.

(** Variables added behind the others, and objects with them. *)
Fixpoint f_app (fs more : fields) : fields :=
  match fs with
  | FNil => more
  | FBase n t c r => FBase n t c (f_app r more)
  | FClass n s r => FClass n s (f_app r more)
  | FOpt n s r => FOpt n s (f_app r more)
  end.
Fixpoint f_join (fs more : fields) : fty fs -> fty more -> fty (f_app fs more) :=
  match fs with
  | FNil => fun _ y => y
  | FBase n t c r => fun x y => (fst x, f_join r more (snd x) y)
  | FClass n s r => fun x y => (fst x, f_join r more (snd x) y)
  | FOpt n s r => fun x y => (fst x, f_join r more (snd x) y)
  end.

(** Changes that keep all the data readable: a value keeps its way of being stored and can become optional, and so can an
    object; nothing else is changed. *)
Definition widens (c c' : ctype) : Prop :=
  c = c' \/ (c = CtNone /\ c' = CtOpt) \/ (c = CtVec /\ c' = CtOptVec) \/ (c = CtIdx /\ c' = CtOptIdx).
Fixpoint s_safe {s s'} (e : s_change s s') : Prop :=
  match e with
  | ChSame _ | ChGraph _ _ _ => True
  | ChTable _ _ _ _ _ e' => s_safe e'
  | ChEntity _ _ e' => f_safe e'
  end
with f_safe {fs fs'} (e : f_change fs fs') : Prop :=
  match e with
  | ChNil => True
  | ChBase _ t c t' c' _ _ e' => same_data t t' /\ widens c c' /\ f_safe e'
  | ChClass _ _ _ _ _ d e' | ChClassOpt _ _ _ _ _ d e' | ChOpt _ _ _ _ _ d e' => s_safe d /\ f_safe e'
  | ChOptClass _ _ _ _ _ _ _ | ChOther _ _ _ => False
  end.
