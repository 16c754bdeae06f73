(** * EntitySpec: objects of entity classes. Specification, by recursion over the definition of the class.
    Nothing here refers to the functions of the classes. *)
From Verif Require Import Base Bytes Values Types Items ItemSpec Documents DocSpec Keys KeySpec Containers ValueEqSpec
  Graph GraphSpec Classes Table TableSpec IndexedVector IndexedVectorSpec DynTypes Varying VaryingSpec EntityGen.
Local Open Scope N_scope.

(** The objects a program can have: values have the type of their variable, sets are sorted, no key is twice
    in a table, Varyings have a content. *)
Fixpoint s_ok (s : schema) : ty s -> Prop :=
  match s with
  | SGraph k _ => fun g => is_graph (kops k) g
  | STable k _ s' => fun m => is_table m /\ forall i x, In (i, Some x) (t_list m) -> s_ok s' x
  | SIdx t => fun o => iv_ok t o
  | SVarying => fun v => exists x, v = v_of x /\ well_typed x
  | SEntity fs => f_ok fs
  end
with f_ok (fs : fields) : fty fs -> Prop :=
  match fs with
  | FNil => fun _ => True
  | FBase _ t c r => fun x => cval_ok t (fst x) /\ cval_ctype (fst x) = c /\ f_ok r (snd x)
  | FClass _ s r => fun x => s_ok s (fst x) /\ f_ok r (snd x)
  | FOpt _ s r => fun x => match fst x with Some a => s_ok s a | None => True end /\ f_ok r (snd x)
  end.

(** Two objects of a class are related when all their parts are: values by [B], Varyings by [V], graphs have the
    same roots and edges, tables have the same keys, the same null entities and related entities, optional
    objects are both absent or both present and related. *)
Section Rel.
Context (B : dtype -> cval -> cval -> Prop) (V : content -> content -> Prop).
Fixpoint s_rel (s : schema) : ty s -> ty s -> Prop :=
  match s with
  | SGraph k _ => fun g h => (forall a, In a (g_roots g) <-> In a (g_roots h)) /\ (forall a b, edge g a b <-> edge h a b)
  | STable k _ s' => fun l r => same_map (kops k) (s_rel s') l r
  | SIdx t => fun a b => B t (CIdx (iv_values a) (iv_index a)) (CIdx (iv_values b) (iv_index b))
  | SVarying => fun a b => exists x y, a = v_of x /\ b = v_of y /\ well_typed x /\ well_typed y /\ V x y
  | SEntity fs => f_rel fs
  end
with f_rel (fs : fields) : fty fs -> fty fs -> Prop :=
  match fs with
  | FNil => fun _ _ => True
  | FBase _ t c r => fun x y => B t (fst x) (fst y) /\ f_rel r (snd x) (snd y)
  | FClass _ s r => fun x y => s_rel s (fst x) (fst y) /\ f_rel r (snd x) (snd y)
  | FOpt _ s r => fun x y =>
      match fst x, fst y with Some a, Some b => s_rel s a b | None, None => True | _, _ => False end /\
      f_rel r (snd x) (snd y)
  end.
End Rel.
(** Equal in the sense of Equals: values as their operator== compares them (NaN is not equal to itself, -0 is
    equal to 0); Varyings hold a value of the same type, and the values are equal. *)
Definition s_equal : forall s, ty s -> ty s -> Prop := s_rel cval_same same_content.
(** Identical: the same values, bit by bit; Varyings are both empty or hold the same value. *)
Definition same_holding (x y : content) : Prop :=
  match x, y with Holds k c, Holds k' c' => k = k' /\ c = c' | Empty _ _, Empty _ _ => True | _, _ => False end.
Definition s_ident : forall s, ty s -> ty s -> Prop := s_rel (fun _ => eq) same_holding.

(** No float component is a NaN and every Varying holds a value. *)
Fixpoint s_clean (s : schema) : ty s -> Prop :=
  match s with
  | SGraph _ _ => fun _ => True
  | STable k _ s' => fun m => forall i x, In (i, Some x) (t_list m) -> s_clean s' x
  | SIdx t => fun o => Forall (clean t) (iv_values o)
  | SVarying => fun v => exists k c, v = v_of (Holds k c) /\ cval_clean (fst k) c
  | SEntity fs => f_clean fs
  end
with f_clean (fs : fields) : fty fs -> Prop :=
  match fs with
  | FNil => fun _ => True
  | FBase _ t c r => fun x => cval_clean t (fst x) /\ f_clean r (snd x)
  | FClass _ s r => fun x => s_clean s (fst x) /\ f_clean r (snd x)
  | FOpt _ s r => fun x => match fst x with Some a => s_clean s a | None => True end /\ f_clean r (snd x)
  end.

(** The written form: values are items with the name of the variable, objects are sections with the name of the
    variable, without content if an optional object is absent. *)
Fixpoint s_doc (s : schema) : ty s -> nodes :=
  match s with
  | SGraph k _ => graph_doc (kops k)
  | STable k _ s' => table_doc (kops k) (s_doc s')
  | SIdx t => iv_doc t
  | SVarying => fun v => match v_data v with Some o => varying_doc (o_class o) (o_val o) | None => Nil end
  | SEntity fs => f_doc fs
  end
with f_doc (fs : fields) : fty fs -> nodes :=
  match fs with
  | FNil => fun _ => Nil
  | FBase n t c r => fun x => Cons (NItem (Item t n (fst x))) (f_doc r (snd x))
  | FClass n s r => fun x => Cons (NSection n (s_doc s (fst x))) (f_doc r (snd x))
  | FOpt n s r => fun x => Cons (NSection n (match fst x with Some a => s_doc s a | None => Nil end)) (f_doc r (snd x))
  end.
(** Objects that can be written: graphs and tables of a size vectors can have; every Varying holds a value. *)
Fixpoint s_fits (s : schema) : ty s -> Prop :=
  match s with
  | SGraph k _ => fun g => graph_fits g
  | STable k _ s' => fun m => len (t_list m) < 2^63 /\ forall i x, In (i, Some x) (t_list m) -> s_fits s' x
  | SIdx t => fun _ => True
  | SVarying => fun v => exists k c, v = v_of (Holds k c)
  | SEntity fs => f_fits fs
  end
with f_fits (fs : fields) : fty fs -> Prop :=
  match fs with
  | FNil => fun _ => True
  | FBase _ t c r => fun x => f_fits r (snd x)
  | FClass _ s r => fun x => s_fits s (fst x) /\ f_fits r (snd x)
  | FOpt _ s r => fun x => match fst x with Some a => s_fits s a | None => True end /\ f_fits r (snd x)
  end.
(** Objects that can be read into with exact results: vectors of references are empty (they are appended
    to). *)
Fixpoint s_dest (s : schema) : ty s -> Prop :=
  match s with
  | SIdx t => fun o => replaced t (CIdx (iv_values o) (iv_index o))
  | SEntity fs => f_dest fs
  | _ => fun _ => True
  end
with f_dest (fs : fields) : fty fs -> Prop :=
  match fs with
  | FNil => fun _ => True
  | FBase _ t c r => fun x => replaced t (fst x) /\ f_dest r (snd x)
  | FClass _ s r => fun x => s_dest s (fst x) /\ f_dest r (snd x)
  | FOpt _ s r => fun x => f_dest r (snd x)
  end.

(** Definitions whose objects can be written and read back: names have at most 40 bytes; entities without
    variables occur neither as the type of a variable nor as the type of table entries. *)
Definition nonempty (s : schema) : Prop := s <> SEntity FNil.
Fixpoint s_sound (s : schema) : Prop :=
  match s with
  | STable _ _ s' => nonempty s' /\ s_sound s'
  | SEntity fs => f_sound fs
  | _ => True
  end
with f_sound (fs : fields) : Prop :=
  match fs with
  | FNil => True
  | FBase n _ _ r => len n <= 40 /\ f_sound r
  | FClass n s r | FOpt n s r => len n <= 40 /\ nonempty s /\ s_sound s /\ f_sound r
  end.

(** Classes whose Clear gives the default object: no optional objects (it does not compile) and no Varying
    variables (Clear keeps their type). *)
Fixpoint s_clearable (s : schema) : Prop :=
  match s with SVarying => False | SEntity fs => f_clearable fs | _ => True end
with f_clearable (fs : fields) : Prop :=
  match fs with
  | FNil => True
  | FBase _ _ _ r => f_clearable r
  | FClass _ s r => s_clearable s /\ f_clearable r
  | FOpt _ _ _ => False
  end.

(** The keys of all graphs are of a type that has a least and a greatest value (not std::string). *)
Fixpoint s_bounded (s : schema) : Prop :=
  match s with
  | SGraph k _ => is_node (kt k) = true
  | STable _ _ s' => s_bounded s'
  | SEntity fs => f_bounded fs
  | _ => True
  end
with f_bounded (fs : fields) : Prop :=
  match fs with
  | FNil => True
  | FBase _ _ _ r => f_bounded r
  | FClass _ s r | FOpt _ s r => s_bounded s /\ f_bounded r
  end.
(** Valid objects: every graph has the properties its flags ask for; no table has a zero key or a null entity,
    if its flags forbid them; every index refers to a value; every Varying holds a value. *)
Definition graph_valid {K} (f : gflags) (g : graph K) : Prop :=
  (f_acyclic f = true -> ~ cyclic g) /\ (f_rooted f = true -> well_rooted g) /\
  (f_single f = true -> exactly_one (source g)) /\
  (f_rooted f = true -> f_single f = true -> exactly_one (fun r => In r (g_roots g))).
Fixpoint s_valid (s : schema) : ty s -> Prop :=
  match s with
  | SGraph k f => graph_valid f
  | STable k f s' => fun m =>
      (no_zero_keys f = true -> ~ exists v, In (kzero k, v) (t_list m)) /\
      (no_null_entities f = true -> ~ exists i, In (i, None) (t_list m)) /\
      (forall i x, In (i, Some x) (t_list m) -> s_valid s' x)
  | SIdx t => fun o => len (iv_values o) <= 2^31 - 1 /\ forall i, In i (iv_index o) -> refers (iv_values o) i
  | SVarying => fun v => exists k c, v = v_of (Holds k c)
  | SEntity fs => f_valid fs
  end
with f_valid (fs : fields) : fty fs -> Prop :=
  match fs with
  | FNil => fun _ => True
  | FBase _ _ _ r => fun x => f_valid r (snd x)
  | FClass _ s r => fun x => s_valid s (fst x) /\ f_valid r (snd x)
  | FOpt _ s r => fun x => match fst x with Some a => s_valid s a | None => True end /\ f_valid r (snd x)
  end.

(** Classes that have a working Clear: those without optional objects (for these it does not compile). *)
Fixpoint s_has_clear (s : schema) : Prop :=
  match s with SEntity fs => f_has_clear fs | _ => True end
with f_has_clear (fs : fields) : Prop :=
  match fs with
  | FNil => True
  | FBase _ _ _ r => f_has_clear r
  | FClass _ s r => s_has_clear s /\ f_has_clear r
  | FOpt _ _ _ => False
  end.
(** What Clear leaves of an object: graphs without edges and roots, tables without entries, indexed vectors
    without values, values that are the default of their type; a Varying that holds a value holds the default
    value of the same type, another one is not changed. *)
Fixpoint s_cleared (s : schema) : ty s -> ty s -> Prop :=
  match s with
  | SGraph k _ => fun _ y => g_roots y = [] /\ forall a b, ~ edge y a b
  | STable k _ s' => fun _ y => t_list y = []
  | SIdx t => fun _ y => iv_values y = [] /\ iv_index y = []
  | SVarying => fun x y => exists a, x = v_of a /\ y = v_of (match a with Holds k _ => fresh_of k | Empty _ _ => a end)
  | SEntity fs => f_cleared fs
  end
with f_cleared (fs : fields) : fty fs -> fty fs -> Prop :=
  match fs with
  | FNil => fun _ _ => True
  | FBase _ t c r => fun x y => fst y = cval_default t c /\ f_cleared r (snd x) (snd y)
  | FClass _ s r => fun x y => s_cleared s (fst x) (fst y) /\ f_cleared r (snd x) (snd y)
  | FOpt _ _ r => fun x y => fst y = None /\ f_cleared r (snd x) (snd y)
  end.
