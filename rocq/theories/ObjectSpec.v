(** * ObjectSpec: variables of a class as values. Specification. *)
From Verif Require Import Base Bytes Values Types Keys KeySpec Containers ValueEqSpec Graph GraphSpec Classes Table TableSpec IndexedVector IndexedVectorSpec
  DynTypes Varying VaryingSpec EntityGen EntitySpec Objects.
Local Open Scope N_scope.

(** An object without content: what a default constructor makes. *)
Definition no_content (v : varying) : Prop := exists dt ct, v = v_of (Empty dt ct).
Fixpoint s_blank (s : schema) : ty s -> Prop :=
  match s with
  | SGraph k _ => fun g => g_roots g = [] /\ g_edges g = []
  | STable k _ s' => fun m => t_list m = []
  | SIdx t => fun o => iv_values o = [] /\ iv_index o = []
  | SVarying => no_content
  | SEntity fs => f_blank fs
  end
with f_blank (fs : fields) : fty fs -> Prop :=
  match fs with
  | FNil => fun _ => True
  | FBase _ t c r => fun x => fst x = cval_default t c /\ f_blank r (snd x)
  | FClass _ s r => fun x => s_blank s (fst x) /\ f_blank r (snd x)
  | FOpt _ s r => fun x => fst x = None /\ f_blank r (snd x)
  end.

(** What DeepCopy of an object [x] to itself leaves of it: values and graphs are kept, tables, indexed vectors and
    Varyings lose their content, optional objects are replaced by blank ones. *)
Fixpoint s_kept (s : schema) : ty s -> ty s -> Prop :=
  match s with
  | SGraph k f => s_ident (SGraph k f)
  | STable k _ s' => fun _ m => t_list m = []
  | SIdx t => fun _ o => iv_values o = [] /\ iv_index o = []
  | SVarying => fun _ => no_content
  | SEntity fs => f_kept fs
  end
with f_kept (fs : fields) : fty fs -> fty fs -> Prop :=
  match fs with
  | FNil => fun _ _ => True
  | FBase _ t c r => fun x y => fst y = fst x /\ f_kept r (snd x) (snd y)
  | FClass _ s r => fun x y => s_kept s (fst x) (fst y) /\ f_kept r (snd x) (snd y)
  | FOpt _ s r => fun x y => match fst x, fst y with Some _, Some b => s_blank s b | None, None => True | _, _ => False end /\ f_kept r (snd x) (snd y)
  end.
(** What x = x leaves: graphs and indexed vectors that are variables of the program are kept. *)
Definition s_kept_var (s : schema) : ty s -> ty s -> Prop :=
  match s with SGraph _ _ | SIdx _ => eq | s => s_kept s end.
(** Classes whose objects x = x does not change. *)
Fixpoint s_durable (s : schema) : Prop :=
  match s with SGraph _ _ => True | SEntity fs => f_durable fs | _ => False end
with f_durable (fs : fields) : Prop :=
  match fs with
  | FNil => True
  | FBase _ _ _ r => f_durable r
  | FClass _ s r => s_durable s /\ f_durable r
  | FOpt _ _ _ => False
  end.

(** What a move from [x] can leave: a valid object [y]; numbers and truth values keep their value, Varyings are
    empty, optional objects are absent (moved to itself: present as before). *)
Definition plain (c : cval) : Prop := match c with CV (VP _) | CV (VB _) => True | _ => False end.
Section Moved.
Context (self : bool).
Fixpoint s_moved (s : schema) : ty s -> ty s -> Prop :=
  match s with
  | SVarying => fun _ => no_content
  | SEntity fs => f_moved fs
  | s => fun _ y => s_ok s y
  end
with f_moved (fs : fields) : fty fs -> fty fs -> Prop :=
  match fs with
  | FNil => fun _ _ => True
  | FBase _ t c r => fun x y => (plain (fst x) -> fst y = fst x) /\ f_moved r (snd x) (snd y)
  | FClass _ s r => fun x y => s_moved s (fst x) (fst y) /\ f_moved r (snd x) (snd y)
  | FOpt _ s r => fun x y => fst y = (if self then fst x else None) /\ f_moved r (snd x) (snd y)
  end.
End Moved.
(** The standard library's promise: moved-from objects are valid; built-in types are copied. *)
Definition valid_leftovers (L : leftovers) : Prop :=
  (forall t x, cval_ok t x -> cval_ok t (l_value L t x) /\ cval_ctype (l_value L t x) = cval_ctype x) /\
  (forall t x, plain x -> l_value L t x = x) /\
  (forall k g, is_graph (kops k) g -> is_graph (kops k) (l_graph L k g)) /\
  (forall k T (m : table (kkey k) T), is_table m -> is_table (l_table L k T m) /\ forall e, In e (t_list (l_table L k T m)) -> In e (t_list m)) /\
  (forall t o, iv_ok t o -> iv_ok t (l_idx L t o)).

Section P.
Context (s : schema).
(** All variables hold valid objects. *)
Definition vars_ok (E : vars s) : Prop := forall i x, E i = Some x -> s_ok s x.
(** The meaning of one operation: [b] is the answer of a comparison. *)
Definition o_spec (o : oop (ty s)) (E : vars s) (b : option bool) (E' : vars s) : Prop :=
  match o with
  | ODefault i => b = None /\ exists y, s_blank s y /\ E' = o_bind s i (Some y) E
  | OCopyCtor i j => b = None /\ exists x y, E j = Some x /\ s_ident s y x /\ E' = o_bind s i (Some y) E
  | OMoveCtor i j => b = None /\ exists x y, E j = Some x /\ s_moved false s x y /\ E' = o_bind s j (Some y) (o_bind s i (Some x) E)
  | OAssign i j => b = None /\ exists x y, E j = Some x /\ E' = o_bind s i (Some y) E /\
      (i <> j -> s_ident s y x) /\ (i = j -> s_kept_var s x y)
  | OMoveAssign i j => b = None /\ exists x y, E j = Some x /\
      (i <> j -> s_moved false s x y /\ E' = o_bind s j (Some y) (o_bind s i (Some x) E)) /\
      (i = j -> s_moved true s x y /\ E' = o_bind s j (Some y) E)
  | OSet i x => b = None /\ E' = o_bind s i (Some x) E
  | OClear i => b = None /\ exists y, s_blank s y /\ E' = o_bind s i (Some y) E
  | OEquals i j => E' = E /\ exists x y r, E i = Some x /\ E j = Some y /\ b = Some r /\ (r = true <-> i = j \/ s_equal s x y)
  | ODestroy i => b = None /\ E' = o_bind s i None E
  end.
Fixpoint o_specs (l : list (oop (ty s))) (E : vars s) (bs : list bool) (E' : vars s) : Prop :=
  match l with
  | [] => bs = [] /\ E' = E
  | o :: r => exists b E1 bs', o_spec o E b E1 /\ o_specs r E1 bs' E' /\ bs = match b with Some x => x :: bs' | None => bs' end
  end.

(** Legal programs: variables exist when they are used, are created once, get valid objects; Clear is used only if
    the class has it and it gives a default object. [live] are the variables that exist. *)
Definition o_legal (o : oop (ty s)) (live : N -> bool) : Prop :=
  match o with
  | ODefault i => live i = false
  | OCopyCtor i j | OMoveCtor i j => live i = false /\ live j = true
  | OAssign i j | OMoveAssign i j | OEquals i j => live i = true /\ live j = true
  | OSet i x => live i = true /\ s_ok s x
  | OClear i => live i = true /\ s_clearable s
  | ODestroy i => live i = true
  end.
Definition live_after (o : oop (ty s)) (live : N -> bool) : N -> bool :=
  match o with
  | ODefault i | OCopyCtor i _ | OMoveCtor i _ => fun y => if y =? i then true else live y
  | ODestroy i => fun y => if y =? i then false else live y
  | _ => live
  end.
Fixpoint legal (l : list (oop (ty s))) (live : N -> bool) : Prop :=
  match l with [] => True | o :: r => o_legal o live /\ legal r (live_after o live) end.
End P.
