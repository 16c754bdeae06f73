(** * VaryingSpec: a Varying as a typed value. Specification: no heap, no pointers. *)
From Verif Require Import Base Bytes Values Types Items Documents ValueEqSpec DynTypes Varying.
Open Scope N_scope.

(** What a Varying holds: nothing (the ids are those of a failed Initialize, otherwise 0), or a value of a
    data type and container. *)
Inductive content := Empty (dt ct : N) | Holds (k : tclass) (c : cval).
(** An object of the type. *)
Definition typed (k : tclass) (c : cval) : Prop := cval_ok (fst k) c /\ cval_ctype c = snd k.
(** The variables of a program. *)
Definition env := N -> option content.
Definition bind_var (i : N) (x : option content) (E : env) : env := fun y => if y =? i then x else E y.

(** The type with the given ids. *)
Definition ids_are (dt ct : N) (k : tclass) : Prop := dt_id (fst k) = dt /\ ct_id (snd k) = ct.
(** A freshly initialised value. *)
Definition fresh_of (k : tclass) : content := Holds k (cval_default (fst k) (snd k)).
(** Two values are equal: same type, same container, same value. *)
Definition same_content (x y : content) : Prop :=
  match x, y with Holds k c, Holds k' c' => k = k' /\ cval_same (fst k) c c' | _, _ => False end.

(** One operation: the environment before, what it returns, the environment after. *)
Definition v_spec (o : vop) (E : env) (out : vout) (E' : env) : Prop :=
  match o with
  | VDefault i => out = OUnit /\ E' = bind_var i (Some (Empty 0 0)) E
  | VCopyCtor i j => out = OUnit /\
      exists x, E j = Some x /\ E' = bind_var i (Some (match x with Holds _ _ => x | Empty _ _ => Empty 0 0 end)) E
  | VMoveCtor i j | VMoveAssign i j => out = OUnit /\
      exists x, E j = Some x /\ E' = bind_var j (Some (Empty 0 0)) (bind_var i (Some x) E)
  | VAssign i j => out = OUnit /\
      exists x y, E i = Some x /\ E j = Some y /\
      E' = bind_var i (Some (match x, y with
                             | Holds _ _, Holds _ _ => if i =? j then Empty 0 0 else y
                             | Holds _ _, Empty _ _ => Empty 0 0
                             | Empty _ _, Holds _ _ => y
                             | Empty _ _, Empty _ _ => x
                             end)) E
  | VDestroy i => out = OUnit /\ E' = bind_var i None E
  | VInit i dt ct =>
      (exists k, ids_are dt ct k /\ out = OBool true /\ E' = bind_var i (Some (fresh_of k)) E) \/
      ((forall k, ~ ids_are dt ct k) /\ out = OBool false /\ E' = bind_var i (Some (Empty dt ct)) E)
  | VInitT i k => out = OUnit /\ E' = bind_var i (Some (fresh_of k)) E
  | VSet i k c =>
      ((exists c0, E i = Some (Holds k c0)) /\ out = OUnit /\ E' = bind_var i (Some (Holds k c)) E) \/
      ((forall c0, E i <> Some (Holds k c0)) /\ out = OThrow /\ E' = E)
  | VGet i k => E' = E /\
      ((exists c, E i = Some (Holds k c) /\ out = OVal c) \/ ((forall c, E i <> Some (Holds k c)) /\ out = OThrow))
  | VClear i => out = OUnit /\
      exists x, E i = Some x /\ E' = bind_var i (Some (match x with Holds k _ => fresh_of k | Empty _ _ => x end)) E
  | VEquals i j => E' = E /\ exists x y b, E i = Some x /\ E j = Some y /\ out = OBool b /\ (b = true <-> i = j \/ same_content x y)
  | VIsInit i => E' = E /\ exists x, E i = Some x /\ out = OBool (match x with Holds _ _ => true | Empty _ _ => false end)
  | VIsA i k => E' = E /\ exists x b, E i = Some x /\ out = OBool b /\
      (b = true <-> match x with Holds k' _ => k' = k | Empty dt ct => ids_are dt ct k end)
  | VType i => E' = E /\ exists x, E i = Some x /\
      out = match x with Holds k _ => OType (dt_id (fst k)) (ct_id (snd k)) | Empty dt ct => OType dt ct end
  end.
Fixpoint v_specs (l : list vop) (E : env) (outs : list vout) (E' : env) : Prop :=
  match l, outs with
  | [], [] => E' = E
  | o :: r, x :: xs => exists E1, v_spec o E x E1 /\ v_specs r E1 xs E'
  | _, _ => False
  end.

(** Programs that use only objects within their lifetime; assigned values are objects of the type. *)
Definition v_legal (live : N -> bool) (o : vop) : Prop :=
  match o with
  | VDefault i => live i = false
  | VCopyCtor i j | VMoveCtor i j => live i = false /\ live j = true
  | VAssign i j | VMoveAssign i j | VEquals i j => live i = true /\ live j = true
  | VSet i k c => live i = true /\ typed k c
  | VDestroy i | VInit i _ _ | VInitT i _ | VGet i _ | VClear i | VIsInit i | VIsA i _ | VType i => live i = true
  end.
Definition v_lives (live : N -> bool) (o : vop) : N -> bool :=
  match o with
  | VDefault i | VCopyCtor i _ | VMoveCtor i _ => fun x => if x =? i then true else live x
  | VDestroy i => fun x => if x =? i then false else live x
  | _ => live
  end.
Fixpoint v_legal_run (live : N -> bool) (l : list vop) : Prop :=
  match l with [] => True | o :: r => v_legal live o /\ v_legal_run (v_lives live o) r end.

(** The written form: the ids, then the value. *)
Definition u16_item (key : list byte) (n : N) : item := Item (TUInt I16) key (CV (VP (le 2 n))).
Definition varying_doc (k : tclass) (c : cval) : nodes :=
  Cons (NItem (u16_item [x54; x79; x70; x65] (dt_id (fst k))))
  (Cons (NItem (u16_item [x43; x6f; x6e; x74; x61; x69; x6e; x65; x72; x54; x79; x70; x65] (ct_id (snd k))))
  (Cons (NItem (Item (fst k) [x44; x61; x74; x61] c)) Nil)).

(** The Varying object with a content. *)
Definition v_of (x : content) : varying :=
  match x with Empty dt ct => Vary dt ct None | Holds k c => Vary (dt_id (fst k)) (ct_id (snd k)) (Some (Obj k c)) end.
(** Every possible Varying object has a content whose value is an object of its type. *)
Definition well_typed (x : content) : Prop := match x with Holds k c => typed k c | Empty _ _ => True end.
(** After a copy from another object. *)
Definition copied (dest src : content) : content :=
  match src, dest with Holds _ _, _ => src | Empty _ _, Holds _ _ => Empty 0 0 | Empty _ _, Empty _ _ => dest end.
