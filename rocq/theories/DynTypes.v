(** * DynTypes: the dynamic type table. Model of CodeGenerator/Generators/ISD_DynamicTypes.py (the generator
    of ISD_DynamicTypes.cpp) and of ISD_CombinedTypes.py. *)
From Verif Require Import Base Bytes Values Streams Types EntityWriter EntityReader Sections ValueEq.
Open Scope N_scope.

(** A type class is identified by its Type() (lines 56-61, 92): data type and container type. *)
Definition tclass := (dtype * ctype)%type.
(** data_type_index and container_type_index are enums (of type int): their values, converted to size_t. *)
Definition class_ids (k : tclass) : N * N := (dt_id (fst k), ct_id (snd k)).

(** Parameters of the table: lines 23-26. *)
Definition table_size : nat := 577.
Definition dt_mult : N := 109.
Definition ct_mult : N := 991.
(** The hash function, line 122 (computed in size_t; the generator's own, lines 8-9, has no wrap). *)
Definition dyn_hash (dt ct : N) : N := ((dt * dt_mult) mod two64 + (ct * ct_mult) mod two64) mod two64 mod N.of_nat table_size.
Definition gen_hash (dt ct : N) : N := (dt * dt_mult + ct * ct_mult) mod N.of_nat table_size.

(** The step to the next slot: lines 16-18 and 128-130. *)
Definition next_slot (i : N) : N := if N.of_nat table_size <=? i + 1 then 0 else i + 1.
Definition slots := list (option tclass).
(** Access to a slot; [None] outside of the table. *)
Definition slot (tab : slots) (i : N) : option (option tclass) := nth_error tab (N.to_nat i).
Fixpoint set_nth (n : nat) (x : option tclass) (l : slots) : slots :=
  match l, n with
  | [], _ => []
  | _ :: r, O => x :: r
  | y :: r, S n' => y :: set_nth n' x r
  end.
(** insert_into_table, lines 11-20; [n] bounds the number of steps, [None] if it was too small
    or a slot outside of the table was used. *)
Fixpoint insert_at (n : nat) (i : N) (k : tclass) (tab : slots) : option slots :=
  match slot tab i with
  | None => None
  | Some None => Some (set_nth (N.to_nat i) (Some k) tab)
  | Some (Some _) => match n with O => None | S n' => insert_at n' (next_slot i) k tab end
  end.
Definition insert_class (tab : option slots) (k : tclass) : option slots :=
  match tab with
  | None => None
  | Some t => insert_at table_size (gen_hash (dt_id (fst k)) (ct_id (snd k))) k t
  end.
(** The generated table, lines 28-35: all variants of all base types, with all containers, in order. *)
Definition all_classes : list tclass := flat_map (fun t => map (fun c => (t, c)) all_ctypes) all_dtypes.
Definition hash_table : option slots := fold_left insert_class all_classes (Some (repeat None table_size)).
Definition class_table : slots := match hash_table with Some t => t | None => [] end.

(** _findTypeClass, lines 120-134: the loop, at most [n] steps; [None] if that was too small
    or a slot outside of the table was read. *)
Fixpoint probe (n : nat) (tab : slots) (i : N) (dt ct : N) : option (option tclass) :=
  match slot tab i with
  | None => None
  | Some None => Some None
  | Some (Some k) => if (dt_id (fst k) =? dt) && (ct_id (snd k) =? ct) then Some (Some k)
                     else match n with O => None | S n' => probe n' tab (next_slot i) dt ct end
  end.
Definition find_type_class (n : nat) (dt ct : N) : option (option tclass) := probe n class_table (dyn_hash dt ct) dt ct.
(** The result of the loop: [table_size] steps are enough (C22_terminates). *)
Definition find_class (dt ct : N) : option tclass :=
  match find_type_class table_size dt ct with Some r => r | None => None end.

(** An object in memory: its C++ type and its value. *)
Record obj := Obj { o_class : tclass; o_val : cval }.
Definition dtype_dec (a b : dtype) : {a = b} + {a <> b}.
Proof. decide equality; decide equality. Defined.
Definition ctype_dec (a b : ctype) : {a = b} + {a <> b}.
Proof. decide equality. Defined.
Definition class_is (k : tclass) (o : obj) : bool :=
  (if dtype_dec (fst k) (fst (o_class o)) then true else false) && (if ctype_dec (snd k) (snd (o_class o)) then true else false).

(** The virtual functions of a type class (lines 92-99). The object they are given must be of that type,
    otherwise the behaviour is undefined. New: value initialisation. Clear: clear_combined_type
    (CodeGenerator/Generators/ISD_CombinedTypes.py:59-68): zero for a plain type; clear() for vector and
    idx_vector; reset() for the optional types. *)
Definition as_class {A} (k : tclass) (o : obj) (f : cval -> res A) : res A := if class_is k o then f (o_val o) else Undef.
Definition cls_new (k : tclass) : obj := Obj k (cval_default (fst k) (snd k)).
Definition clear_combined (t : dtype) (v : cval) : cval :=
  match v with
  | CV _ => CV (val_default (dshape t))
  | COpt _ => COpt None
  | CVec _ => CVec []
  | COptVec _ => COptVec None
  | CIdx _ _ => CIdx [] []
  | COptIdx _ => COptIdx None
  end.

(** new_type, lines 136-143: [None] is a null pointer and failure. *)
Definition dyn_new (dt ct : N) : option obj := match find_class dt ct with Some k => Some (cls_new k) | None => None end.
(** The functions that take an object: null data first, then the lookup. [None] is a null pointer. *)
Definition dyn_with {A} (dt ct : N) (data : option obj) (fail : A) (f : tclass -> obj -> res A) : res A :=
  match data with
  | None => Done fail
  | Some o => match find_class dt ct with None => Done fail | Some k => f k o end
  end.
(** delete_type, lines 145-157: the result says whether the object was deleted. *)
Definition dyn_delete (dt ct : N) (data : option obj) : res bool :=
  dyn_with dt ct data false (fun k o => as_class k o (fun _ => Done true)).
(** clear, lines 159-171. *)
Definition dyn_clear (dt ct : N) (data : option obj) : res (bool * option obj) :=
  dyn_with dt ct data (false, data) (fun k o => as_class k o (fun v => Done (true, Some (Obj k (clear_combined (fst k) v))))).
(** write, lines 173-184. *)
Definition dyn_write (dt ct : N) (key : list byte) (h : N) (data : option obj) (st : wstate) : res (bool * wstate) :=
  dyn_with dt ct data (false, st) (fun k o => as_class k o (fun v => w_write h (fst k) key v st)).
(** read, lines 186-197. *)
Definition dyn_read (e : renv) (dt ct : N) (key : list byte) (h : N) (data : option obj) (st : rstate) : res (bool * option obj * rstate) :=
  dyn_with dt ct data (false, data, st) (fun k o => as_class k o (fun v =>
    do r <- r_read e h (fst k) key v st; let '(ok, v', st') := r in Done (ok, Some (Obj k v'), st'))).
(** copy, lines 199-211, to another object. *)
Definition dyn_copy (dt ct : N) (dest src : option obj) : res (bool * option obj) :=
  match src with
  | None => Done (false, dest)
  | Some s => dyn_with dt ct dest (false, dest) (fun k o => as_class k o (fun _ => as_class k s (fun v => Done (true, Some (Obj k v)))))
  end.
(** equals, lines 213-224. *)
Definition dyn_equals (dt ct : N) (a b : option obj) : res bool :=
  match b with
  | None => Done false
  | Some y => dyn_with dt ct a false (fun k x => as_class k x (fun v => as_class k y (fun w => Done (cval_eq (fst k) v w))))
  end.
