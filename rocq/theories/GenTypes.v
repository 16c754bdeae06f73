(** * GenTypes: how the code generator numbers the data types and builds the table of dynamic types, for every list
    of base types and containers (DynTypes.v has the table for the list of the project). Model of
    CodeGenerator/Generators/ISD_DataTypes.py:135-146 (the enum of all data types) and of
    CodeGenerator/Generators/ISD_DynamicTypes.py:6-35, 104-134 (AllocatorHashTable, the emitted table and the emitted
    _findTypeClass). *)
From Verif Require Import Base Bytes.
Local Open Scope N_scope.

(** [A]: the variants (BaseTypeVariant, identified by implementing_type), [C]: the containers (ContainerType).
    hlp.base_types is a list of lists of variants, hlp.container_types a list of containers with their ids
    (CodeGeneratorHelpers.py:10-75). *)
Section Generator.
Context {A C : Type}.

(** The inner loop over the variants of one base type: ISD_DataTypes.py:141-144, variant_id = ((basetype_inx+1) << 4) +
    (variant_inx + 1). *)
Fixpoint number_variants (b v : N) (l : list A) : list (N * A) :=
  match l with
  | [] => []
  | x :: r => (N.shiftl (b + 1) 4 + (v + 1), x) :: number_variants b (v + 1) r
  end.
(** The outer loop over the base types: ISD_DataTypes.py:139-140. *)
Fixpoint number_types (b : N) (l : list (list A)) : list (N * A) :=
  match l with
  | [] => []
  | vs :: r => number_variants b 0 vs ++ number_types (b + 1) r
  end.
(** enum class data_type_index: the values of the enumerators, in order. *)
Definition type_enum (types : list (list A)) : list (N * A) := number_types 0 types.

(** An entry of the table: the object _dt_<variant>_ct_<container>_DynamicTypeObject, whose Type() gives the enumerators of
    the variant and of the container (ISD_DynamicTypes.py:80-93). *)
Record entry := Entry { en_dt : N; en_ct : N; en_variant : A; en_container : C }.
(** All entries, in the order of the loops of ISD_DynamicTypes.py:28-35. *)
Definition entries (types : list (list A)) (conts : list (N * C)) : list entry :=
  flat_map (fun d => map (fun c => Entry (fst d) (fst c) (snd d) (snd c)) conts) (type_enum types).

(** The parameters of the table: hash_table_size (577), hash_data_type_mult (109), hash_container_type_mult (991),
    ISD_DynamicTypes.py:23-25. *)
Context (size : nat) (m1 m2 : N).
(** hash_function, ISD_DynamicTypes.py:8-9: Python numbers do not wrap. *)
Definition py_hash (dt ct : N) : N := (dt * m1 + ct * m2) mod N.of_nat size.
(** The hash of the emitted function, ISD_DynamicTypes.py:122: computed in size_t. *)
Definition cpp_hash (dt ct : N) : N := ((dt * m1) mod two64 + (ct * m2) mod two64) mod two64 mod N.of_nat size.
(** The step to the next slot: ISD_DynamicTypes.py:16-18 and 128-130. *)
Definition step_slot (i : N) : N := if N.of_nat size <=? i + 1 then 0 else i + 1.
Definition gtable := list (option entry).
Definition gslot (tab : gtable) (i : N) : option (option entry) := nth_error tab (N.to_nat i).
(** self.hash_table[hash_val] = ..., ISD_DynamicTypes.py:20. *)
Fixpoint gset (n : nat) (x : entry) (l : gtable) : gtable :=
  match l, n with
  | [], _ => []
  | _ :: r, O => Some x :: r
  | y :: r, S n' => y :: gset n' x r
  end.
(** insert_into_table, ISD_DynamicTypes.py:11-20, with a step budget; [None]: the budget was used up, or the list was
    indexed outside of its bounds. *)
Fixpoint ginsert_at (n : nat) (i : N) (x : entry) (tab : gtable) : option gtable :=
  match gslot tab i with
  | None => None
  | Some None => Some (gset (N.to_nat i) x tab)
  | Some (Some _) => match n with O => None | S n' => ginsert_at n' (step_slot i) x tab end
  end.
(** The loops of the constructor, ISD_DynamicTypes.py:26-35. *)
Fixpoint gfill (n : nat) (l : list entry) (tab : gtable) : option gtable :=
  match l with
  | [] => Some tab
  | x :: r => match ginsert_at n (py_hash (en_dt x) (en_ct x)) x tab with None => None | Some t => gfill n r t end
  end.
Definition gen_table (n : nat) (types : list (list A)) (conts : list (N * C)) : option gtable :=
  gfill n (entries types conts) (repeat None size).

(** The emitted _findTypeClass, ISD_DynamicTypes.py:119-134, with a step budget: [Some None] is the null pointer,
    [None]: the budget was used up, or memory outside of the table was read. *)
Fixpoint gprobe (n : nat) (tab : gtable) (i : N) (dt ct : N) : option (option entry) :=
  match gslot tab i with
  | None => None
  | Some None => Some None
  | Some (Some x) =>
      if (en_dt x =? dt) && (en_ct x =? ct) then Some (Some x)
      else match n with O => None | S n' => gprobe n' tab (step_slot i) dt ct end
  end.
Definition gen_find (n : nat) (tab : gtable) (dt ct : N) : option (option entry) := gprobe n tab (cpp_hash dt ct) dt ct.
End Generator.
Arguments entry : clear implicits.
Arguments gtable : clear implicits.
