(** * IndexedVectorSpec: layout and validity. Specification. *)
From Verif Require Import Base Bytes Values Types Containers Items Documents.
Open Scope N_scope.

(** The i32 a bit pattern stands for. *)
Definition i32_of (n : N) : Z := if n <? 2^31 then Z.of_N n else (Z.of_N n - 2^32)%Z.
(** An index refers to an existing value. *)
Definition refers {T} (v : list T) (i : N) : Prop := (0 <= i32_of i < Z.of_N (len v))%Z.
Definition iv_ok (t : dtype) (o : ivec val) : Prop := vec_ok t (iv_values o) /\ ix_ok (iv_index o).
(** Written as one indexed array with the key "Values". *)
Definition iv_doc (t : dtype) (o : ivec val) : nodes :=
  Cons (NItem (Item t [x56; x61; x6c; x75; x65; x73] (CIdx (iv_values o) (iv_index o)))) Nil.
