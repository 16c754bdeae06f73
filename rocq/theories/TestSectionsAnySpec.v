(** * TestSectionsAnySpec: reading objects of the class section_object from arbitrary bytes. Specification. *)
From Verif Require Import Base Bytes Values Types Format FileSpec Damage TestSections.
Open Scope N_scope.

(** The bytes of an object before the objects in it: the name is at least a large header with the key (10 + 11), the
    matrix a small header, the key and 16 components (2 + 16 + 16 components). *)
Definition obj_least (f : fsize) : N := 39 + 16 * match f with F32 => 4 | F64 => 8 end.

(** Why Read threw (at or after [pos]): too little memory for four times the data; or a damaged name (a block "object_name"
    whose sizes do not fit into each other); or an array "opt_arr" that ends before its flags, its element count and its index
    count; or an array that has more elements than pointers fit into the memory. *)
Definition name_damaged (flip : bool) (data : list byte) (pos : N) : Prop :=
  exists q, pos <= q <= len data /\ size_damage flip q TString (COpt None) k_name (drop q data).
Definition array_cut (flip : bool) (data : list byte) (pos : N) : Prop :=
  exists q size rest, pos <= q <= len data /\ large_header flip 0xd1 k_arr size (drop q data) rest /\ block_end q size < payload_start q k_arr + 18.
Definition too_many (lim : N) (flip : bool) (data : list byte) (pos : N) : Prop :=
  exists key q size flags count rest, (key = k_vec \/ key = k_arr) /\ pos <= q <= len data /\
    large_header flip 0xd1 key size (drop q data) (num W16 flip flags ++ num W64 flip count ++ rest) /\ lim < 8 * count.
