(** * IndexedVector: model of ISD/ISD_IndexedVector.h (for items of data type [t]; the indices are i32 bit
    patterns). *)
From Verif Require Import Base Bytes Values Streams Types EntityWriter EntityReader Sections Validator Containers ValueEq Classes.
Open Scope N_scope.

(** ISDKeyMacro("Values"). *)
Definition key_values : list byte := [x56; x61; x6c; x75; x65; x73].
(** i32_sup: CodeGenerator/Generators/ISD_DataTypes.py:58-89. *)
Definition i32_sup : N := 2^31 - 1.

Section IV.
Context (t : dtype).
(** MF::Clear, lines 53-56 (idx_vector::clear, ISD/ISD_idx_vector.h:38). *)
Definition iv_clear (o : ivec val) : ivec val := IVec [] [].
(** MF::DeepCopy, lines 58-65, from another object. *)
Definition iv_copy (dest : ivec val) (source : option (ivec val)) : ivec val :=
  match source with None => iv_clear dest | Some s => IVec (iv_values s) (iv_index s) end.
(** MF::Equals, lines 67-82, of two different objects. *)
Definition iv_equals (l r : ivec val) : bool := ivx_eq (val_eq t) l r.
(** MF::Write, lines 84-91. *)
Definition iv_write (h : N) (o : ivec val) (st : wstate) : res (bool * wstate) :=
  w_write h t key_values (CIdx (iv_values o) (iv_index o)) st.
(** MF::Read, lines 93-100: reads into the object. *)
Definition iv_of (d : ivec val) (c : cval) : ivec val := match c with CIdx l ix => IVec l ix | _ => d end.
Definition iv_read (e : renv) (h : N) (o : ivec val) (st : rstate) : res (bool * ivec val * rstate) :=
  do r <- r_read e h t key_values (CIdx (iv_values o) (iv_index o)) st; let '(ok, v, st1) := r in
  Done (ok, iv_of o v, st1).
(** MF::Validate, lines 102-121: [(u32)index >= values_count] for every index. *)
Definition iv_validate (o : ivec val) : list N :=
  (if i32_sup <? len (iv_values o) then [InvalidCount] else []) ++
  flat_map (fun i => if N.min (len (iv_values o)) i32_sup <=? i mod 2^32 then [InvalidValue] else []) (iv_index o).

Definition iv_mf : mf (ivec val) :=
  MFun _ (IVec [] []) (fun o => Done (iv_clear o)) (fun d s => Done (iv_copy d s)) iv_equals iv_write iv_read
    (fun _ o => Some (iv_validate o)).
End IV.
