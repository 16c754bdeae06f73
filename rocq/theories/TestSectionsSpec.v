(** * TestSectionsSpec: objects of the class section_object and their documents. Specification. *)
From Verif Require Import Base Bytes Values Types ValueEqSpec Items ItemSpec Documents TestSections.
Open Scope N_scope.

(** The document of an object: its name, its matrix, the section "sub" or an absent section, the array "vec" of sections
    (an absent object is an element without content), the indexed array "opt_arr" or an absent array. *)
Fixpoint doc (f : fsize) (o : sobj) : nodes :=
  match o with SObj name transform sub vec arr =>
    Cons (NItem (Item TString k_name (COpt (match name with Some s => Some (VS s) | None => None end))))
   (Cons (NItem (Item (TMat D4 f) k_transform (CV (VP transform))))
   (Cons (match sub with ONull => NNullSection k_sub | OSome x => NSection k_sub (doc f x) end)
   (Cons (NArray k_vec None (doc_v f vec))
   (Cons (match arr with ANone => NNullArray k_arr | ASome ix v => NArray k_arr (Some ix) (doc_v f v) end) Nil))))
  end
with doc_v (f : fsize) (v : ovecs) : sections :=
  match v with
  | VNil => SNil
  | VCons x r => SCons (match x with ONull => Nil | OSome o => doc f o end) (doc_v f r)
  end.
(** Objects that can exist: names are shorter than 2^64, matrices have 16 components, indices are i32 values. *)
Fixpoint obj_ok (f : fsize) (o : sobj) : Prop :=
  match o with SObj name transform sub vec arr =>
    match name with Some s => val_ok TString (VS s) | None => True end /\ val_ok (TMat D4 f) (VP transform) /\ match sub with ONull => True | OSome x => obj_ok f x end /\ objs_ok f vec /\
    match arr with ANone => True | ASome ix v => ix_ok ix /\ objs_ok f v end
  end
with objs_ok (f : fsize) (v : ovecs) : Prop :=
  match v with VNil => True | VCons x r => match x with ONull => True | OSome o => obj_ok f o end /\ objs_ok f r end.
(** How deep objects are inside each other. *)
Fixpoint depth (o : sobj) : nat :=
  match o with SObj _ _ sub vec arr =>
    S (Nat.max (match sub with ONull => O | OSome x => depth x end)
      (Nat.max (depth_v vec) (match arr with ANone => O | ASome _ v => depth_v v end)))
  end
with depth_v (v : ovecs) : nat :=
  match v with VNil => O | VCons x r => Nat.max (match x with ONull => O | OSome o => depth o end) (depth_v r) end.
(** No matrix has a NaN in it. *)
Fixpoint no_nan (f : fsize) (o : sobj) : Prop :=
  match o with SObj _ transform sub vec arr =>
    clean (TMat D4 f) (VP transform) /\ match sub with ONull => True | OSome x => no_nan f x end /\ no_nans f vec /\
    match arr with ANone => True | ASome _ v => no_nans f v end
  end
with no_nans (f : fsize) (v : ovecs) : Prop :=
  match v with VNil => True | VCons x r => match x with ONull => True | OSome o => no_nan f o end /\ no_nans f r end.
