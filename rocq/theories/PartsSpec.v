(** * PartsSpec: streams with values, objects and sections. Specification. *)
From Verif Require Import Base Bytes Values Types Items ItemSpec Documents DocSpec Keys Classes Table EntityGen EntitySpec TruncSpec Parts.
Open Scope N_scope.

Fixpoint doc_app (a b : nodes) : nodes := match a with Nil => b | Cons n r => Cons n (doc_app r b) end.
(** The document that is written: an object stands for its own document (EntitySpec.v). *)
Fixpoint part_doc (p : part) : nodes :=
  match p with
  | PItem i => Cons (NItem i) Nil
  | PObj s x => s_doc s x
  | PSection key body => Cons (NSection key (parts_doc body)) Nil
  | PNull key => Cons (NNullSection key) Nil
  | PArray key ix elems => Cons (NArray key ix (pelems_doc elems)) Nil
  | PNullArray key => Cons (NNullArray key) Nil
  end
with parts_doc (l : parts) : nodes := match l with PNil => Nil | PCons p r => doc_app (part_doc p) (parts_doc r) end
with pelems_doc (l : pelems) : sections := match l with PENil => SNil | PECons b r => SCons (parts_doc b) (pelems_doc r) end.

(** Legal values, keys of at most 40 bytes, objects that can exist and can be written. *)
Fixpoint part_ok (p : part) : Prop :=
  match p with
  | PItem i => item_ok i
  | PObj s x => s_sound s /\ s_ok s x /\ s_fits s x
  | PSection key body => len key <= 40 /\ parts_ok body
  | PNull key | PNullArray key => len key <= 40
  | PArray key ix elems => len key <= 40 /\ (match ix with Some l => ix_ok l | None => True end) /\ pelems_ok elems
  end
with parts_ok (l : parts) : Prop := match l with PNil => True | PCons p r => part_ok p /\ parts_ok r end
with pelems_ok (l : pelems) : Prop := match l with PENil => True | PECons b r => parts_ok b /\ pelems_ok r end.

(** The reading program [r] corresponds to the writing program [w]: the same keys, types and classes in the same order, any
    destinations (as in C06 and C32); anything may be expected inside of a section or array that is absent or has nothing in it; arrays are read with as
    many elements as were written, and with an index if they have one. *)
Fixpoint part_mirrors (w r : part) {struct w} : Prop :=
  match w with
  | PItem i => exists j, r = PItem j /\ mirrors i j /\ replaced (i_type j) (i_val j)
  | PObj s x => exists y, r = PObj s y /\ s_ok s y /\ s_dest s y
  | PSection key body => exists body', r = PSection key body' /\ (parts_doc body <> Nil -> parts_mirror body body')
  | PNull key => r = PNull key \/ exists body, r = PSection key body
  | PArray key ix elems => exists ix' elems', r = PArray key ix' elems' /\
      (ix = None <-> ix' = None) /\ pelems_mirror elems elems'
  | PNullArray key => r = PNullArray key \/ exists ix elems, r = PArray key ix elems
  end
with parts_mirror (w r : parts) {struct w} : Prop :=
  match w with
  | PNil => r = PNil
  | PCons p l => exists p' l', r = PCons p' l' /\ part_mirrors p p' /\ parts_mirror l l'
  end
with pelems_mirror (w r : pelems) {struct w} : Prop :=
  match w with
  | PENil => r = PENil
  | PECons b l => exists b' l', r = PECons b' l' /\ (parts_doc b <> Nil -> parts_mirror b b') /\ pelems_mirror l l'
  end.

(** What is read is what was written: the same values, identical objects; a section with nothing in it is read as an
    absent one; arrays have the same index and as many elements. *)
Fixpoint part_same (w r : part) {struct w} : Prop :=
  match w with
  | PItem i => r = PItem i
  | PObj s x => exists y, r = PObj s y /\ s_ok s y /\ s_ident s y x
  | PSection key body =>
      (parts_doc body <> Nil -> exists body', r = PSection key body' /\ parts_same body body') /\ (parts_doc body = Nil -> r = PNull key)
  | PNull key => r = PNull key
  | PArray key ix elems => exists elems', r = PArray key ix elems' /\ pelems_same elems elems'
  | PNullArray key => r = PNullArray key
  end
with parts_same (w r : parts) {struct w} : Prop :=
  match w with
  | PNil => r = PNil
  | PCons p l => exists p' l', r = PCons p' l' /\ part_same p p' /\ parts_same l l'
  end
with pelems_same (w r : pelems) {struct w} : Prop :=
  match w with
  | PENil => r = PENil
  | PECons b l => exists b' l', r = PECons b' l' /\
      (parts_doc b <> Nil -> parts_same b b') /\ (parts_doc b = Nil -> b' = PNil) /\ pelems_same l l'
  end.

(** No key and no name of a variable of an object, outside of sections, is empty. *)
Definition part_keyed (p : part) : Prop :=
  match p with PItem i => 0 < len (i_key i) | PObj s _ => s_named s | PSection key _ | PNull key | PArray key _ _ | PNullArray key => 0 < len key end.
Fixpoint parts_keyed (l : parts) : Prop := match l with PNil => True | PCons p r => part_keyed p /\ parts_keyed r end.
