(** * PartsAnySpec: what a reading program gets from a stream with any content. Specification. *)
From Verif Require Import Base Bytes Values Types Items ItemSpec Format FileSpec Accept Damage Documents DocSpec Keys Classes Table EntityGen EntitySpec Parts ReadAnySpec.
Open Scope N_scope.

(** A reading program: keys of 1 to 40 bytes, destinations that are values of their types (vectors of references: empty) and
    objects of their classes. *)
Fixpoint part_reader (p : part) : Prop :=
  match p with
  | PItem i => name_ok (i_key i) /\ cval_ok (i_type i) (i_val i) /\ replaced (i_type i) (i_val i)
  | PObj s x => ReadAnySpec.s_named s /\ s_ok s x /\ s_dest s x
  | PSection key body => name_ok key /\ parts_reader body
  | PNull key | PNullArray key => name_ok key
  | PArray key _ elems => name_ok key /\ pelems_reader elems
  end
with parts_reader (l : parts) : Prop := match l with PNil => True | PCons p r => part_reader p /\ parts_reader r end
with pelems_reader (l : pelems) : Prop := match l with PENil => True | PECons b r => parts_reader b /\ pelems_reader r end.

(** [q] is what the program [p] found: values of the types, objects of the classes, in the same order; sections and arrays
    may be absent, elements of arrays empty. A program that failed ([ok = false]) may have found only a part of it. *)
Fixpoint part_found (ok : bool) (p q : part) {struct p} : Prop :=
  match p with
  | PItem i => exists v, q = PItem (Item (i_type i) (i_key i) v) /\ cval_ok (i_type i) v /\ cval_ctype v = cval_ctype (i_val i)
  | PObj s x => exists y, q = PObj s y /\ s_ok s y
  | PSection key body => q = PNull key \/ exists body', q = PSection key body' /\ parts_found ok body body'
  | PNull key => q = PNull key
  | PArray key ix elems => q = PNullArray key \/
      exists ix' elems', q = PArray key ix' elems' /\ (ix = None <-> ix' = None) /\ pelems_found ok elems elems'
  | PNullArray key => q = PNullArray key
  end
with parts_found (ok : bool) (l q : parts) {struct l} : Prop :=
  match l with
  | PNil => q = PNil
  | PCons p r => exists p' r', q = PCons p' r' /\ part_found ok p p' /\ ((ok = false /\ r' = PNil) \/ parts_found ok r r')
  end
with pelems_found (ok : bool) (l q : pelems) {struct l} : Prop :=
  match l with
  | PENil => q = PENil
  | PECons b r => (ok = false /\ q = PENil) \/
      exists b' r', q = PECons b' r' /\ (b' = PNil \/ parts_found ok b b') /\ ((ok = false /\ r' = PENil) \/ pelems_found ok r r')
  end.

(** The values that the program can ask for, with those of its objects (name, type, container), and the names of the arrays of
    sections that it reads with an index. *)
Fixpoint part_asks (p : part) (n : list byte) (t : dtype) (c : ctype) : Prop :=
  match p with
  | PItem i => n = i_key i /\ t = i_type i /\ c = cval_ctype (i_val i)
  | PObj s x => s_asks s n t c
  | PSection _ body => parts_ask body n t c
  | PNull _ | PNullArray _ => False
  | PArray _ _ elems => pelems_ask elems n t c
  end
with parts_ask (l : parts) (n : list byte) (t : dtype) (c : ctype) : Prop :=
  match l with PNil => False | PCons p r => part_asks p n t c \/ parts_ask r n t c end
with pelems_ask (l : pelems) (n : list byte) (t : dtype) (c : ctype) : Prop :=
  match l with PENil => False | PECons b r => parts_ask b n t c \/ pelems_ask r n t c end.
Fixpoint part_indexes (p : part) (n : list byte) : Prop :=
  match p with
  | PItem _ | PObj _ _ | PNull _ | PNullArray _ => False
  | PSection _ body => parts_index body n
  | PArray key ix elems => (n = key /\ ix <> None) \/ pelems_index elems n
  end
with parts_index (l : parts) (n : list byte) : Prop :=
  match l with PNil => False | PCons p r => part_indexes p n \/ parts_index r n end
with pelems_index (l : pelems) (n : list byte) : Prop :=
  match l with PENil => False | PECons b r => parts_index b n \/ pelems_index r n end.
(** Why reading the index of an array of sections ran out of memory: too little for four times the data, or, somewhere, an
    array of sections with this name that ends before its flags, its element count and its index count. *)
Definition index_refused (lim : N) (data : list byte) (flip : bool) (pos : N) (indexes : list byte -> Prop) : Prop :=
  exists key, indexes key /\
    (lim < 4 * len data \/
     exists q size rest, pos <= q <= len data /\ large_header flip 0xd1 key size (drop q data) rest /\ block_end q size < payload_start q key + 18).
