(** * DocSpec: the documented layout of sections and arrays of sections (ISD/ISD_Types.h:63-86), legal
    documents and what reading them delivers. Specification, independent of the section model. *)
From Verif Require Import Base Bytes Values FileSpec Types Format Items ItemSpec Documents.
Open Scope N_scope.

(** Bytes of a document. A section is a large block of type 0xd0 whose value is its content. An array
    of sections is a large block of type 0xd1: flags (0x100 if indexed), element count, optionally the
    index, then for every element its size and its content. Absent: an empty value. *)
Fixpoint node_bytes (fl : bool) (n : node) : list byte :=
  match n with
  | NItem i => encode fl (i_type i) (i_key i) (i_val i)
  | NSection key body => large_block fl 0xd0 key (nodes_bytes fl body)
  | NNullSection key => large_block fl 0xd0 key []
  | NArray key ix elems => large_block fl 0xd1 key
      (num W16 fl (match ix with Some _ => 256 | None => 0 end) ++ num W64 fl (slen elems)
       ++ (match ix with Some l => num W64 fl (len l) ++ flat_map (num W32 fl) l | None => [] end)
       ++ elems_bytes fl elems)
  | NNullArray key => large_block fl 0xd1 key []
  end
with nodes_bytes (fl : bool) (l : nodes) : list byte :=
  match l with Nil => [] | Cons n r => node_bytes fl n ++ nodes_bytes fl r end
with elems_bytes (fl : bool) (l : sections) : list byte :=
  match l with
  | SNil => []
  | SCons body r => num W64 fl (len (nodes_bytes fl body)) ++ nodes_bytes fl body ++ elems_bytes fl r
  end.

(** A legal document: legal items, keys of at most 40 bytes, indices of i32 values. *)
Fixpoint node_ok (n : node) : Prop :=
  match n with
  | NItem i => item_ok i
  | NSection key body => len key <= 40 /\ nodes_ok body
  | NNullSection key | NNullArray key => len key <= 40
  | NArray key ix elems => len key <= 40 /\ (match ix with Some l => ix_ok l | None => True end) /\ elems_ok elems
  end
with nodes_ok (l : nodes) : Prop := match l with Nil => True | Cons n r => node_ok n /\ nodes_ok r end
with elems_ok (l : sections) : Prop := match l with SNil => True | SCons b r => nodes_ok b /\ elems_ok r end.

(** Reading calls [r] that mirror the written document [w]: the same keys, types and containers in the
    same order (any destinations, except that vectors of references must be empty); where the written
    section, element or array is absent or empty, anything may be expected inside. *)
Fixpoint node_mirrors (w r : node) {struct w} : Prop :=
  match w, r with
  | NItem i, NItem j => mirrors i j /\ replaced (i_type j) (i_val j)
  | NSection k b, NSection k' b' => k = k' /\ match b with Nil => True | _ => nodes_mirror b b' end
  | NSection k b, NNullSection k' => k = k' /\ b = Nil
  | NNullSection k, (NSection k' _ | NNullSection k') => k = k'
  | NArray k ix e, NArray k' ix' e' =>
    k = k' /\ match ix, ix' with Some _, Some _ | None, None => True | _, _ => False end /\ elems_mirror e e'
  | NNullArray k, (NArray k' _ _ | NNullArray k') => k = k'
  | _, _ => False
  end
with nodes_mirror (w r : nodes) {struct w} : Prop :=
  match w, r with
  | Nil, Nil => True
  | Cons n l, Cons n' l' => node_mirrors n n' /\ nodes_mirror l l'
  | _, _ => False
  end
with elems_mirror (w r : sections) {struct w} : Prop :=
  match w, r with
  | SNil, SNil => True
  | SCons b l, SCons b' l' => match b with Nil => True | _ => nodes_mirror b b' end /\ elems_mirror l l'
  | _, _ => False
  end.

(** The document a reader finds: a section without content reads as an absent section. *)
Fixpoint node_seen (n : node) : node :=
  match n with
  | NSection key Nil => NNullSection key
  | NSection key body => NSection key (nodes_seen body)
  | NArray key ix elems => NArray key ix (elems_seen elems)
  | _ => n
  end
with nodes_seen (l : nodes) : nodes := match l with Nil => Nil | Cons n r => Cons (node_seen n) (nodes_seen r) end
with elems_seen (l : sections) : sections :=
  match l with SNil => SNil | SCons b r => SCons (nodes_seen b) (elems_seen r) end.

(** No section without content (elements of arrays may be empty). *)
Fixpoint node_full (n : node) : Prop :=
  match n with
  | NSection _ Nil => False
  | NSection _ body => nodes_full body
  | NArray _ _ elems => elems_full elems
  | _ => True
  end
with nodes_full (l : nodes) : Prop := match l with Nil => True | Cons n r => node_full n /\ nodes_full r end
with elems_full (l : sections) : Prop := match l with SNil => True | SCons b r => nodes_full b /\ elems_full r end.

(** The number of top level items, sections and arrays of a document. *)
Fixpoint nodes_count (l : nodes) : nat := match l with Nil => O | Cons _ r => S (nodes_count r) end.
