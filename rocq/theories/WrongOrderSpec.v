(** * WrongOrderSpec: what a reader whose byte order setting differs from the writer's finds.
    Specification. *)
From Verif Require Import Base Bytes Values FileSpec Types Format EntityReader Items ItemSpec Sections Documents DocSpec.
Open Scope N_scope.

(** An object whose numbers have their bytes in reverse order; bools, uuids, hashes and strings have
    no byte order (ISD/ISD_MemoryReadStream.h:195-235). *)
Definition swapped_val (t : dtype) (v : val) : val :=
  match dshape t, v with
  | ShPod (KW w) n, VP img => VP (flat_map (@rev byte) (chunks (N.to_nat n) (wbytes w) img))
  | _, _ => v
  end.
Definition swapped (t : dtype) (c : cval) : cval :=
  match c with
  | CV v => CV (swapped_val t v)
  | COpt (Some v) => COpt (Some (swapped_val t v))
  | _ => c
  end.

(** Items stored in a small block: single or optional values of all types but strings. *)
Definition plain (i : item) : Prop := large (i_type i) (cval_ctype (i_val i)) = false.
Definition plain_node (n : node) : Prop := match n with NItem i => plain i | _ => False end.
Fixpoint plain_nodes (l : nodes) : Prop := match l with Nil => True | Cons n r => plain_node n /\ plain_nodes r end.

(** The document with every value swapped. *)
Definition swapped_node (n : node) : node :=
  match n with NItem i => NItem (Item (i_type i) (i_key i) (swapped (i_type i) (i_val i))) | _ => n end.
Fixpoint swapped_nodes (l : nodes) : nodes :=
  match l with Nil => Nil | Cons n r => Cons (swapped_node n) (swapped_nodes r) end.

(** Streams below 4 GiB. *)
Definition below_4g (n : N) : Prop := n < 4294967296.
