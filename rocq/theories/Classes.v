(** * Classes: the static member functions (class MF) every serializable class has. Model. *)
From Verif Require Import Base Values Streams Types EntityWriter EntityReader Sections Validator.

(** The functions of T::MF and the constructors, as the class templates and the generated entities call
    them (CodeGenerator/Generators/EntityGenerator.py:76-88; ISD/ISD_EntityTable.h:80-94;
    ISD/ISD_DirectedGraph.h:118-430; ISD/ISD_IndexedVector.h:40-54; ISD/ISD_Varying.h:60-75). *)
Record mf (T : Type) := MFun {
  (** default constructor *)
  m_new : T;
  (** MF::Clear *)
  m_clear : T -> res T;
  (** MF::DeepCopy( dest, source ); [None] is a null source. [dest] and [source] are different objects. *)
  m_copy : T -> option T -> res T;
  (** MF::Equals of two different objects, neither null *)
  m_eq : T -> T -> bool;
  (** MF::Write on a writer (a handle) *)
  m_write : N -> T -> wstate -> res (bool * wstate);
  (** MF::Read from a reader into an object; the object afterwards is part of the result *)
  m_read : renv -> N -> T -> rstate -> res (bool * T * rstate);
  (** MF::Validate: the ids reported. All Validate functions return true (they return false only if a
      nested one does), so the return value is left out. The number bounds the steps of graph searches;
      [None] if it was too small. *)
  m_validate : nat -> T -> option (list N)
}.
Arguments m_new {T}. Arguments m_clear {T}. Arguments m_copy {T}. Arguments m_eq {T}.
Arguments m_write {T}. Arguments m_read {T}. Arguments m_validate {T}.

(** Equals with pointers: equal pointers first, then null (for example
    ISD/ISD_EntityTable.h:109-115). [same]: the pointers are equal. *)
Definition m_equals {T} (M : mf T) (same : bool) (l r : option T) : bool :=
  if same then true else
  match l, r with Some a, Some b => m_eq M a b | _, _ => false end.
