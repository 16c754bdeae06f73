(** * Objects: programs with variables of one class, copied, assigned and moved. Model of the constructors and assignment
    operators that the generator emits (CodeGenerator/Generators/EntityGenerator.py:43-54, 98-118) and of those of
    DirectedGraph, EntityTable, IndexedVector and Varying, also when source and destination are the same object. *)
From Verif Require Import Base Bytes Values Streams Types Keys Containers StdSet Graph Classes Table IndexedVector DynTypes Varying EntityGen.
Local Open Scope N_scope.

(** What the standard library leaves in an object it has moved from: any function will do. Strings, vectors and
    sets of values in variables, in graphs, in tables, in indexed vectors. *)
Record leftovers := Left {
  l_value : dtype -> cval -> cval;
  l_graph : forall k, graph (kkey k) -> graph (kkey k);
  l_table : forall k T, table (kkey k) T -> table (kkey k) T;
  l_idx : dtype -> ivec val -> ivec val }.

(** One operation on the variables of a program. *)
Inductive oop (T : Type) :=
| ODefault (i : N)                    (* T xi; *)
| OCopyCtor (i j : N)                 (* T xi( xj ); *)
| OMoveCtor (i j : N)                 (* T xi( std::move( xj ) ); *)
| OAssign (i j : N)                   (* xi = xj; *)
| OMoveAssign (i j : N)               (* xi = std::move( xj ); *)
| OSet (i : N) (x : T)                (* any change through the accessors *)
| OClear (i : N)                      (* T::MF::Clear( xi ) *)
| OEquals (i j : N)                   (* T::MF::Equals( &xi, &xj ) *)
| ODestroy (i : N).                   (* end of lifetime *)

Arguments ODefault {T}. Arguments OCopyCtor {T}. Arguments OMoveCtor {T}. Arguments OAssign {T}. Arguments OMoveAssign {T}.
Arguments OSet {T}. Arguments OClear {T}. Arguments OEquals {T}. Arguments ODestroy {T}.

Section O.
Context (I : forall t, umap_impl (key t)).

(** MF::DeepCopy( x, &x ).
    Graph: new sets are built from the old ones, then assigned (ISD/ISD_DirectedGraph.h:125-136).
    Table: cleared, then copied from itself (Table.v, t_self_copy).
    IndexedVector: cleared, then assigned to itself (ISD/ISD_IndexedVector.h:58-65).
    Varying: Deinitialize, after which the source has no data either (ISD/ISD_Varying.cpp:114-124).
    Entity: variable by variable (EntityGenerator.py:144-168): base types are assigned to themselves, which keeps
    them; optional objects are replaced by a new object (set()), which is then copied to itself. *)
Definition v_self_copy (v : varying) : res varying :=
  do r <- v_deinit v; let '(ok, v1) := r in
  if negb ok then Throw else if negb (v_init v1) then Done v1 else Undef.
Fixpoint s_self (s : schema) : ty s -> res (ty s) :=
  match s return ty s -> res (ty s) with
  | SGraph k _ => fun g => Done (g_deep_copy (kops k) g (Some g))
  | STable k _ s' => fun m => t_self_copy (kops k) (I (kt k)) (smf I s') m
  | SIdx t => fun o => Done (iv_clear o)
  | SVarying => v_self_copy
  | SEntity fs => f_self fs
  end
with f_self (fs : fields) : fty fs -> res (fty fs) :=
  match fs return fty fs -> res (fty fs) with
  | FNil => fun _ => Done tt
  | FBase _ t c r => fun x => do f <- f_self r (snd x); Done (fst x, f)
  | FClass _ s r => fun x => do a <- s_self s (fst x); do f <- f_self r (snd x); Done (a, f)
  | FOpt _ s r => fun x =>
      do a <- match fst x with Some _ => do z <- s_self s (m_new (smf I s)); Done (Some z) | None => Done None end;
      do f <- f_self r (snd x); Done (a, f)
  end.

(** The copy constructor: DeepCopy into a new object, except for graphs and indexed vectors, where it is defaulted
    (EntityGenerator.py:98-102; ISD/ISD_DirectedGraph.h:41, ISD/ISD_EntityTable.h:36, ISD/ISD_IndexedVector.h:21,
    ISD/ISD_Varying.cpp:13-20). *)
Definition s_copy_ctor (s : schema) : ty s -> res (ty s) :=
  match s return ty s -> res (ty s) with
  | SGraph _ _ => fun g => Done g
  | SIdx _ => fun o => Done o
  | s => fun x => m_copy (smf I s) (m_new (smf I s)) (Some x)
  end.
(** operator=( const T & ): DeepCopy, except for graphs and indexed vectors, where it is defaulted
    (EntityGenerator.py:104-109; ISD/ISD_DirectedGraph.h:42, ISD/ISD_EntityTable.h:37, ISD/ISD_IndexedVector.h:22,
    ISD/ISD_Varying.cpp:22-26). *)
Definition s_assign (s : schema) : ty s -> ty s -> res (ty s) :=
  match s return ty s -> ty s -> res (ty s) with
  | SGraph _ _ => fun _ g => Done g
  | SIdx _ => fun _ o => Done o
  | s => fun d x => m_copy (smf I s) d (Some x)
  end.
(** The same, x = x. *)
Definition s_assign_self (s : schema) : ty s -> res (ty s) :=
  match s return ty s -> res (ty s) with
  | SGraph _ _ => fun g => Done g
  | SIdx _ => fun o => Done o
  | s => s_self s
  end.

(** What a move leaves in the source: defaulted everywhere except for Varying, which is emptied
    (EntityGenerator.py:47-48; ISD/ISD_DirectedGraph.h:43-44, ISD/ISD_EntityTable.h:38-39, ISD/ISD_IndexedVector.h:23-24,
    ISD/ISD_Varying.cpp:28-52); the std::unique_ptr of an optional object is null
    (ISD/ISD_optional_value.h:22-23). [self]: x = std::move( x ), where a std::unique_ptr keeps its object. *)
Section Moved.
Context (L : leftovers) (self : bool).
Fixpoint s_left (s : schema) : ty s -> ty s :=
  match s return ty s -> ty s with
  | SGraph k _ => l_graph L k
  | STable k _ s' => l_table L k (ty s')
  | SIdx t => l_idx L t
  | SVarying => fun _ => v_new
  | SEntity fs => f_left fs
  end
with f_left (fs : fields) : fty fs -> fty fs :=
  match fs return fty fs -> fty fs with
  | FNil => fun x => x
  | FBase _ t c r => fun x => (l_value L t (fst x), f_left r (snd x))
  | FClass _ s r => fun x => (s_left s (fst x), f_left r (snd x))
  | FOpt _ s r => fun x => (if self then fst x else None, f_left r (snd x))
  end.
End Moved.

(** ** Programs *)
Section P.
Context (s : schema) (L : leftovers).
(** The variables. *)
Definition vars := N -> option (ty s).
Definition o_bind (i : N) (x : option (ty s)) (E : vars) : vars := fun y => if y =? i then x else E y.
(** An object must exist; a variable must be free. *)
Definition o_var (i : N) (E : vars) : res (ty s) := match E i with Some x => Done x | None => Undef end.
Definition o_free (i : N) (E : vars) : res unit := match E i with Some _ => Undef | None => Done tt end.
(** One operation: what a comparison returned, and the variables afterwards. *)
Definition o_step (o : oop (ty s)) (E : vars) : res (option bool * vars) :=
  match o with
  | ODefault i => do _ <- o_free i E; Done (None, o_bind i (Some (m_new (smf I s))) E)
  | OCopyCtor i j => do _ <- o_free i E; do x <- o_var j E; do y <- s_copy_ctor s x; Done (None, o_bind i (Some y) E)
  | OMoveCtor i j => do _ <- o_free i E; do x <- o_var j E; Done (None, o_bind j (Some (s_left L false s x)) (o_bind i (Some x) E))
  | OAssign i j =>
    do d <- o_var i E; do x <- o_var j E;
    do y <- (if i =? j then s_assign_self s d else s_assign s d x); Done (None, o_bind i (Some y) E)
  | OMoveAssign i j =>
    do _ <- o_var i E; do x <- o_var j E;
    if i =? j then Done (None, o_bind i (Some (s_left L true s x)) E)
    else Done (None, o_bind j (Some (s_left L false s x)) (o_bind i (Some x) E))
  | OSet i x => do _ <- o_var i E; Done (None, o_bind i (Some x) E)
  | OClear i => do x <- o_var i E; do y <- m_clear (smf I s) x; Done (None, o_bind i (Some y) E)
  | OEquals i j => do x <- o_var i E; do y <- o_var j E; Done (Some (m_equals (smf I s) (i =? j) (Some x) (Some y)), E)
  | ODestroy i => do _ <- o_var i E; Done (None, o_bind i None E)
  end.
(** A program: the answers of its comparisons, in order. *)
Fixpoint o_run (l : list (oop (ty s))) (E : vars) : res (list bool * vars) :=
  match l with
  | [] => Done ([], E)
  | o :: r =>
    do p <- o_step o E; let '(b, E1) := p in
    do q <- o_run r E1; let '(bs, E2) := q in
    Done (match b with Some x => x :: bs | None => bs end, E2)
  end.
End P.
End O.
