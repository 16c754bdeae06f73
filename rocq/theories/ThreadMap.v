(** * ThreadMap: thread_safe_map under arbitrary interleaving. Model of ISD/ISD_thread_safe_map.h.
    std::map is a sorted list; std::mutex is an owner field; each C++ statement (and each library
    call's start and end) is one step of a thread, and a schedule interleaves the steps of all
    threads freely. Simplified: a library call on the std::map takes effect at its end (the race
    theorem shows that no other thread touches the map in between); the destruction of the
    thread_safe_map itself is not modelled. *)
From Verif Require Import Base StdSet.

(** The public operations. (ISD_thread_safe_map.h:29, 40, 46) *)
Inductive mop (K V : Type) : Type :=
| MFind : K -> mop K V
| MInsert : K -> V -> mop K V
| MErase : K -> mop K V.
Arguments MFind {K V}. Arguments MInsert {K V}. Arguments MErase {K V}.

(** What a call gives its caller: pair<_Ty,bool>, bool, size_t, or an exception (bad_alloc,
    system_error, or one of the value type's copy constructor). (ISD_thread_safe_map.h:29, 40, 46) *)
Inductive mres (V : Type) : Type :=
| RFind : V -> bool -> mres V
| RInsert : bool -> mres V
| RErase : nat -> mres V
| RThrow : mres V.
Arguments RFind {V}. Arguments RInsert {V}. Arguments RErase {V}. Arguments RThrow {V}.

(** Call and return events, each with the thread and a number that identifies the call.
    (No source counterpart: what an observer of the threads sees.) *)
Inductive event (K V : Type) : Type :=
| ECall : nat -> nat -> mop K V -> event K V
| ERet : nat -> nat -> mop K V -> mres V -> event K V.
Arguments ECall {K V}. Arguments ERet {K V}.

(** Where a thread is. (ISD_thread_safe_map.h:29-49) *)
Inductive pcs (K V : Type) : Type :=
| PIdle : pcs K V                                   (* outside the map *)
| PCalled : nat -> mop K V -> pcs K V               (* in the function, before the lock_guard *)
| PLocked : nat -> mop K V -> pcs K V               (* lock_guard constructed *)
| PAccess : nat -> mop K V -> pcs K V               (* inside Data.find / insert / erase *)
| PFound : nat -> K -> option K -> pcs K V          (* find: has its iterator, before  it != end() *)
| PCopy : nat -> K -> K -> pcs K V                  (* find: copying it->second *)
| PHave : nat -> mop K V -> mres V -> pcs K V       (* result built, lock_guard still alive *)
| PLeft : nat -> mop K V -> mres V -> pcs K V.      (* lock_guard destroyed, returning *)
Arguments PIdle {K V}. Arguments PCalled {K V}. Arguments PLocked {K V}. Arguments PAccess {K V}.
Arguments PFound {K V}. Arguments PCopy {K V}. Arguments PHave {K V}. Arguments PLeft {K V}.

(** The whole system. [ub] is set by a dereference of an iterator to no element and by an unlock
    of a mutex the thread does not own. (ISD_thread_safe_map.h:25-26) *)
Record msys (K V : Type) : Type := MSys {
  m_data : list (K * V);            (* Data *)
  m_owner : option nat;             (* AccessMutex *)
  m_prog : nat -> list (mop K V);   (* calls each thread is still going to make *)
  m_pc : nat -> pcs K V;
  m_next : nat;                     (* next call number *)
  m_hist : list (event K V);        (* oldest event first *)
  m_ub : bool
}.
Arguments MSys {K V}. Arguments m_data {K V}. Arguments m_owner {K V}. Arguments m_prog {K V}.
Arguments m_pc {K V}. Arguments m_next {K V}. Arguments m_hist {K V}. Arguments m_ub {K V}.

(** A function changed at one thread. (Helper.) *)
Definition at_ {A} (f : nat -> A) (t : nat) (a : A) : nat -> A := fun u => if Nat.eqb u t then a else f u.

Section Map_.
Context {K V : Type} (lt : K -> K -> bool) (dflt : V).

(** std::map::find: the node with an equivalent key (a node is named by its key), or end(). *)
Fixpoint mp_find (k : K) (l : list (K * V)) : option K :=
  match l with [] => None | (k', _) :: r => if equiv lt k k' then Some k' else mp_find k r end.
(** it->second; None if there is no such node. *)
Fixpoint mp_deref (k : K) (l : list (K * V)) : option V :=
  match l with [] => None | (k', v) :: r => if equiv lt k k' then Some v else mp_deref k r end.
(** std::map::insert: the new contents, and whether the pair was inserted. *)
Fixpoint mp_insert (k : K) (v : V) (l : list (K * V)) : list (K * V) * bool :=
  match l with
  | [] => ([(k, v)], true)
  | (k', v') :: r =>
      if lt k k' then ((k, v) :: l, true)
      else if lt k' k then let '(r', b) := mp_insert k v r in ((k', v') :: r', b)
      else (l, false)
  end.
(** std::map::erase: the new contents, and the number of elements removed. *)
Definition mp_erase (k : K) (l : list (K * V)) : list (K * V) * nat :=
  (filter (fun p => negb (equiv lt k (fst p))) l, length (filter (fun p => equiv lt k (fst p)) l)).

(** Changes of a system's state by thread [t]. (Helpers.) *)
Definition goto (s : msys K V) (t : nat) (p : pcs K V) : msys K V :=
  MSys (m_data s) (m_owner s) (m_prog s) (at_ (m_pc s) t p) (m_next s) (m_hist s) (m_ub s).
Definition set_data (s : msys K V) (d : list (K * V)) : msys K V :=
  MSys d (m_owner s) (m_prog s) (m_pc s) (m_next s) (m_hist s) (m_ub s).
Definition set_owner (s : msys K V) (o : option nat) : msys K V :=
  MSys (m_data s) o (m_prog s) (m_pc s) (m_next s) (m_hist s) (m_ub s).
Definition emit (s : msys K V) (e : event K V) : msys K V :=
  MSys (m_data s) (m_owner s) (m_prog s) (m_pc s) (m_next s) (m_hist s ++ [e]) (m_ub s).
Definition set_ub (s : msys K V) : msys K V :=
  MSys (m_data s) (m_owner s) (m_prog s) (m_pc s) (m_next s) (m_hist s) true.

(** The end of the library call on Data. [fail]: the node's allocation or the copy of the pair
    throws (insert only; std::map::insert then changes nothing). (ISD_thread_safe_map.h:32, 43, 49) *)
Definition access (s : msys K V) (t i : nat) (o : mop K V) (fail : bool) : msys K V :=
  match o with
  | MFind k => goto s t (PFound i k (mp_find k (m_data s)))
  | MInsert k v =>
      if fail then goto s t (PHave i o RThrow)
      else let '(d, b) := mp_insert k v (m_data s) in goto (set_data s d) t (PHave i o (RInsert b))
  | MErase k =>
      let '(d, n) := mp_erase k (m_data s) in goto (set_data s d) t (PHave i o (RErase n))
  end.

(** One step of thread [t]; None if it cannot move (it waits for the mutex, or has ended). [fail]
    makes an operation that may throw do so. (ISD_thread_safe_map.h:29-49) *)
Definition mstep (s : msys K V) (t : nat) (fail : bool) : option (msys K V) :=
  match m_pc s t with
  | PIdle =>                                      (* the thread calls a method *)
      match m_prog s t with
      | [] => None
      | o :: p =>
          Some (MSys (m_data s) (m_owner s) (at_ (m_prog s) t p) (at_ (m_pc s) t (PCalled (m_next s) o))
                     (S (m_next s)) (m_hist s ++ [ECall t (m_next s) o]) (m_ub s))
      end
  | PCalled i o =>                                (* lock_guard's constructor, :31 :42 :48 *)
      if fail then Some (goto s t (PLeft i o RThrow))
      else match m_owner s with
           | None => Some (goto (set_owner s (Some t)) t (PLocked i o))
           | Some _ => None
           end
  | PLocked i o => Some (goto s t (PAccess i o))  (* enters Data.find / insert / erase *)
  | PAccess i o => Some (access s t i o fail)     (* leaves it, :32 :43 :49 *)
  | PFound i k None => Some (goto s t (PHave i (MFind k) (RFind dflt false)))   (* it == end(), :37 *)
  | PFound i k (Some n) => Some (goto s t (PCopy i k n))                        (* it != end(), :33 *)
  | PCopy i k n =>                                (* make_pair( it->second, true ), :35 *)
      if fail then Some (goto s t (PHave i (MFind k) RThrow))
      else match mp_deref n (m_data s) with
           | Some v => Some (goto s t (PHave i (MFind k) (RFind v true)))
           | None => Some (goto (set_ub s) t (PHave i (MFind k) (RFind dflt true)))
           end
  | PHave i o r =>                                (* lock_guard's destructor *)
      match m_owner s with
      | Some u => if Nat.eqb u t then Some (goto (set_owner s None) t (PLeft i o r))
                  else Some (goto (set_ub s) t (PLeft i o r))
      | None => Some (goto (set_ub s) t (PLeft i o r))
      end
  | PLeft i o r => Some (emit (goto s t PIdle) (ERet t i o r))   (* returns *)
  end.

(** A new, empty map, and threads about to run the given programs. (ISD_thread_safe_map.h:25-26) *)
Definition mstart (progs : nat -> list (mop K V)) : msys K V :=
  MSys [] None progs (fun _ => PIdle) 0 [] false.

(** A run: who moves, and whether it fails, at each step; a thread that cannot move is skipped. *)
Fixpoint mrun (s : msys K V) (sch : list (nat * bool)) : msys K V :=
  match sch with
  | [] => s
  | (t, fail) :: r => mrun (match mstep s t fail with Some s' => s' | None => s end) r
  end.
End Map_.
