(** * ThreadMapSpec: what it means for concurrent executions of a map to be correct. Specification. *)
From Verif Require Import Base ThreadMap.

Section Spec.
Context {K V : Type} (dflt : V).

(** A plain map, as a function, and what each operation does on it when nothing runs concurrently. *)
Inductive does : (K -> option V) -> mop K V -> mres V -> (K -> option V) -> Prop :=
| D_hit m m' k v : m k = Some v -> (forall x, m' x = m x) -> does m (MFind k) (RFind v true) m'
| D_miss m m' k : m k = None -> (forall x, m' x = m x) -> does m (MFind k) (RFind dflt false) m'
| D_new m m' k v : m k = None -> m' k = Some v -> (forall x, x <> k -> m' x = m x) ->
    does m (MInsert k v) (RInsert true) m'
| D_taken m m' k v w : m k = Some w -> (forall x, m' x = m x) -> does m (MInsert k v) (RInsert false) m'
| D_erased m m' k w : m k = Some w -> m' k = None -> (forall x, x <> k -> m' x = m x) ->
    does m (MErase k) (RErase 1) m'
| D_absent m m' k : m k = None -> (forall x, m' x = m x) -> does m (MErase k) (RErase 0) m'
| D_threw m m' o : (forall x, m' x = m x) -> does m o RThrow m'.

(** One call after the other. *)
Inductive run_seq : (K -> option V) -> list (nat * mop K V * mres V) -> (K -> option V) -> Prop :=
| Run_nil m m' : (forall x, m' x = m x) -> run_seq m [] m'
| Run_cons m m1 m2 i o r l : does m o r m1 -> run_seq m1 l m2 -> run_seq m ((i, o, r) :: l) m2.

(** Position in a list. *)
Definition comes_before {A} (x y : A) (l : list A) : Prop :=
  exists l1 l2 l3, l = l1 ++ x :: l2 ++ y :: l3.
Definition call_no (c : nat * mop K V * mres V) : nat := fst (fst c).

(** Call [i] returned before call [j] was made. *)
Definition returned_before (h : list (event K V)) (i j : nat) : Prop :=
  exists t u o r p, comes_before (ERet t i o r) (ECall u j p) h.

(** The history [h] of calls and returns is explained by the sequence [l] of calls: no call occurs
    twice; each call that returned is there with the result it returned; every call there was really
    made; and the sequence respects the real-time order. *)
Definition explains (l : list (nat * mop K V * mres V)) (h : list (event K V)) : Prop :=
  NoDup (map call_no l) /\
  (forall t i o r, In (ERet t i o r) h -> In (i, o, r) l) /\
  (forall i o r, In (i, o, r) l -> exists t, In (ECall t i o) h) /\
  (forall i j, returned_before h i j -> In j (map call_no l) -> comes_before i j (map call_no l)).

(** Events of one thread, and the calls made. *)
Definition ev_thread (e : event K V) : nat := match e with ECall t _ _ => t | ERet t _ _ _ => t end.
Definition of_thread (t : nat) (h : list (event K V)) : list (event K V) :=
  filter (fun e => Nat.eqb (ev_thread e) t) h.
Definition calls (h : list (event K V)) : list (mop K V) :=
  flat_map (fun e => match e with ECall _ _ o => [o] | ERet _ _ _ _ => [] end) h.
Definition call_ids (h : list (event K V)) : list nat :=
  flat_map (fun e => match e with ECall _ i _ => [i] | ERet _ _ _ _ => [] end) h.
(** A thread's events are calls, each answered before the next is made; the last may be pending. *)
Inductive alternates : list (event K V) -> Prop :=
| Alt_nil : alternates []
| Alt_pending t i o : alternates [ECall t i o]
| Alt_done t i o r l : alternates l -> alternates (ECall t i o :: ERet t i o r :: l).

(** The key an operation is about, and the answers a thread got, in the order it got them. *)
Definition op_key (o : mop K V) : K := match o with MFind k => k | MInsert k _ => k | MErase k => k end.
Definition answers (t : nat) (h : list (event K V)) : list (nat * mop K V * mres V) :=
  flat_map (fun e => match e with ERet _ i o r => [(i, o, r)] | ECall _ _ _ => [] end) (of_thread t h).

(** What a thread may be doing to the std::map at a moment: Some true for a write, Some false for a
    read. *)
Definition touching (p : pcs K V) : option bool :=
  match p with
  | PAccess _ (MFind _) => Some false
  | PAccess _ (MInsert _ _) => Some true
  | PAccess _ (MErase _) => Some true
  | PFound _ _ _ => Some false
  | PCopy _ _ _ => Some false
  | _ => None
  end.
Definition data_race (s : msys K V) : Prop :=
  exists t u w, t <> u /\ touching (m_pc s t) = Some true /\ touching (m_pc s u) = Some w.
(** How many of the steps of a schedule are moves. *)
Fixpoint moves (lt : K -> K -> bool) (s : msys K V) (sch : list (nat * bool)) : nat :=
  match sch with
  | [] => 0
  | (t, f) :: r => match mstep lt dflt s t f with Some s' => S (moves lt s' r) | None => moves lt s r end
  end.
End Spec.
