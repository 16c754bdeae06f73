(** * C25: thread_safe_map, for every key type with a strict total order, every value type, every
    number of threads, every program of every thread, and every schedule (with exceptions thrown by any
    operation that may throw wherever the schedule says so). *)
From Verif Require Import Base KeySpec StdSet ThreadMap ThreadMapSpec ThreadMapFacts ThreadOwn.
Local Open Scope nat_scope.

(** C25: linearizability. There is a sequence of the calls that explains what all threads saw, that a
    plain map would have produced, and whose final map is what the thread_safe_map now holds. *)
Theorem C25_linearizable : forall (K V : Type) (lt : K -> K -> bool) (dflt : V), strict_total_order lt ->
  forall (progs : nat -> list (mop K V)) (sch : list (nat * bool)),
  let s := mrun lt dflt (mstart progs) sch in
  exists l m, explains l (m_hist s) /\ run_seq dflt (fun _ => None) l m /\
    forall k, mp_deref lt k (m_data s) = m k.
Proof. intros K V lt dflt LT progs sch. exact (t_linear lt LT dflt progs sch). Qed.
Print Assumptions C25_linearizable.

(** C25: the histories are meaningful: call numbers are unique, every thread makes the calls of its
    program in order, each answered before the next is made; a thread that is outside the map has got
    the answers to all its calls. *)
Theorem C25_histories : forall (K V : Type) (lt : K -> K -> bool) (dflt : V) (progs : nat -> list (mop K V)) sch,
  let s := mrun lt dflt (mstart progs) sch in
  NoDup (call_ids (m_hist s)) /\
  forall t, progs t = calls (of_thread t (m_hist s)) ++ m_prog s t /\ alternates (of_thread t (m_hist s)) /\
    (m_pc s t = PIdle -> forall i o, In (ECall t i o) (m_hist s) -> exists r, In (ERet t i o r) (m_hist s)).
Proof.
  intros K V lt dflt progs sch s. split; [exact (t_ids lt dflt progs sch)|]. intros t. exact (t_view lt dflt progs sch t).
Qed.
Print Assumptions C25_histories.

(** C25: no two threads are ever at the std::map at the same time if one of them writes, no iterator to
    a missing element is dereferenced, and the mutex is only unlocked by its owner. *)
Theorem C25_no_race : forall (K V : Type) (lt : K -> K -> bool) (dflt : V), strict_total_order lt ->
  forall (progs : nat -> list (mop K V)) sch,
  let s := mrun lt dflt (mstart progs) sch in m_ub s = false /\ ~ data_race s.
Proof. intros K V lt dflt LT progs sch. exact (t_safe lt LT dflt progs sch). Qed.
Print Assumptions C25_no_race.

(** C25: an exception leaves the map usable and comes only from a failing operation: without failures
    no call throws. *)
Theorem C25_exceptions : forall (K V : Type) (lt : K -> K -> bool) (dflt : V) (progs : nat -> list (mop K V)) sch,
  Forall (fun x => snd x = false) sch ->
  forall t i o, ~ In (ERet t i o RThrow) (m_hist (mrun lt dflt (mstart progs) sch)).
Proof. intros K V lt dflt progs sch. exact (t_calm lt dflt progs sch). Qed.
Print Assumptions C25_exceptions.

(** C25: no deadlock and no livelock: as long as some thread is not finished some thread can move, and
    threads [ts] making [n] calls in all make at most 8 n moves under every schedule. *)
Theorem C25_terminates : forall (K V : Type) (lt : K -> K -> bool) (dflt : V), strict_total_order lt ->
  forall (progs : nat -> list (mop K V)) sch,
  let s := mrun lt dflt (mstart progs) sch in
  ((exists t, m_pc s t <> PIdle \/ m_prog s t <> []) -> exists t s', mstep lt dflt s t false = Some s') /\
  forall ts, NoDup ts -> (forall t, ~ In t ts -> progs t = []) ->
    moves dflt lt (mstart progs) sch <= 8 * list_sum (map (fun t => length (progs t)) ts).
Proof.
  intros K V lt dflt LT progs sch s. split; [exact (t_progress lt LT dflt progs sch)|].
  intros ts N Z. rewrite <- start_total. apply moves_bound; [exact N|]. intros t H. apply left_zero. cbn. auto.
Qed.
Print Assumptions C25_terminates.

(** C25: a thread whose keys no other thread uses gets, under every schedule, exactly the answers of the same calls made
    alone on a plain map, and between its calls the map holds for its keys what that plain map holds. *)
Theorem C25_private_keys : forall (K V : Type) (lt : K -> K -> bool) (dflt : V), strict_total_order lt ->
  forall (progs : nat -> list (mop K V)) (t : nat) (sch : list (nat * bool)),
  (forall u, u <> t -> forall o p, In o (progs t) -> In p (progs u) -> op_key o <> op_key p) ->
  let s := mrun lt dflt (mstart progs) sch in
  (exists m, run_seq dflt (fun _ => None) (answers t (m_hist s)) m /\
    (m_pc s t = PIdle -> forall o, In o (progs t) -> mp_deref lt (op_key o) (m_data s) = m (op_key o))) /\
  exists rest, progs t = map (fun c => snd (fst c)) (answers t (m_hist s)) ++ rest /\ (m_pc s t = PIdle -> rest = m_prog s t).
Proof.
  intros K V lt dflt LT progs t sch H s. split; [exact (t_own lt LT dflt progs t sch H)|exact (answers_of_program lt dflt progs t sch)].
Qed.
Print Assumptions C25_private_keys.

(** A concrete case: two threads insert the same key; both are in the function when the second takes
    the mutex, and the first then waits; a third call finds what the second thread inserted, and a failing
    insertion throws. *)
Definition progs0 (t : nat) : list (mop nat nat) :=
  match t with
  | 0 => [MInsert 7 70; MFind 7; MErase 7]
  | 1 => [MInsert 7 71; MInsert 8 80]
  | _ => []
  end.
Definition sch0 : list (nat * bool) :=
  map (fun t => (t, false)) [0; 1; 1; 0; 1; 1; 1; 0; 0; 0; 0; 1; 0] ++
  map (fun t => (t, false)) [1; 1; 1] ++ [(1, true); (1, false); (1, false)] ++
  map (fun t => (t, false)) [0; 0; 0; 0; 0; 0; 0; 0; 0; 0; 0; 0; 0; 0; 0; 0].
Example threads_order : strict_total_order Nat.ltb.
Proof.
  split; [intros a; apply Nat.ltb_irrefl|]. split.
  - intros a b c. rewrite !Nat.ltb_lt. apply Nat.lt_trans.
  - intros a b. rewrite !Nat.ltb_lt. destruct (Nat.lt_trichotomy a b) as [H|[H|H]]; auto.
Qed.
Example threads_run : m_hist (mrun Nat.ltb 0 (mstart progs0) sch0) =
  [ECall 0 0 (MInsert 7 70); ECall 1 1 (MInsert 7 71); ERet 1 1 (MInsert 7 71) (RInsert true);
   ERet 0 0 (MInsert 7 70) (RInsert false); ECall 1 2 (MInsert 8 80); ERet 1 2 (MInsert 8 80) RThrow;
   ECall 0 3 (MFind 7); ERet 0 3 (MFind 7) (RFind 71 true); ECall 0 4 (MErase 7); ERet 0 4 (MErase 7) (RErase 1)].
Proof. vm_compute. reflexivity. Qed.
(** A concrete case of C25_private_keys: thread 1 uses the keys 8 and 9 only, thread 0 the key 7. *)
Definition progs1 (t : nat) : list (mop nat nat) :=
  match t with
  | 0 => [MInsert 7 70; MErase 7]
  | 1 => [MInsert 8 80; MFind 8; MFind 9]
  | _ => []
  end.
Example private_case : forall u, u <> 1 -> forall o p, In o (progs1 1) -> In p (progs1 u) -> op_key o <> op_key p.
Proof. intros [|[|u]] N o p Ho Hp; cbn in Ho, Hp; try congruence; try tauto. intuition (subst; discriminate). Qed.
Example private_run : answers 1 (m_hist (mrun Nat.ltb 0 (mstart progs1) (flat_map (fun _ => [(0, false); (1, false)]) (seq 0 40)))) =
  [(1, MInsert 8 80, RInsert true); (3, MFind 8, RFind 80 true); (4, MFind 9, RFind 0 false)].
Proof. vm_compute. reflexivity. Qed.
