(** * TableHeap: EntityTable with its heap. Model of ISD/ISD_EntityTable.h where every entity is an allocated object with
    an address, owned by the std::unique_ptr of a map entry, and where programs hold references to entities.
    Addresses are never used twice, so a use of a deleted object is seen ([Undef]). The entities themselves are
    values (what they own is not on this heap); allocation does not fail. *)
From Verif Require Import Base Values Keys Classes Table.
Local Open Scope N_scope.

Section H.
Context {K T : Type} (Ko : keyops K) (U : umap_impl K) (M : mf T).

(** The heap: the objects that exist, and the next address. *)
Record hmem := Mem { cells : N -> option T; nexta : N }.
Definition upd {A} (i : N) (x : A) (f : N -> A) : N -> A := fun y => if y =? i then x else f y.
(** new _Ty. *)
Definition h_alloc (x : T) (m : hmem) : N * hmem := (nexta m, Mem (upd (nexta m) (Some x) (cells m)) (nexta m + 1)).
(** delete: the object must exist. *)
Definition h_free (a : N) (m : hmem) : res hmem :=
  match cells m a with Some _ => Done (Mem (upd a None (cells m)) (nexta m)) | None => Undef end.
(** Reading and changing an object through its address. *)
Definition h_load (a : N) (m : hmem) : res T := match cells m a with Some x => Done x | None => Undef end.
Definition h_store (a : N) (x : T) (m : hmem) : res hmem :=
  match cells m a with Some _ => Done (Mem (upd a (Some x) (cells m)) (nexta m)) | None => Undef end.
(** Destruction of a std::unique_ptr, and of all those of a map. *)
Definition h_drop (p : option N) (m : hmem) : res hmem := match p with Some a => h_free a m | None => Done m end.
Fixpoint h_drops (l : list (K * option N)) (m : hmem) : res hmem :=
  match l with [] => Done m | e :: r => do m1 <- h_drop (snd e) m; h_drops r m1 end.

(** A table: v_Entries maps keys to std::unique_ptr<_Ty>, ISD/ISD_EntityTable.h:17, 46. *)
Definition htable := table K N.
(** emplace( key, unique_ptr ): if the key exists, the new object is deleted with the temporary. *)
Definition h_emplace (k : K) (p : option N) (t : htable) (m : hmem) : res (htable * hmem) :=
  let '(t1, inserted) := t_emplace Ko U k p t in
  if inserted then Done (t1, m) else do m1 <- h_drop p m; Done (t1, m1).

(** operator[], lines 58-59: the address of the entity; a null pointer is dereferenced. *)
Definition h_index (k : K) (t : htable) : res (N * htable) :=
  match t_at Ko U k t with (t1, Some a) => Done (a, t1) | (_, None) => Undef end.
(** Insert, line 62: make_unique, emplace, operator[]. *)
Definition h_insert (k : K) (t : htable) (m : hmem) : res (N * htable * hmem) :=
  let '(a, m1) := h_alloc (m_new M) m in
  do r <- h_emplace k (Some a) t m1; let '(t1, m2) := r in
  do q <- h_index k t1; let '(b, t2) := q in Done (b, t2, m2).
(** Entries().erase( key ). *)
Definition h_erase (k : K) (t : htable) (m : hmem) : res (htable * hmem) :=
  do m1 <- match t_find Ko k t with Some p => h_drop p m | None => Done m end; Done (t_erase Ko U k t, m1).
(** Entries()[key] = p: the old object is deleted. *)
Definition h_put (k : K) (p : option N) (t : htable) (m : hmem) : res (htable * hmem) :=
  let '(t1, old) := t_at Ko U k t in
  do m1 <- h_drop old m; Done (t_assign Ko k p t1, m1).
(** MF::Clear, lines 86-89. *)
Definition h_clear (t : htable) (m : hmem) : res (htable * hmem) := do m1 <- h_drops (t_list t) m; Done (t_clear U t, m1).
(** The loop of MF::DeepCopy, lines 98-102: new _Ty( *ent.second ). *)
Fixpoint h_copy_loop (src : list (K * option N)) (d : htable) (m : hmem) : res (htable * hmem) :=
  match src with
  | [] => Done (d, m)
  | (k, p) :: r =>
    do q <- match p with
            | Some a => do x <- h_load a m; do y <- m_copy M (m_new M) (Some x); let '(b, m1) := h_alloc y m in Done (Some b, m1)
            | None => Done (None, m)
            end; let '(pb, m1) := q in
    do q2 <- h_emplace k pb d m1; let '(d1, m2) := q2 in h_copy_loop r d1 m2
  end.
(** The comparison of two entries, lines 131-141: equal pointers, a null pointer, the objects. *)
Definition h_entry_eq (p q : option N) (m : hmem) : res bool :=
  match p, q with
  | None, None => Done true
  | Some a, Some b => if a =? b then Done true else do x <- h_load a m; do y <- h_load b m; Done (m_eq M x y)
  | _, _ => Done false
  end.
(** The loop of MF::Equals, lines 121-146. *)
Fixpoint h_equals_loop (l : list (K * option N)) (r : htable) (m : hmem) : res bool :=
  match l with
  | [] => Done true
  | (k, p) :: l' =>
    match t_find Ko k r with
    | None => Done false
    | Some q => do b <- h_entry_eq p q m; if b then h_equals_loop l' r m else Done false
    end
  end.
(** MF::Equals, lines 106-149. *)
Definition h_equals (same : bool) (l r : htable) (m : hmem) : res bool :=
  if same then Done true else
  if negb (Nat.eqb (length (t_list l)) (length (t_list r))) then Done false else h_equals_loop (t_list l) r m.

(** ** Programs with several tables and references to entities *)
Record hstate := HState { h_tabs : N -> option htable; h_refs : N -> option N; h_mem : hmem }.
Inductive hop :=
| HNew (i : N)                        (* EntityTable ti; *)
| HCopyNew (i j : N)                  (* EntityTable ti( tj ); *)
| HMoveNew (i j : N)                  (* EntityTable ti( std::move( tj ) ); *)
| HAssign (i j : N)                   (* ti = tj; *)
| HMoveAssign (i j : N)               (* ti = std::move( tj ); *)
| HDestroy (i : N)                    (* end of lifetime *)
| HInsert (i : N) (k : K) (r : N)     (* auto &r = ti.Insert( k ); *)
| HIndex (i : N) (k : K) (r : N)      (* auto &r = ti[k]; *)
| HFind (i : N) (k : K) (r : N)       (* auto it = ti.Entries().find( k ); and r = *it->second, if there is one *)
| HErase (i : N) (k : K)              (* ti.Entries().erase( k ); *)
| HNull (i : N) (k : K)               (* ti.Entries()[k] = nullptr; *)
| HPut (i : N) (k : K) (x : T)        (* ti.Entries()[k] = std::make_unique<T>( x ); *)
| HClear (i : N)                      (* MF::Clear( ti ); *)
| HEquals (i j : N)                   (* ti == tj *)
| HSize (i : N)                       (* ti.Size() *)
| HLoad (r : N)                       (* the value of r *)
| HStore (r : N) (x : T).             (* r = x; *)
(** What an operation returns. *)
Inductive hans := AVoid | ABool (b : bool) | ASize (n : N) | AValue (x : T) | AAbsent | ANull | AFound.

(** Access to the tables; a table must exist, or must not exist yet. *)
Definition h_tab (i : N) (s : hstate) : res htable := match h_tabs s i with Some t => Done t | None => Undef end.
Definition h_none (i : N) (s : hstate) : res unit := match h_tabs s i with Some _ => Undef | None => Done tt end.
Definition set_tab (i : N) (t : option htable) (s : hstate) : hstate := HState (upd i t (h_tabs s)) (h_refs s) (h_mem s).
Definition set_ref (r : N) (a : N) (s : hstate) : hstate := HState (h_tabs s) (upd r (Some a) (h_refs s)) (h_mem s).
Definition set_mem (m : hmem) (s : hstate) : hstate := HState (h_tabs s) (h_refs s) m.
Definition h_ref (r : N) (s : hstate) : res N := match h_refs s r with Some a => Done a | None => Undef end.
(** A table after its content was moved away: no entries, any state of the implementation. The moves are defaulted
    (lines 38-39); std::unordered_map hands over its nodes, so the entities keep their addresses. *)
Context (left_state : N -> N).
Definition moved_from (t : htable) : htable := UMap [] (left_state (t_state t)).

(** MF::DeepCopy( ti, &tj ), lines 92-103: the source is looked at after the destination was cleared, which matters
    if they are the same object. *)
Definition h_deep_copy (i j : N) (s : hstate) : res hstate :=
  do t <- h_tab i s;
  do q <- h_clear t (h_mem s); let '(t1, m1) := q in
  let s1 := set_tab i (Some t1) (set_mem m1 s) in
  do src <- h_tab j s1;
  do q2 <- h_copy_loop (t_list src) t1 m1; let '(t2, m2) := q2 in
  Done (set_tab i (Some t2) (set_mem m2 s1)).
Definition h_step (o : hop) (s : hstate) : res (hans * hstate) :=
  match o with
  | HNew i => do _ <- h_none i s; Done (AVoid, set_tab i (Some t_new) s)
  | HCopyNew i j =>
    do _ <- h_none i s; do _ <- h_tab j s;
    do s1 <- h_deep_copy i j (set_tab i (Some t_new) s); Done (AVoid, s1)
  | HMoveNew i j =>
    do _ <- h_none i s; do t <- h_tab j s;
    Done (AVoid, set_tab j (Some (moved_from t)) (set_tab i (Some t) s))
  | HAssign i j => do _ <- h_tab i s; do _ <- h_tab j s; do s1 <- h_deep_copy i j s; Done (AVoid, s1)
  | HMoveAssign i j =>
    (* x = std::move( x ): not specified *)
    if i =? j then Undef else
    do d <- h_tab i s; do t <- h_tab j s; do m1 <- h_drops (t_list d) (h_mem s);
    Done (AVoid, set_tab j (Some (moved_from t)) (set_tab i (Some t) (set_mem m1 s)))
  | HDestroy i => do t <- h_tab i s; do m1 <- h_drops (t_list t) (h_mem s); Done (AVoid, set_tab i None (set_mem m1 s))
  | HInsert i k r =>
    do t <- h_tab i s; do q <- h_insert k t (h_mem s); let '(a, t1, m1) := q in
    Done (AVoid, set_ref r a (set_tab i (Some t1) (set_mem m1 s)))
  | HIndex i k r =>
    do t <- h_tab i s; do q <- h_index k t; let '(a, t1) := q in Done (AVoid, set_ref r a (set_tab i (Some t1) s))
  | HFind i k r =>
    do t <- h_tab i s;
    match t_find Ko k t with
    | None => Done (AAbsent, s)
    | Some None => Done (ANull, s)
    | Some (Some a) => Done (AFound, set_ref r a s)
    end
  | HErase i k =>
    do t <- h_tab i s; do q <- h_erase k t (h_mem s); let '(t1, m1) := q in Done (AVoid, set_tab i (Some t1) (set_mem m1 s))
  | HNull i k =>
    do t <- h_tab i s; do q <- h_put k None t (h_mem s); let '(t1, m1) := q in Done (AVoid, set_tab i (Some t1) (set_mem m1 s))
  | HPut i k x =>
    do t <- h_tab i s; let '(a, m1) := h_alloc x (h_mem s) in
    do q <- h_put k (Some a) t m1; let '(t1, m2) := q in Done (AVoid, set_tab i (Some t1) (set_mem m2 s))
  | HClear i =>
    do t <- h_tab i s; do q <- h_clear t (h_mem s); let '(t1, m1) := q in Done (AVoid, set_tab i (Some t1) (set_mem m1 s))
  | HEquals i j =>
    do l <- h_tab i s; do r <- h_tab j s; do b <- h_equals (i =? j) l r (h_mem s); Done (ABool b, s)
  | HSize i => do t <- h_tab i s; Done (ASize (len (t_list t)), s)
  | HLoad r => do a <- h_ref r s; do x <- h_load a (h_mem s); Done (AValue x, s)
  | HStore r x => do a <- h_ref r s; do m1 <- h_store a x (h_mem s); Done (AVoid, set_mem m1 s)
  end.
Fixpoint h_run (l : list hop) (s : hstate) : res (list hans * hstate) :=
  match l with
  | [] => Done ([], s)
  | o :: r => do p <- h_step o s; let '(a, s1) := p in do q <- h_run r s1; let '(as', s2) := q in Done (a :: as', s2)
  end.
(** No tables, no references, no objects. *)
Definition h_start : hstate := HState (fun _ => None) (fun _ => None) (Mem (fun _ => None) 0).
End H.
Arguments hmem : clear implicits. Arguments hstate : clear implicits. Arguments hop : clear implicits. Arguments hans : clear implicits.
