(** * Table: EntityTable. Model of ISD/ISD_EntityTable.h.
    A unique_ptr to an entity is an option (the entity is owned by the map, so it is identified with its
    value). *)
From Coq Require Import Sorting.Permutation.
From Verif Require Import Base Values Streams Types EntityWriter EntityReader Sections Validator Keys Classes.

(** The implementation of std::unordered_map (the map type, ISD/ISD_EntityTable.h:17; the standard library is
    not in /repo): the order of iteration is unspecified, and may change completely with every insertion. A map is
    the list of its entries in the order of iteration, together with the state of the implementation (its buckets),
    coded as a number. An implementation decides where new entries go; all theorems hold for all of them. *)
Record umap_impl (K : Type) := UImpl {
  (** insertion of an entry with a new key: the entries afterwards, in the new order *)
  u_put : forall V, N -> list (K * V) -> K * V -> list (K * V) * N;
  u_put_perm : forall V s l x, Permutation (fst (u_put V s l x)) (x :: l);
  (** erase and clear keep the order *)
  u_erase : N -> K -> N;
  u_clear : N -> N
}.
Arguments u_put {K} _ {V}. Arguments u_erase {K}. Arguments u_clear {K}. Arguments u_put_perm {K} _ {V}.

Section Table.
Context {K T : Type} (Ko : keyops K) (U : umap_impl K) (zero : K) (M : mf T).

(** v_Entries, ISD/ISD_EntityTable.h:46. *)
Record table := UMap { t_list : list (K * option T); t_state : N }.
Definition t_new : table := UMap [] 0.

(** std::unordered_map::find: by operator== (keys that are equal have equal hashes, C34_hash). *)
Definition t_find (k : K) (m : table) : option (option T) :=
  match find (fun p => k_eq Ko k (fst p)) (t_list m) with Some p => Some (snd p) | None => None end.
(** std::unordered_map::emplace: the map is unchanged if the key exists; the second component is the success
    flag. *)
Definition t_emplace (k : K) (v : option T) (m : table) : table * bool :=
  match t_find k m with
  | Some _ => (m, false)
  | None => let '(l, s) := u_put U (t_state m) (t_list m) (k, v) in (UMap l s, true)
  end.
(** Assignment to the value of an existing key. *)
Definition t_assign (k : K) (v : option T) (m : table) : table :=
  UMap (map (fun p => if k_eq Ko k (fst p) then (fst p, v) else p) (t_list m)) (t_state m).
(** std::unordered_map::erase( key ). *)
Definition t_erase (k : K) (m : table) : table :=
  UMap (filter (fun p => negb (k_eq Ko k (fst p))) (t_list m)) (u_erase U (t_state m) k).

(** operator[] of the map: inserts a null pointer if the key is missing. *)
Definition t_at (k : K) (m : table) : table * option T :=
  match t_find k m with
  | Some v => (m, v)
  | None => (fst (t_emplace k None m), None)
  end.
(** operator[] of the table, lines 58-59: dereferences without a check. *)
Definition t_index (k : K) (m : table) : res (T * table) :=
  match t_at k m with (m1, Some v) => Done (v, m1) | (_, None) => Undef end.
(** Insert, line 62: emplace, then operator[] and dereference. *)
Definition t_insert (k : K) (m : table) : res (T * table) :=
  t_index k (fst (t_emplace k (Some (m_new M)) m)).

(** MF::Clear, lines 86-89. *)
Definition t_clear (m : table) : table := UMap [] (u_clear U (t_state m)).
(** The loop of MF::DeepCopy, lines 98-102: new _Ty( *ent.second ) copies with the copy constructor, which
    calls MF::DeepCopy on a new object. *)
Fixpoint t_copy_loop (src : list (K * option T)) (dest : table) : res table :=
  match src with
  | [] => Done dest
  | (k, o) :: r =>
    do v <- match o with
            | Some x => do y <- m_copy M (m_new M) (Some x); Done (Some y)
            | None => Done None
            end;
    t_copy_loop r (fst (t_emplace k v dest))
  end.
(** MF::DeepCopy, lines 92-103, from another object. *)
Definition t_deep_copy (dest : table) (source : option table) : res table :=
  match source with None => Done (t_clear dest) | Some s => t_copy_loop (t_list s) (t_clear dest) end.
(** MF::DeepCopy of an object to itself (operator=, line 37, has no check): the source is cleared too. *)
Definition t_self_copy (m : table) : res table := t_copy_loop (t_list (t_clear m)) (t_clear m).

(** The comparison of two entries, lines 131-141. *)
Definition entry_eq (a b : option T) : bool :=
  match a, b with Some x, Some y => m_eq M x y | None, None => true | _, _ => false end.
(** MF::Equals, lines 106-149, of two different objects. *)
Definition t_equals (l r : table) : bool :=
  if negb (Nat.eqb (length (t_list l)) (length (t_list r))) then false else
  forallb (fun p => match t_find (fst p) r with None => false | Some v => entry_eq (snd p) v end) (t_list l).

(** ISDKeyMacro("IDs") and ISDKeyMacro("Entities"), ISD/ISD_Types.h:32. *)
Definition key_ids : list byte := [x49; x44; x73].
Definition key_entities : list byte := [x45; x6e; x74; x69; x74; x69; x65; x73].

(** The entity loop of MF::Write, lines 174-186. *)
Fixpoint t_write_entries (h : N) (c : option N) (i : N) (m : list (K * option T)) (st : wstate) : res (bool * wstate) :=
  match m with
  | [] => Done (true, st)
  | (_, o) :: r =>
    do r1 <- w_begin_in h c i st; let '(ok, st1) := r1 in
    if negb ok then Done (false, st1) else
    do r2 <- match o with
             | None => Done (true, st1)
             | Some x => match c with Some hc => m_write M hc x st1 | None => Undef end
             end; let '(ok2, st2) := r2 in
    if negb ok2 then Done (false, st2) else
    do r3 <- w_end_in h c i st2; let '(ok3, st3) := r3 in
    if negb ok3 then Done (false, st3) else t_write_entries h c (i + 1)%N r st3
  end.
(** MF::Write, lines 153-195. *)
Definition t_write (h : N) (m : table) (st : wstate) : res (bool * wstate) :=
  do r <- w_write h (k_type Ko) key_ids (CVec (map (fun p => k_val Ko (fst p)) (t_list m))) st; let '(ok, st1) := r in
  if negb ok then Done (false, st1) else
  do r2 <- w_begin_arr h key_entities (len (t_list m)) None st1; let '(c, st2) := r2 in
  match c with
  | None => Done (false, st2)
  | Some hc =>
    do r3 <- t_write_entries h (Some hc) 0%N (t_list m) st2; let '(ok3, st3) := r3 in
    if negb ok3 then Done (false, st3) else w_end_arr h (Some hc) st3
  end.

(** The entity loop of MF::Read, lines 221-249; [i] is the index, [ks] the keys from there on. *)
Fixpoint t_read_entries (e : renv) (h : N) (c : option N) (i : N) (ks : list K) (m : table) (st : rstate)
  : res (bool * table * rstate) :=
  match ks with
  | [] => Done (true, m, st)
  | k :: r =>
    do r1 <- r_begin_in h c i true st; let '(ok, has_data, st1) := r1 in
    if negb ok then Done (false, m, st1) else
    let '(m1, inserted) := t_emplace k (if (has_data : bool) then Some (m_new M) else None) m in
    if negb inserted then Done (false, m1, st1) else
    do r2 <- (if (has_data : bool) then
                match c with
                | None => Undef
                | Some hc => do q <- m_read M e hc (m_new M) st1; let '(ok2, x, st2) := q in
                             Done (ok2, t_assign k (Some x) m1, st2)
                end
              else Done (true, m1, st1)); let '(ok2, m2, st2) := r2 in
    if negb ok2 then Done (false, m2, st2) else
    do r3 <- r_end_in h c i st2; let '(ok3, st3) := r3 in
    if negb ok3 then Done (false, m2, st3) else t_read_entries e h c (i + 1)%N r m2 st3
  end.
Definition t_keys_of (c : cval) : list K := match c with CVec l => map (k_of Ko) l | _ => [] end.
(** MF::Read, lines 198-255. *)
Definition t_read (e : renv) (h : N) (m : table) (st : rstate) : res (bool * table * rstate) :=
  do r <- r_read e h (k_type Ko) key_ids (CVec []) st; let '(ok, ks, st1) := r in
  if negb ok then Done (false, m, st1) else
  do r2 <- r_begin_arr e h key_entities false None st1; let '(c, map_size, ok2, _, st2) := r2 in
  if negb ok2 then Done (false, m, st2) else
  if negb (map_size =? len (t_keys_of ks))%N then Done (false, m, st2) else
  do r3 <- t_read_entries e h c 0%N (t_keys_of ks) (t_clear m) st2; let '(ok3, m3, st3) := r3 in
  if negb ok3 then Done (false, m3, st3) else
  do r4 <- r_end_arr h c st3; let '(ok4, st4) := r4 in Done (ok4, m3, st4).

(** The flags of the table type, lines 10-14 and 28-29: zero keys and null entities are errors. *)
Record tflags := TFlags { no_zero_keys : bool; no_null_entities : bool }.

(** The loop of MF::Validate, lines 269-282. *)
Fixpoint t_validate_entries (n : nat) (f : tflags) (m : list (K * option T)) : option (list N) :=
  match m with
  | [] => Some []
  | (_, o) :: r =>
    match (match o with
           | Some x => m_validate M n x
           | None => Some (if no_null_entities f then [NullNotAllowed] else [])
           end) with
    | None => None
    | Some l => match t_validate_entries n f r with None => None | Some l' => Some (l ++ l') end
    end
  end.
(** MF::Validate, lines 258-284. *)
Definition t_validate (f : tflags) (n : nat) (m : table) : option (list N) :=
  match t_validate_entries n f (t_list m) with
  | None => None
  | Some l => Some ((if no_zero_keys f then match t_find zero m with Some _ => [NullNotAllowed] | None => [] end else []) ++ l)
  end.

(** EntityTable<K,T,Flags>::MF. *)
Definition table_mf (f : tflags) : mf table :=
  MFun table t_new (fun m => Done (t_clear m)) t_deep_copy t_equals t_write t_read (t_validate f).
End Table.
Arguments table : clear implicits.
Arguments UMap {K T}.
