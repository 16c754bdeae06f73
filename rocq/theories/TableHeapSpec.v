(** * TableHeapSpec: tables as finite maps, references as names of entries. Specification without a heap. *)
From Verif Require Import Base Values Keys KeySpec Classes Table TableSpec TableHeap.
Local Open Scope N_scope.

Section S.
Context {K T : Type} (Ko : keyops K) (M : mf T).

(** Every table is a finite map (absent, null, or an entity); a valid reference is the name of an entry: table and
    key. *)
Record astate := AState { a_tabs : N -> option (@fmap K T); a_refs : N -> option (N * K) }.
Definition a_start : astate := AState (fun _ => None) (fun _ => None).
(** What the copy constructor makes of an entity. *)
Definition copy_of (x : T) : T := match m_copy M (m_new M) (Some x) with Done y => y | _ => x end.
Definition copy_map (f : @fmap K T) : @fmap K T :=
  fun k => match f k with Some (Some x) => Some (Some (copy_of x)) | o => o end.
Definition empty_map : @fmap K T := fun _ => None.

Definition with_tab (i : N) (f : option (@fmap K T)) (S : astate) : astate := AState (upd i f (a_tabs S)) (a_refs S).
Definition with_ref (r : N) (i : N) (k : K) (S : astate) : astate := AState (a_tabs S) (upd r (Some (i, k)) (a_refs S)).
(** References to entries of table [i] (with key [k]) become invalid. *)
Definition lose_tab (i : N) (S : astate) : astate :=
  AState (a_tabs S) (fun r => match a_refs S r with Some (j, k) => if j =? i then None else Some (j, k) | None => None end).
Definition lose_key (i : N) (k : K) (S : astate) : astate :=
  AState (a_tabs S) (fun r => match a_refs S r with Some (j, k') => if (j =? i) && k_eq Ko k' k then None else Some (j, k') | None => None end).
(** References to entries of [j] are now references to entries of [i]. *)
Definition follow (i j : N) (S : astate) : astate :=
  AState (a_tabs S) (fun r => match a_refs S r with Some (t, k) => Some (if t =? j then i else t, k) | None => None end).

(** When an operation has a defined meaning. *)
Definition a_exists (i : N) (S : astate) : Prop := a_tabs S i <> None.
Definition a_legal (o : hop K T) (S : astate) : Prop :=
  match o with
  | HNew i => a_tabs S i = None
  | HCopyNew i j | HMoveNew i j => a_tabs S i = None /\ a_exists j S
  | HAssign i j | HEquals i j => a_exists i S /\ a_exists j S
  | HMoveAssign i j => a_exists i S /\ a_exists j S /\ i <> j
  | HDestroy i | HFind i _ _ | HErase i _ | HNull i _ | HPut i _ _ | HClear i | HSize i => a_exists i S
  | HInsert i k _ => exists f, a_tabs S i = Some f /\ f k <> Some None
  | HIndex i k _ => exists f x, a_tabs S i = Some f /\ f k = Some (Some x)
  | HLoad r | HStore r _ => a_refs S r <> None
  end.
(** The content of a table. *)
Definition a_map (i : N) (S : astate) : @fmap K T := match a_tabs S i with Some f => f | None => empty_map end.
(** The effect of an operation. *)
Definition a_next (o : hop K T) (S : astate) : astate :=
  match o with
  | HNew i => with_tab i (Some empty_map) S
  | HCopyNew i j => with_tab i (Some (copy_map (a_map j S))) S
  | HMoveNew i j => with_tab j (Some empty_map) (with_tab i (Some (a_map j S)) (follow i j S))
  | HAssign i j => if i =? j then lose_tab i (with_tab i (Some empty_map) S)
                   else lose_tab i (with_tab i (Some (copy_map (a_map j S))) S)
  | HMoveAssign i j => with_tab j (Some empty_map) (with_tab i (Some (a_map j S)) (follow i j (lose_tab i S)))
  | HDestroy i => lose_tab i (with_tab i None S)
  | HInsert i k r =>
    with_ref r i k (match a_map i S k with None => with_tab i (Some (f_set Ko k (Some (Some (m_new M))) (a_map i S))) S | Some _ => S end)
  | HIndex i k r => with_ref r i k S
  | HFind i k r => match a_map i S k with Some (Some _) => with_ref r i k S | _ => S end
  | HErase i k => lose_key i k (with_tab i (Some (f_set Ko k None (a_map i S))) S)
  | HNull i k => lose_key i k (with_tab i (Some (f_set Ko k (Some None) (a_map i S))) S)
  | HPut i k x => lose_key i k (with_tab i (Some (f_set Ko k (Some (Some x)) (a_map i S))) S)
  | HClear i => lose_tab i (with_tab i (Some empty_map) S)
  | HStore r x => match a_refs S r with Some (i, k) => with_tab i (Some (f_set Ko k (Some (Some x)) (a_map i S))) S | None => S end
  | HEquals _ _ | HSize _ | HLoad _ => S
  end.
(** The answer of an operation. *)
Definition a_answer (o : hop K T) (S : astate) (a : hans T) : Prop :=
  match o with
  | HEquals i j => exists b, a = ABool b /\
      (b = true <-> i = j \/ forall k, match a_map i S k, a_map j S k with
                                       | None, None | Some None, Some None => True
                                       | Some (Some x), Some (Some y) => m_eq M x y = true
                                       | _, _ => False end)
  | HSize i => exists l, a = ASize (len l) /\ NoDup l /\ forall k, In k l <-> a_map i S k <> None
  | HLoad r => exists i k x, a_refs S r = Some (i, k) /\ a_map i S k = Some (Some x) /\ a = AValue x
  | HFind i k _ => a = match a_map i S k with None => AAbsent | Some None => ANull | Some (Some _) => AFound end
  | _ => a = AVoid
  end.

Fixpoint a_legals (l : list (hop K T)) (S : astate) : Prop :=
  match l with [] => True | o :: r => a_legal o S /\ a_legals r (a_next o S) end.
Definition a_nexts (l : list (hop K T)) (S : astate) : astate := fold_left (fun S o => a_next o S) l S.
Fixpoint a_answers (l : list (hop K T)) (S : astate) (as' : list (hans T)) : Prop :=
  match l, as' with
  | [], [] => True
  | o :: r, a :: q => a_answer o S a /\ a_answers r (a_next o S) q
  | _, _ => False
  end.

(** ** What a heap represents *)
(** The address of the entity of key [k] in table [i]. *)
Definition address (s : hstate K T) (i : N) (k : K) : option N :=
  match h_tabs s i with Some t => match t_find Ko k t with Some p => p | None => None end | None => None end.
Record represents (s : hstate K T) (S : astate) : Prop := {
  (** the same tables, keys and null entries, and the same entities *)
  rp_tables : forall i, match h_tabs s i, a_tabs S i with
    | None, None => True
    | Some t, Some f => is_table t /\ forall k, match t_find Ko k t, f k with
        | None, None | Some None, Some None => True
        | Some (Some a), Some (Some x) => cells (h_mem s) a = Some x
        | _, _ => False end
    | _, _ => False end;
  (** an entity belongs to one entry of one table *)
  rp_unique : forall i k j k' a, address s i k = Some a -> address s j k' = Some a -> i = j /\ k = k';
  (** every object on the heap belongs to an entry: nothing is leaked *)
  rp_no_leak : forall a x, cells (h_mem s) a = Some x -> exists i k, address s i k = Some a;
  (** valid references refer to the entity of their entry, invalid ones to no object *)
  rp_refs : forall r, match a_refs S r with
    | Some (i, k) => exists a, h_refs s r = Some a /\ address s i k = Some a
    | None => match h_refs s r with Some a => cells (h_mem s) a = None | None => True end end;
  (** new addresses were never used *)
  rp_fresh : (forall a, nexta (h_mem s) <= a -> cells (h_mem s) a = None) /\ (forall r a, h_refs s r = Some a -> a < nexta (h_mem s))
}.

(** Entities that can be copied, and programs that use only those. *)
Definition copies_in (P : T -> Prop) : Prop :=
  P (m_new M) /\ forall x, P x -> exists y, m_copy M (m_new M) (Some x) = Done y /\ P y.
Definition uses (P : T -> Prop) (o : hop K T) : Prop := match o with HPut _ _ x | HStore _ x => P x | _ => True end.
Definition holds (P : T -> Prop) (S : astate) : Prop := forall i k x, a_map i S k = Some (Some x) -> P x.
(** Operations that keep the entry of key [k] in table [i], and do not give reference [r] another meaning: everything
    except erasing or replacing this entry, and clearing, assigning, moving or destroying this table. *)
Definition keeps (i : N) (k : K) (r : N) (o : hop K T) : Prop :=
  match o with
  | HAssign j _ | HDestroy j | HClear j => j <> i
  | HMoveNew _ j => j <> i
  | HMoveAssign j j' => j <> i /\ j' <> i
  | HErase j k' | HNull j k' | HPut j k' _ => ~ (j = i /\ k' = k)
  | HInsert j k' r' | HIndex j k' r' | HFind j k' r' => r' <> r
  | _ => True
  end.
End S.
Arguments astate : clear implicits.
