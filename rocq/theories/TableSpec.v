(** * TableSpec: an EntityTable as a finite map. Specification. *)
From Verif Require Import Base Types Keys KeySpec Classes Table Items Documents DocSpec.

Section S.
Context {K T : Type} (Ko : keyops K) (U : umap_impl K).

(** The content of a map: every key at most once (in any order). *)
Definition is_table (m : table K T) : Prop := NoDup (map fst (t_list m)).
(** Two maps have the same keys, the same null entities, and related entities: the order does not matter. *)
Definition same_map (R : T -> T -> Prop) (l r : table K T) : Prop :=
  forall k, match t_find Ko k l, t_find Ko k r with
            | None, None | Some None, Some None => True
            | Some (Some a), Some (Some b) => R a b
            | _, _ => False
            end.

(** Histories of changes, in order: Insert( k ); Insert( k ) = x; t[k] = x; Entries()[k] = nullptr;
    Entries().erase( k ); MF::Clear. *)
Inductive top := TInsert (k : K) | TInsertSet (k : K) (x : T) | TIndexSet (k : K) (x : T) | TNull (k : K) | TErase (k : K) | TClear.
Definition t_step (M : mf T) (m : table K T) (o : top) : res (table K T) :=
  match o with
  | TInsert k => do r <- t_insert Ko U M k m; Done (snd r)
  | TInsertSet k x => do r <- t_insert Ko U M k m; Done (t_assign Ko k (Some x) (snd r))
  | TIndexSet k x => do r <- t_index Ko U k m; Done (t_assign Ko k (Some x) (snd r))
  | TNull k => Done (t_assign Ko k None (fst (t_at Ko U k m)))
  | TErase k => Done (t_erase Ko U k m)
  | TClear => Done (t_clear U m)
  end.
Fixpoint t_run (M : mf T) (h : list top) (m : table K T) : res (table K T) :=
  match h with [] => Done m | o :: r => do m1 <- t_step M m o; t_run M r m1 end.

(** The finite map: absent, null or an entity. *)
Definition fmap := K -> option (option T).
Definition f_set (k : K) (v : option (option T)) (f : fmap) : fmap := fun x => if k_eq Ko x k then v else f x.
Definition f_step (M : mf T) (f : fmap) (o : top) : fmap :=
  match o with
  | TInsert k => match f k with None => f_set k (Some (Some (m_new M))) f | Some _ => f end
  | TInsertSet k x | TIndexSet k x => f_set k (Some (Some x)) f
  | TNull k => f_set k (Some None) f
  | TErase k => f_set k None f
  | TClear => fun _ => None
  end.
Definition f_run (M : mf T) (h : list top) (f : fmap) : fmap := fold_left (f_step M) h f.
(** Insert needs that the key is not present with a null entity; t[k] needs an entity. *)
Definition f_legal (f : fmap) (o : top) : Prop :=
  match o with
  | TInsert k | TInsertSet k _ => f k <> Some None
  | TIndexSet k _ => exists x, f k = Some (Some x)
  | _ => True
  end.
Fixpoint legal_run (M : mf T) (h : list top) (f : fmap) : Prop :=
  match h with [] => True | o :: r => f_legal f o /\ legal_run M r (f_step M f o) end.

(** The written form of a table of entities with written form [doc]: the keys, then an array of
    sections, without content for null. *)
Fixpoint elems_of (l : list nodes) : sections := match l with [] => SNil | b :: r => SCons b (elems_of r) end.
Definition table_doc (doc : T -> nodes) (m : table K T) : nodes :=
  Cons (NItem (Item (k_type Ko) key_ids (CVec (map (fun p => k_val Ko (fst p)) (t_list m)))))
  (Cons (NArray key_entities None (elems_of (map (fun p => match snd p with Some x => doc x | None => Nil end) (t_list m)))) Nil).
End S.
Arguments top : clear implicits.
