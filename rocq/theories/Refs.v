(** * Refs: entity_ref and package_ref as objects. Model.
    CodeGenerator/InlinedCode/ISD_entity_ref.inl, ISD_package_ref.inl; ISD/ISD_Types.cpp:114-126. *)
From Verif Require Import Base Bytes Values Types Keys.
Open Scope N_scope.

(** The two classes: a reference holds a uuid (16 bytes) or a hash (32 bytes); the object is its image. *)
Inductive rkind := ERef | PRef.
(** sizeof( uuid ), sizeof( hash ): CodeGenerator/InlinedCode/uuid_hash_header.inl:1-20,41-49. *)
Definition rsize (k : rkind) : N := match k with ERef => 16 | PRef => 32 end.
(** uuid_zero (= uuid_inf), hash_zero; uuid_sup, hash_sup: CodeGenerator/Generators/ISD_DataTypes.py:82-88. *)
Definition id_zero (k : rkind) : list byte := rep x00 (rsize k).
Definition id_sup (k : rkind) : list byte := rep xff (rsize k).
(** operator== of the ids (IsEqualGUID; uuid_hash_header.inl:56-62). *)
Definition id_eq (k : rkind) (a b : list byte) : bool :=
  match k with ERef => words_eq 4 4 a b | PRef => words_eq 8 4 a b end.
(** operator!= of the ids (guiddef.h: negation of ==; uuid_hash_header.inl:64-70). *)
Definition id_ne (k : rkind) (a b : list byte) : bool :=
  match k with ERef => negb (words_eq 4 4 a b) | PRef => words_ne 8 4 a b end.

(** Default constructor: ISD_entity_ref.inl:14, ISD_package_ref.inl:10. *)
Definition ref_default (k : rkind) : list byte := id_zero k.
(** Copy constructor and copy assignment, the new value of the destination: ISD_entity_ref.inl:15-16,
    ISD_package_ref.inl:12-13. *)
Definition ref_copy (other : list byte) : list byte := other.
(** Move constructor and move assignment: the destination takes the id ([ref_copy]), then the source is
    set to zero: ISD_entity_ref.inl:17-18, ISD_package_ref.inl:14-15. *)
Definition ref_left (k : rkind) : list byte := id_zero k.
(** operator==, operator!=, operator bool: ISD_entity_ref.inl:25-26,30; ISD_package_ref.inl:19-20,24. *)
Definition ref_eq (k : rkind) (a b : list byte) : bool := id_eq k a b.
Definition ref_ne (k : rkind) (a b : list byte) : bool := id_ne k a b.
Definition ref_bool (k : rkind) (a : list byte) : bool := id_ne k a (id_zero k).

(** What ::UuidCreate does in one call: whether it returns RPC_S_OK, and the uuid it stores. *)
Record reply := Reply { rp_ok : bool; rp_id : list byte }.
(** entity_ref::make_ref: ISD/ISD_Types.cpp:114-126. *)
Definition make_ref (r : reply) : res (list byte) :=
  if negb (rp_ok r) || id_eq ERef (rp_id r) (id_zero ERef) then Throw else Done (rp_id r).

(** A program over references of one class. Objects are numbered in the order of their construction. *)
Inductive rop :=
| RDefault                    (* entity_ref r; *)
| RNull                       (* entity_ref r( entity_ref::null() ); *)
| RNewCopy (y : nat)          (* entity_ref r( y ); *)
| RNewMove (y : nat)          (* entity_ref r( std::move( y ) ); *)
| RCopyTo (x y : nat)         (* x = y; *)
| RMoveTo (x y : nat)         (* x = std::move( y ); *)
| RFrom (id : list byte)      (* package_ref r( id ); for entity_ref: private, made by an EntityReader *)
| RMake                       (* try { entity_ref r( entity_ref::make_ref() ); } catch: was it made? *)
| RMakeTo (x : nat)           (* try { x = entity_ref::make_ref(); } catch: was it made? *)
| RDestroy (x : nat)          (* the lifetime of x ends *)
| REq (x y : nat)             (* x == y *)
| RNe (x y : nat)             (* x != y *)
| RBool (x : nat).            (* (bool)x *)

(** Live objects (None: destroyed), generic in what an object holds. *)
Definition at_ {A} (s : list (option A)) (x : nat) : option A :=
  match nth_error s x with Some (Some a) => Some a | _ => None end.
Fixpoint put {A} (s : list (option A)) (x : nat) (a : option A) : list (option A) :=
  match s, x with
  | [], _ => []
  | _ :: s', O => a :: s'
  | o :: s', S x' => o :: put s' x' a
  end.

(** The objects, the number of calls of ::UuidCreate so far, and the results observed so far. *)
Record rstore := RStore { r_objs : list (option (list byte)); r_calls : nat; r_seen : list bool }.

Definition r_new (s : rstore) (a : list byte) : rstore :=
  RStore (r_objs s ++ [Some a]) (r_calls s) (r_seen s).
Definition r_set (s : rstore) (x : nat) (a : option (list byte)) : rstore :=
  RStore (put (r_objs s) x a) (r_calls s) (r_seen s).
Definition r_see (s : rstore) (b : bool) : rstore :=
  RStore (r_objs s) (r_calls s) (r_seen s ++ [b]).
Definition r_call (s : rstore) : rstore := RStore (r_objs s) (S (r_calls s)) (r_seen s).
(** Use of an object: undefined if it is not alive. *)
Definition r_get (s : rstore) (x : nat) : res (list byte) :=
  match at_ (r_objs s) x with Some a => Done a | None => Undef end.

(** One statement. An exception of make_ref is caught by the statement. *)
Definition r_step (k : rkind) (os : nat -> reply) (s : rstore) (o : rop) : res rstore :=
  match o with
  | RDefault => Done (r_new s (ref_default k))
  | RNull => Done (r_new s (ref_copy (ref_default k)))
  | RNewCopy y => do a <- r_get s y; Done (r_new s (ref_copy a))
  | RNewMove y => do a <- r_get s y; Done (r_set (r_new s (ref_copy a)) y (Some (ref_left k)))
  | RCopyTo x y => do a <- r_get s y; do _ <- r_get s x; Done (r_set s x (Some (ref_copy a)))
  | RMoveTo x y => do a <- r_get s y; do _ <- r_get s x;
      Done (r_set (r_set s x (Some (ref_copy a))) y (Some (ref_left k)))
  | RFrom id => Done (r_new s id)
  | RMake => match make_ref (os (r_calls s)) with
             | Done a => Done (r_see (r_new (r_call s) (ref_copy a)) true)
             | Throw => Done (r_see (r_call s) false)
             | Undef => Undef
             end
  | RMakeTo x => do _ <- r_get s x;
      match make_ref (os (r_calls s)) with
      | Done a => Done (r_see (r_set (r_call s) x (Some (ref_copy a))) true)
      | Throw => Done (r_see (r_call s) false)
      | Undef => Undef
      end
  | RDestroy x => do _ <- r_get s x; Done (r_set s x None)
  | REq x y => do a <- r_get s x; do b <- r_get s y; Done (r_see s (ref_eq k a b))
  | RNe x y => do a <- r_get s x; do b <- r_get s y; Done (r_see s (ref_ne k a b))
  | RBool x => do a <- r_get s x; Done (r_see s (ref_bool k a))
  end.
(** A program. *)
Fixpoint r_run (k : rkind) (os : nat -> reply) (s : rstore) (p : list rop) : res rstore :=
  match p with [] => Done s | o :: p' => do s' <- r_step k os s o; r_run k os s' p' end.

(** The objects every program starts with: entity_ref::_inf() and entity_ref::_sup() (objects 0 and 1;
    ISD_entity_ref.inl:37-38, static objects returned by non-const reference). package_ref has none. *)
Definition r_start (k : rkind) : rstore :=
  match k with
  | ERef => RStore [Some (id_zero k); Some (id_sup k)] 0 []
  | PRef => RStore [] 0 []
  end.
