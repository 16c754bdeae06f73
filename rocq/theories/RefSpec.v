(** * RefSpec: references as handles. Specification.
    A reference is null, or the handle made by the n-th call of make_ref, or an id it was given (by a
    constructor from a hash, by a reader). Copying copies the handle, moving takes it away from the source. *)
From Verif Require Import Base Bytes Refs.
Open Scope N_scope.

Inductive handle := Null | Made (n : nat) | Given (id : list byte).

Definition zeros (id : list byte) : bool := forallb (fun b => match b with x00 => true | _ => false end) id.
(** An id of zeros is null. *)
Definition given (id : list byte) : handle := if zeros id then Null else Given id.
(** Two handles are the same. *)
Definition bytes_dec : forall a b : list byte, {a = b} + {a <> b} := list_eq_dec Byte.byte_eq_dec.
Definition handle_dec : forall a b : handle, {a = b} + {a <> b}.
Proof. decide equality; [apply Nat.eq_dec|apply bytes_dec]. Defined.
Definition same (a b : handle) : bool := if handle_dec a b then true else false.

(** The n-th call to the operating system succeeded and gave an id that is not zero. *)
Definition created (os : nat -> reply) (n : nat) : bool := rp_ok (os n) && negb (zeros (rp_id (os n))).

(** A program over handles: objects, calls, results seen. *)
Record hstore := HStore { h_objs : list (option handle); h_calls : nat; h_seen : list bool }.
Definition h_step (made : nat -> bool) (s : hstore) (o : rop) : option hstore :=
  let '(HStore L n tr) := s in
  match o with
  | RDefault | RNull => Some (HStore (L ++ [Some Null]) n tr)
  | RFrom id => Some (HStore (L ++ [Some (given id)]) n tr)
  | RNewCopy y => match at_ L y with
                  | Some a => Some (HStore (L ++ [Some a]) n tr) | None => None end
  | RNewMove y => match at_ L y with
                  | Some a => Some (HStore (put (L ++ [Some a]) y (Some Null)) n tr) | None => None end
  | RCopyTo x y => match at_ L x, at_ L y with
                   | Some _, Some a => Some (HStore (put L x (Some a)) n tr) | _, _ => None end
  | RMoveTo x y => match at_ L x, at_ L y with
                   | Some _, Some a => Some (HStore (put (put L x (Some a)) y (Some Null)) n tr) | _, _ => None end
  | RMake => if made n then Some (HStore (L ++ [Some (Made n)]) (S n) (tr ++ [true]))
             else Some (HStore L (S n) (tr ++ [false]))
  | RMakeTo x => match at_ L x with
                 | Some _ => if made n then Some (HStore (put L x (Some (Made n))) (S n) (tr ++ [true]))
                             else Some (HStore L (S n) (tr ++ [false]))
                 | None => None end
  | RDestroy x => match at_ L x with Some _ => Some (HStore (put L x None) n tr) | None => None end
  | REq x y => match at_ L x, at_ L y with
               | Some a, Some b => Some (HStore L n (tr ++ [same a b])) | _, _ => None end
  | RNe x y => match at_ L x, at_ L y with
               | Some a, Some b => Some (HStore L n (tr ++ [negb (same a b)])) | _, _ => None end
  | RBool x => match at_ L x with
               | Some a => Some (HStore L n (tr ++ [negb (same a Null)])) | None => None end
  end.
Fixpoint h_run (made : nat -> bool) (s : hstore) (p : list rop) : option hstore :=
  match p with
  | [] => Some s
  | o :: p' => match h_step made s o with Some s' => h_run made s' p' | None => None end
  end.
Definition h_start (k : rkind) : hstore :=
  match k with ERef => HStore [Some Null; Some (Given (id_sup ERef))] 0 [] | PRef => HStore [] 0 [] end.

(** The id a handle stands for. *)
Definition id_of (k : rkind) (os : nat -> reply) (h : handle) : list byte :=
  match h with Null => id_zero k | Made n => rp_id (os n) | Given id => id end.

(** Ids given by a program. *)
Definition gives_id (o : rop) : list (list byte) := match o with RFrom id => [id] | _ => [] end.
Definition given_ids (k : rkind) (p : list rop) : list (list byte) :=
  match k with ERef => [id_sup ERef] | PRef => [] end ++ flat_map gives_id p.
(** package_ref has no make_ref. *)
Definition makes (o : rop) : bool := match o with RMake | RMakeTo _ => true | _ => false end.
Definition for_kind (k : rkind) (p : list rop) : Prop :=
  (forall id, In id (given_ids k p) -> len id = rsize k) /\
  (k = PRef -> forall o, In o p -> makes o = false).
(** ::UuidCreate stores 16 bytes. *)
Definition os_sized (os : nat -> reply) : Prop := forall n, len (rp_id (os n)) = 16.
(** In the calls the program makes, ::UuidCreate never gives the same id twice, nor one the program got
    otherwise. *)
Definition os_fresh (k : rkind) (os : nat -> reply) (p : list rop) : Prop :=
  (forall n m, (n < length p)%nat -> (m < length p)%nat -> created os n = true -> created os m = true ->
     rp_id (os n) = rp_id (os m) -> n = m) /\
  (forall n, (n < length p)%nat -> created os n = true -> ~ In (rp_id (os n)) (given_ids k p)).
