(** * ContainerSpec: what programs over container variables should do. Specification. *)
From Verif Require Import Base Containers.

(** One statement of a program over container variables holding contents of type [A]
    (variables are numbered in order of construction). *)
Inductive cop (A : Type) :=
| New                          (* T x; *)
| NewWith (a : A)              (* T x( a ); *)
| NewCopy (j : nat)            (* T x( y ); *)
| NewMove (j : nat)            (* T x( std::move( y ) ); *)
| CopyTo (i j : nat)           (* x = y; *)
| MoveTo (i j : nat)           (* x = std::move( y ); *)
| Reset (i : nat)              (* x.reset(); or x.clear(); *)
| SetDefault (i : nat)         (* x.set(); *)
| SetTo (i : nat) (a : A)      (* x.set( a ); or x.set( values , index ); *)
| SetWhole (i : nat) (a : A)   (* x.set( idx_vector ); *)
| Store (i : nat) (a : A).     (* x.value() = a; x.vector() = a; and so on *)
Arguments New {A}. Arguments NewWith {A}. Arguments NewCopy {A}. Arguments NewMove {A}. Arguments CopyTo {A}.
Arguments MoveTo {A}. Arguments Reset {A}. Arguments SetDefault {A}. Arguments SetTo {A}.
Arguments SetWhole {A}. Arguments Store {A}.

(** A kind of variable: [inj] makes a state of a content, [none] is the state without content, [self]
    what moving a variable to itself leaves, [dflt] the content set() gives, [offers] the statements the
    class has, [filled] the states whose content may be stored into. *)
Record kind (A S : Type) := Kind {
  inj : A -> S; none : S; self : S -> S; dflt : A; offers : cop A -> bool; filled : S -> bool }.
Arguments inj {A S}. Arguments none {A S}. Arguments self {A S}. Arguments dflt {A S}.
Arguments offers {A S}. Arguments filled {A S}. Arguments Kind {A S}.

Section Spec.
Context {A S : Type} (K : kind A S).
(** The statement on plain variables. *)
Definition spec_step (o : cop A) (l : list S) : list S :=
  match o with
  | New => l ++ [none K]
  | NewWith a => l ++ [inj K a]
  | NewCopy j => l ++ [nth j l (none K)]
  | NewMove j => put j (none K) l ++ [nth j l (none K)]
  | CopyTo i j => put i (nth j l (none K)) l
  | MoveTo i j => if Nat.eqb i j then put i (self K (nth i l (none K))) l
                  else put j (none K) (put i (nth j l (none K)) l)
  | Reset i => put i (none K) l
  | SetDefault i => put i (inj K (dflt K)) l
  | SetTo i a | SetWhole i a => put i (inj K a) l
  | Store i a => put i (inj K a) l
  end.

(** The class has the statement, the variables named exist, and a store goes to a filled one. *)
Definition legal_step (o : cop A) (l : list S) : Prop :=
  offers K o = true /\
  match o with
  | New | NewWith _ => True
  | NewCopy j | NewMove j | Reset j | SetDefault j | SetTo j _ | SetWhole j _ => j < length l
  | CopyTo i j | MoveTo i j => i < length l /\ j < length l
  | Store i _ => i < length l /\ filled K (nth i l (none K)) = true
  end.
Fixpoint legal (p : list (cop A)) (l : list S) : Prop :=
  match p with [] => True | o :: p' => legal_step o l /\ legal p' (spec_step o l) end.
Definition spec_run (p : list (cop A)) (l : list S) : list S :=
  fold_left (fun l o => spec_step o l) p l.
End Spec.

Definition filled_opt {S} (o : option S) : bool := match o with Some _ => true | None => false end.
(** The four containers. optional_value keeps its value when moved to itself; the others end up
    without value (idx_vector: with whatever the vectors hold after a self move). *)
Definition value_kind {T} (d : T) : kind T (option T) :=
  Kind Some None (fun x => x) d (fun o => match o with SetWhole _ _ => false | _ => true end) filled_opt.
Definition vector_kind {T} : kind (list T) (option (list T)) :=
  Kind Some None (fun _ => None) [] (fun o => match o with SetWhole _ _ | NewWith _ => false | _ => true end) filled_opt.
Definition idx_kind {T} (sm : list T -> list T) (smx : list N -> list N) : kind (list T * list N) (list T * list N) :=
  Kind (fun a => a) ([], []) (fun c => (sm (fst c), smx (snd c))) ([], [])
    (fun o => match o with SetDefault _ | SetTo _ _ | SetWhole _ _ | NewWith _ => false | _ => true end) (fun _ => true).
Definition opt_idx_kind {T} : kind (list T * list N) (option (list T * list N)) :=
  Kind Some None (fun _ => None) ([], []) (fun o => match o with NewWith _ => false | _ => true end) filled_opt.

(** Run a program: every statement must be carried out. *)
Fixpoint crun {O St} (step : O -> St -> res St) (p : list O) (s : St) : res St :=
  match p with [] => Done s | o :: p' => do s1 <- step o s; crun step p' s1 end.

(** The four containers as programs; statements a class does not have are [Undef]. *)
Definition ov_step {T} (d : T) (o : cop T) (s : store T) : res (store T) :=
  match o with
  | New => ov_new s | NewWith v => ov_new_value v s | NewCopy j => ov_new_copy j s | NewMove j => ov_new_move j s
  | CopyTo i j => ov_copy_assign i j s | MoveTo i j => ov_move_assign i j s
  | Reset i => ov_reset i s | SetDefault i => ov_set_default d i s | SetTo i v => ov_set i v s
  | Store i v => ov_store i v s | SetWhole _ _ => Undef
  end.
Definition ovx_step {T} (sm : list T -> list T) (o : cop (list T)) (s : list (ovec T)) : res (list (ovec T)) :=
  match o with
  | New => ovx_new s | NewCopy j => ovx_new_copy j s | NewMove j => ovx_new_move j s
  | CopyTo i j => ovx_copy_assign i j s | MoveTo i j => ovx_move_assign sm i j s
  | Reset i => ovx_reset i s | SetDefault i => ovx_set i s | SetTo i v => ovx_set_values i v s
  | Store i v => ovx_store i v s | NewWith _ | SetWhole _ _ => Undef
  end.
Definition ivx_step {T} (sm : list T -> list T) (smx : list N -> list N) (o : cop (list T * list N))
  (s : list (ivec T)) : res (list (ivec T)) :=
  match o with
  | New => ivx_new s | NewCopy j => ivx_new_copy j s | NewMove j => ivx_new_move j s
  | CopyTo i j => ivx_copy_assign i j s | MoveTo i j => ivx_move_assign sm smx i j s
  | Reset i => ivx_clear i s | Store i (v, x) => ivx_store i v x s
  | NewWith _ | SetDefault _ | SetTo _ _ | SetWhole _ _ => Undef
  end.
Definition oix_step {T} (sm : list T -> list T) (smx : list N -> list N) (o : cop (list T * list N))
  (s : list (oivec T)) : res (list (oivec T)) :=
  match o with
  | New => oix_new s | NewCopy j => oix_new_copy j s | NewMove j => oix_new_move j s
  | CopyTo i j => oix_copy_assign i j s | MoveTo i j => oix_move_assign sm smx i j s
  | Reset i => oix_reset i s | SetDefault i => oix_set i s
  | SetTo i (v, x) => oix_set_values i v x s | SetWhole i (v, x) => oix_set_vector i (IVec v x) s
  | Store i (v, x) => oix_store i (IVec v x) s | NewWith _ => Undef
  end.

(** What a user sees of a variable through has_value and value / vector / values and index. *)
Definition ov_look {T} (s : store T) (i : nat) : res (option T) :=
  do b <- ov_has_value i s; if (b : bool) then do v <- ov_value i s; Done (Some v) else Done None.
Definition ovx_look {T} (o : ovec T) : option (list T) := if ov_has o then Some (ov_vec o) else None.
Definition ivx_look {T} (o : ivec T) : list T * list N := (iv_values o, iv_index o).
Definition oix_look {T} (o : oivec T) : option (list T * list N) :=
  if oi_has o then Some (ivx_look (oi_vec o)) else None.

(** Objects on the free store. *)
Definition live {T} (s : store T) : nat :=
  length (filter (fun c => match c with Some _ => true | None => false end) (cells s)).

(** Equality of contents: both without value, or both with equal values. *)
Definition opt_same {S} (eqb : S -> S -> bool) (a b : option S) : bool :=
  match a, b with Some x, Some y => eqb x y | None, None => true | _, _ => false end.
(** Item by item, same length. *)
Definition list_same {S} (eqb : S -> S -> bool) (a b : list S) : Prop :=
  length a = length b /\ forall n x y, nth_error a n = Some x -> nth_error b n = Some y -> eqb x y = true.
Definition equivalence {S} (eqb : S -> S -> bool) : Prop :=
  (forall x, eqb x x = true) /\ (forall x y, eqb x y = eqb y x) /\
  (forall x y z, eqb x y = true -> eqb y z = true -> eqb x z = true).
