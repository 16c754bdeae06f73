(** * C14: optional and indexed containers. *)
From Verif Require Import Base Containers ContainerSpec ContainerFacts OptionalValueFacts EqualityFacts.

(** C14: a program over optional_value variables behaves like one over plain optional variables:
    copies are independent, a move leaves the source without value (a move of a variable to itself
    changes nothing), no object is deleted twice or used after deletion (the run is [Done]) and none is
    leaked. *)
Theorem C14_optional_value : forall (T : Type) (d : T) (p : list (cop T)),
  legal (value_kind d) p [] ->
  exists s, crun (ov_step d) p (MkStore [] []) = Done s /\
    (forall i v, nth_error (spec_run (value_kind d) p []) i = Some v -> ov_look s i = Done v) /\
    live s = length (filter filled_opt (spec_run (value_kind d) p [])).
Proof. intros T d p H. exact (t_optional_value d p H). Qed.
Print Assumptions C14_optional_value.

(** C14: == of optional_values that hold [a] and [b], and of an optional_value and a plain value. *)
Theorem C14_optional_value_equality : forall (T : Type) (teq tne : T -> T -> bool) (s : store T) i j a b w,
  ov_look s i = Done a -> ov_look s j = Done b -> (forall x y, tne x y = negb (teq x y)) ->
  ov_eq teq i j s = Done (match a, b with Some x, Some y => teq x y | None, None => true | _, _ => false end) /\
  ov_ne tne i j s = Done (negb (match a, b with Some x, Some y => teq x y | None, None => true | _, _ => false end)) /\
  ov_eq_value teq i w s = Done (match a with Some x => teq x w | None => false end) /\
  ov_ne_value tne i w s = Done (negb (match a with Some x => teq x w | None => false end)) /\
  (equivalence teq -> equivalence (opt_same teq)).
Proof.
  intros T teq tne s i j a b w Ha Hb Hn.
  destruct (t_ov_eq teq tne s i j a b Ha Hb) as [E1 E2].
  destruct (t_ov_eq_value teq tne s i a w Ha) as [E3 E4].
  exact (conj E1 (conj (E2 Hn) (conj E3 (conj (E4 Hn) (opt_same_equiv teq))))).
Qed.
Print Assumptions C14_optional_value_equality.

(** C14: optional_vector, for every behaviour of a vector moved onto itself. *)
Theorem C14_optional_vector : forall (T : Type) (sm : list T -> list T) (p : list (cop (list T))),
  legal vector_kind p [] ->
  exists s, crun (ovx_step sm) p [] = Done s /\ map ovx_look s = spec_run vector_kind p [].
Proof. intros T sm p H. exact (t_ovec sm p [] H). Qed.
Print Assumptions C14_optional_vector.

Theorem C14_optional_vector_equality : forall (T : Type) (teq : T -> T -> bool),
  (forall a b : ovec T, ovx_eq teq a b = true <->
     match ovx_look a, ovx_look b with
     | Some x, Some y => list_same teq x y | None, None => True | _, _ => False end) /\
  (forall a b : ovec T, ovx_ne teq a b = negb (ovx_eq teq a b)) /\
  (equivalence teq -> equivalence (@ovx_eq T teq)).
Proof. intros T teq. exact (t_ovx_eq teq). Qed.
Print Assumptions C14_optional_vector_equality.

(** C14: idx_vector (no absent state: a moved-from or cleared one is empty). *)
Theorem C14_idx_vector : forall (T : Type) (sm : list T -> list T) (smx : list N -> list N) (p : list (cop (list T * list N))),
  legal (idx_kind sm smx) p [] ->
  exists s, crun (ivx_step sm smx) p [] = Done s /\ map ivx_look s = spec_run (idx_kind sm smx) p [].
Proof. intros T sm smx p H. exact (t_ivec sm smx p [] H). Qed.
Print Assumptions C14_idx_vector.

Theorem C14_idx_vector_equality : forall (T : Type) (teq : T -> T -> bool),
  (forall a b : ivec T, ivx_eq teq a b = true <->
     list_same teq (iv_values a) (iv_values b) /\ iv_index a = iv_index b) /\
  (forall a b : ivec T, ivx_ne teq a b = negb (ivx_eq teq a b)) /\
  (equivalence teq -> equivalence (@ivx_eq T teq)).
Proof. intros T teq. exact (t_ivx_eq teq). Qed.
Print Assumptions C14_idx_vector_equality.

(** C14: optional_idx_vector. *)
Theorem C14_optional_idx_vector : forall (T : Type) (sm : list T -> list T) (smx : list N -> list N) (p : list (cop (list T * list N))),
  legal opt_idx_kind p [] ->
  exists s, crun (oix_step sm smx) p [] = Done s /\ map oix_look s = spec_run opt_idx_kind p [].
Proof. intros T sm smx p H. exact (t_oivec sm smx p [] H). Qed.
Print Assumptions C14_optional_idx_vector.

Theorem C14_optional_idx_vector_equality : forall (T : Type) (teq : T -> T -> bool),
  (forall a b : oivec T, oix_eq teq a b = true <->
     match oix_look a, oix_look b with
     | Some (x, n), Some (y, m) => list_same teq x y /\ n = m | None, None => True | _, _ => False end) /\
  (forall a b : oivec T, oix_ne teq a b = negb (oix_eq teq a b)) /\
  (equivalence teq -> equivalence (@oix_eq T teq)).
Proof. intros T teq. exact (t_oix_eq teq). Qed.
Print Assumptions C14_optional_idx_vector_equality.

(** Witnesses: programs with copies, moves and self assignments are legal, and what they do. *)
Definition prog0 {A} (a b : A) : list (cop A) :=
  [New; SetTo 0 a; NewCopy 0; Store 1 b; CopyTo 0 0; NewMove 1; MoveTo 1 0; CopyTo 2 2; Reset 0; New; SetDefault 3].
Example prog0_legal : legal (value_kind 1%N) (prog0 5%N 7%N ++ [NewWith 2%N; MoveTo 4 4]) [].
Proof. cbn. repeat split; cbn; lia || reflexivity. Qed.
Example prog0_result : spec_run (value_kind 1%N) (prog0 5%N 7%N) [] = [None; Some 5%N; Some 7%N; Some 1%N].
Proof. reflexivity. Qed.
Example prog0_legal_vec : legal vector_kind (prog0 [5%N] [7%N]) [].
Proof. cbn. repeat split; cbn; lia || reflexivity. Qed.
Example prog0_result_vec : spec_run vector_kind (prog0 [5%N] [7%N]) [] = [None; Some [5%N]; Some [7%N]; Some []].
Proof. reflexivity. Qed.
Example prog0_legal_idx : legal (idx_kind (fun v : list N => v) (fun x => x))
  [New; Store 0 ([5%N], [0%N]); NewCopy 0; Store 1 ([7%N], []); CopyTo 0 0; NewMove 1; MoveTo 1 0; Reset 0] [].
Proof. cbn. repeat split; cbn; lia || reflexivity. Qed.
Example prog0_legal_oidx : legal opt_idx_kind
  (prog0 ([5%N], [0%N]) ([7%N], []) ++ [SetWhole 0 ([1%N; 2%N], [0%N; 1%N])]) [].
Proof. cbn. repeat split; cbn; lia || reflexivity. Qed.
