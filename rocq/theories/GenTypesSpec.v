(** * GenTypesSpec: what the numbers of the data types are, and what a lookup has to find. Nothing here refers to
    GenTypes.v. *)
From Verif Require Import Base.
Local Open Scope N_scope.

(** [numbered types d a]: the variant [a] of the list [types] has the number [d]: variant j of base type i, counted from
    0, has the number 16 (i + 1) + j + 1. *)
Definition numbered {A} (types : list (list A)) (d : N) (a : A) : Prop :=
  exists i j vs, nth_error types i = Some vs /\ nth_error vs j = Some a /\ d = 16 * (N.of_nat i + 1) + (N.of_nat j + 1).
(** No two variants have the same number: two places in the list with the same number are the same place. *)
Definition numbers_unique {A} (types : list (list A)) : Prop :=
  forall i j i' j' vs vs' a a', nth_error types i = Some vs -> nth_error vs j = Some a ->
    nth_error types i' = Some vs' -> nth_error vs' j' = Some a' ->
    16 * (N.of_nat i + 1) + (N.of_nat j + 1) = 16 * (N.of_nat i' + 1) + (N.of_nat j' + 1) -> i = i' /\ j = j'.
(** The number of combinations of a variant and a container. *)
Definition variants {A} (types : list (list A)) : nat := fold_right (fun vs n => (length vs + n)%nat) 0%nat types.
Definition combinations {A C} (types : list (list A)) (conts : list (N * C)) : nat := (variants types * length conts)%nat.
(** The list [later] was made from [types] by adding base types at the end, and variants at the end of base types. *)
Inductive extends {A} : list (list A) -> list (list A) -> Prop :=
| ext_end : forall more, extends [] more
| ext_type : forall vs more types later, extends types later -> extends (vs :: types) ((vs ++ more) :: later).
