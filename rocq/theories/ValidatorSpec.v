(** * ValidatorSpec: histories of a validator. Specification. *)
From Verif Require Import Base Validator.
Open Scope N_scope.

(** Histories of a validator: reports and ClearErrorCount, in order. *)
Inductive vop := Report (id : N) | ClearCount.
Definition v_apply (v : validator) (o : vop) : validator :=
  match o with Report id => report_error id v | ClearCount => clear_error_count v end.
Definition v_run (h : list vop) : validator := fold_left v_apply h new_validator.
(** The ids reported; those reported after the last ClearErrorCount. *)
Definition reported (h : list vop) : list N := flat_map (fun o => match o with Report id => [id] | _ => [] end) h.
Definition since_clear (h : list vop) : list N :=
  fold_left (fun l o => match o with Report id => l ++ [id] | ClearCount => [] end) h [].

