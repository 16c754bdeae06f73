(** * Validator: EntityValidator. Model of ISD/ISD_EntityValidator.h. *)
From Verif Require Import Base.
Open Scope N_scope.

(** ValidationError ids, ISD/ISD_EntityValidator.h:10-19. *)
Definition InvalidCount : N := 0x01.
Definition NullNotAllowed : N := 0x02.
Definition MissingObject : N := 0x04.
Definition InvalidObject : N := 0x08.
Definition InvalidSetup : N := 0x10.
Definition InvalidValue : N := 0x20.

(** The members, ISD/ISD_EntityValidator.h:23-24: uint (32 bits) and u64. *)
Record validator := Validator { ErrorCount : N; ErrorIds : N }.
Definition new_validator : validator := Validator 0 0.
(** ReportError, lines 27-33. The output to std::cout is not modelled. *)
Definition report_error (id : N) (v : validator) : validator :=
  Validator ((ErrorCount v + 1) mod 2^32) (N.lor (ErrorIds v) id).
(** ClearErrorCount, line 35. *)
Definition clear_error_count (v : validator) : validator := Validator 0 (ErrorIds v).

(** The functions called Validate are modelled as returning the ids they report, in order; this is the
    validator after such a function. *)
Definition report_all (log : list N) (v : validator) : validator :=
  fold_left (fun v id => report_error id v) log v.
