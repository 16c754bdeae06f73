(** * C30: the counters of EntityValidator. *)
From Verif Require Import Base Validator ValidatorSpec ValidatorFacts.
Open Scope N_scope.

(** C30: the error count is the number of errors reported since the last ClearErrorCount (modulo 2^32:
    it is a 32 bit counter). *)
Theorem C30_error_count : forall h, ErrorCount (v_run h) = len (since_clear h) mod 2^32.
Proof. exact run_count. Qed.
Print Assumptions C30_error_count.

(** C30: the error ids are exactly the union of all ids ever reported. *)
Theorem C30_error_ids : forall h i,
  N.testbit (ErrorIds (v_run h)) i = true <-> exists id, In id (reported h) /\ N.testbit id i = true.
Proof. exact run_ids. Qed.
Print Assumptions C30_error_ids.

(** C30: the ids tell which errors were reported: as long as only the documented errors are reported, the
    bit of an error is set exactly if that error was. *)
Definition documented : list N := [InvalidCount; NullNotAllowed; MissingObject; InvalidObject; InvalidSetup; InvalidValue].
Theorem C30_ids_tell_errors : forall h, (forall id, In id (reported h) -> In id documented) ->
  forall x, In x documented -> (N.land (ErrorIds (v_run h)) x <> 0 <-> In x (reported h)).
Proof.
  intros h Hd x Hx. assert (B : exists i, x = 2 ^ i /\ forall id, In id documented -> N.testbit id i = true -> id = x).
  { cbn in Hx. destruct Hx as [<-|[<-|[<-|[<-|[<-|[<-|[]]]]]]];
      [exists 0|exists 1|exists 2|exists 3|exists 4|exists 5]; (split; [reflexivity|]);
      intros id [<-|[<-|[<-|[<-|[<-|[<-|[]]]]]]]; intros H; (reflexivity || discriminate H). }
  destruct B as (i & -> & U). split.
  - intros H. assert (T : N.testbit (ErrorIds (v_run h)) i = true).
    { destruct (N.testbit (ErrorIds (v_run h)) i) eqn:E; [reflexivity|]. exfalso. apply H. apply N.bits_inj. intros j.
      rewrite N.land_spec, N.bits_0, N.pow2_bits_eqb. destruct (N.eqb_spec i j) as [<-|_]; [rewrite E; reflexivity|apply andb_false_r]. }
    apply run_ids in T. destruct T as (id & Hi & T). rewrite <- (U id (Hd id Hi) T). exact Hi.
  - intros H E. apply (f_equal (fun n => N.testbit n i)) in E. rewrite N.land_spec, N.bits_0, N.pow2_bits_true, andb_true_r in E.
    assert (T : N.testbit (ErrorIds (v_run h)) i = true) by (apply run_ids; exists (2 ^ i); split; [exact H|apply N.pow2_bits_true]).
    rewrite T in E. discriminate.
Qed.
Print Assumptions C30_ids_tell_errors.

(** C30, finding: "since the last clear" is false for the ids: ClearErrorCount keeps them. *)
Theorem C30_clear_keeps_ids_refuted :
  let h := [Report InvalidCount; ClearCount] in
  since_clear h = [] /\ ErrorCount (v_run h) = 0 /\ ErrorIds (v_run h) = InvalidCount.
Proof. repeat split; reflexivity. Qed.
Print Assumptions C30_clear_keeps_ids_refuted.

Example C30_example : let h := [Report InvalidCount; ClearCount; Report InvalidValue; Report MissingObject] in
  ErrorCount (v_run h) = 2 /\ ErrorIds (v_run h) = 0x25 /\ N.testbit (ErrorIds (v_run h)) 5 = true.
Proof. repeat split; reflexivity. Qed.
