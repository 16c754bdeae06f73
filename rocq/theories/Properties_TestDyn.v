(** * Properties_TestDyn: what it takes for the generated test of the dynamic types to pass (C58). *)
From Verif Require Import Base Bytes Values Types ValueEq ValueEqSpec DynTypes TestValues TestDyn TestDynSpec TestDynFacts.
Open Scope N_scope.

(** The test for one type with one container, for everything that the generators can draw: it ends with a result, and passes
    exactly if the object it is made with has no NaN in it. *)
Theorem C58_dynamic_block t c vals ints : draw_ok t c vals ->
  exists b, dyn_block t c vals ints = Done b /\ (b = true <-> draw_clean t c vals).
Proof. exact (t_block t c vals ints). Qed.
Print Assumptions C58_dynamic_block.

(** The whole test, any number of passes over all data types with all containers. *)
Theorem C58_dynamic_test passes : (forall what, In what passes -> forall t c, draw_ok t c (fst (what (t, c)))) ->
  exists b, dyn_test passes = Done b /\
    (b = true <-> forall what, In what passes -> forall t c, draw_clean t c (fst (what (t, c)))).
Proof. exact (t_dyn_test passes). Qed.
Print Assumptions C58_dynamic_test.

(** A type without floats has no NaN: its test always passes. *)
Theorem C58_dynamic_no_floats t c vals ints : has_floats t = false -> draw_ok t c vals -> dyn_block t c vals ints = Done true.
Proof.
  intros F H. destruct (t_block t c vals ints H) as (b & E & Hb). rewrite E. f_equal. apply Hb.
  assert (A : forall x, clean t x).
  { intros x. unfold clean. destruct x; auto. unfold has_floats in F. apply negb_false_iff, N.eqb_eq in F. rewrite F. lia. }
  destruct c; cbn; try (apply Forall_forall; intros; apply A); intros; apply A.
Qed.
Print Assumptions C58_dynamic_no_floats.

(** The indices drawn for the indexed vectors do not get into the test: it is made with an empty index, whatever rand() returns. *)
Theorem C58_dynamic_coverage t c vals ints ints' : dyn_block t c vals ints = dyn_block t c vals ints' /\
  (forall v i, nonzero_content t c vals ints = Some (CIdx v i) -> i = []) /\
  (forall v i, nonzero_content t c vals ints = Some (COptIdx (Some (v, i))) -> i = []).
Proof.
  split; [destruct c; reflexivity|]. split; intros v i; destruct c; cbn; try discriminate; try (destruct (nonzero t vals); discriminate);
    intros H; injection H; auto.
Qed.
Print Assumptions C58_dynamic_coverage.

(** A value of every type: what the generators might draw after a zero. *)
Definition some_val (t : dtype) : val :=
  match dshape t with ShBool => VB true | ShString => VS [x61; x62] | ShPod k n => VP (rep x01 (n * ksize k)) end.
Definition some_draw (k : tclass) : list val * list N := ([val_default (dshape (fst k)); some_val (fst k)], [1; 0; 1]).
Example dynamic_1 : dyn_test [some_draw; some_draw] = Done true.
Proof. vm_compute. reflexivity. Qed.
Example dynamic_2 : forall t c, draw_ok t c (fst (some_draw (t, c))).
Proof.
  assert (V : forall t, val_ok t (some_val t)).
  { intros t. destruct t; try reflexivity; repeat match goal with x : isize |- _ => destruct x | x : dim |- _ => destruct x | x : fsize |- _ => destruct x end; reflexivity. }
  assert (N : forall t, ~ val_same t (some_val t) (val_default (dshape t))).
  { intros t S. apply ValueEqFacts.val_eq_iff in S; [|apply V|apply EntityReaderFacts.val_default_ok]. revert S.
    destruct t; repeat match goal with x : isize |- _ => destruct x | x : dim |- _ => destruct x | x : fsize |- _ => destruct x end; vm_compute; discriminate. }
  intros t c. split.
  - split; [|reflexivity]. constructor; [apply EntityReaderFacts.val_default_ok|]. constructor; [apply V|constructor].
  - destruct c; try discriminate; (exists (some_val t); split; [right; left; reflexivity|apply N]).
Qed.
(** With a NaN (the bits 7fc00001) it fails. *)
Example dynamic_3 : dyn_block (TFloat F32) CtVec [VP [x01; x00; xc0; x7f]] [] = Done false /\
  dyn_block (TFloat F32) CtVec [VP [x01; x00; x80; x3f]] [] = Done true.
Proof. vm_compute. auto. Qed.
