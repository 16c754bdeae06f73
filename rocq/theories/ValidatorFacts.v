(** * Proofs about EntityValidator. *)
From Verif Require Import Base Validator ValidatorSpec.
Open Scope N_scope.

Lemma run_count h : ErrorCount (v_run h) = len (since_clear h) mod 2^32.
Proof.
  unfold v_run, since_clear.
  assert (X : forall v l, ErrorCount v = len l mod 2^32 ->
    ErrorCount (fold_left v_apply h v) = len (fold_left (fun l o => match o with Report id => l ++ [id] | ClearCount => [] end) h l) mod 2^32).
  { induction h as [|o h IH]; intros v l H; [exact H|]. cbn [fold_left]. apply IH. destruct o; cbn [v_apply].
    - unfold report_error. cbn [ErrorCount]. rewrite H. unfold len. rewrite app_length. cbn [length].
      rewrite N.add_mod_idemp_l by discriminate. f_equal. lia.
    - reflexivity. }
  apply X. reflexivity.
Qed.
Lemma run_ids h i : N.testbit (ErrorIds (v_run h)) i = true <-> exists id, In id (reported h) /\ N.testbit id i = true.
Proof.
  unfold v_run.
  assert (X : forall v, N.testbit (ErrorIds (fold_left v_apply h v)) i = true <->
    N.testbit (ErrorIds v) i = true \/ exists id, In id (reported h) /\ N.testbit id i = true).
  { induction h as [|o h IH]; intros v; cbn [fold_left reported flat_map].
    - split; auto. intros [H|(id & [] & _)]; auto.
    - rewrite IH. fold (reported h). destruct o as [id|]; cbn [v_apply].
      + unfold report_error. cbn [ErrorIds app]. rewrite N.lor_spec, orb_true_iff. split.
        * intros [[H|H]|(d & H1 & H2)]; auto; right; [exists id|exists d]; split; auto; cbn; auto.
        * intros [H|(d & [<-|H1] & H2)]; auto. right. exists d; auto.
      + cbn [clear_error_count ErrorIds app]. reflexivity. }
  rewrite X. cbn. split; auto. intros [H|H]; auto. destruct i; discriminate.
Qed.

