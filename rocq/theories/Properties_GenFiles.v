(** * Properties_GenFiles: C46, the generator's output files survive interruptions of the generator. *)
From Verif Require Import Base GenFiles GenFilesSpec GenFilesFacts.
Local Open Scope nat_scope.

(** A run that finishes leaves every target showing exactly its text: untouched if it showed the text before, otherwise
    a read-only file of exactly the bytes of the text; no other file is touched. *)
Theorem C46_complete : forall pl chunk targets k fs fs', flushes chunk -> NoDup (map fst targets) ->
  generate pl chunk targets k fs = (true, fs') ->
  (forall p ls, In (p, ls) targets -> updated pl ls (fs p) (fs' p)) /\ (forall p, ~ In p (map fst targets) -> fs' p = fs p).
Proof. intros. destruct (t_complete pl chunk targets k fs fs') as (A & B & _); auto. Qed.
Print Assumptions C46_complete.
Theorem C46_shows : forall pl chunk targets k fs fs', flushes chunk -> NoDup (map fst targets) ->
  (forall p ls, In (p, ls) targets -> plain ls) -> generate pl chunk targets k fs = (true, fs') ->
  forall p ls, In (p, ls) targets -> exists f, fs' p = Some f /\ shows f (text ls).
Proof. intros. eapply updated_shows; [apply plain_text; eauto|]. eapply t_complete; eauto. Qed.
Print Assumptions C46_shows.

(** Nothing but an interruption keeps a run from finishing, as long as the files can be read. *)
Theorem C46_finishes : forall pl chunk targets fs, flushes chunk -> readable fs ->
  exists k0, forall k, k0 <= k -> exists fs', generate pl chunk targets k fs = (true, fs').
Proof. exact t_finishes. Qed.
Print Assumptions C46_finishes.

(** A run that is interrupted, anywhere, has completed some targets, is halfway with one and has not touched the rest. *)
Theorem C46_interrupted : forall pl chunk targets k fs fs', flushes chunk -> NoDup (map fst targets) -> readable fs ->
  generate pl chunk targets k fs = (false, fs') ->
  exists done p ls rest, targets = done ++ (p, ls) :: rest /\
    (forall q l, In (q, l) done -> updated pl l (fs q) (fs' q)) /\ halfway pl ls (fs p) (fs' p) /\
    (forall q, q <> p -> ~ In q (map fst done) -> fs' q = fs q).
Proof. exact t_stopped. Qed.
Print Assumptions C46_interrupted.

(** Running the generator again after a finished run touches nothing. *)
Theorem C46_again : forall pl chunk chunk' targets k fs fs', flushes chunk -> NoDup (map fst targets) ->
  (forall p ls, In (p, ls) targets -> plain ls) -> generate pl chunk targets k fs = (true, fs') ->
  exists fs'', generate pl chunk' targets 0 fs' = (true, fs'') /\ forall q, fs'' q = fs' q.
Proof. exact t_again. Qed.
Print Assumptions C46_again.

(** Windows: after any number of runs, of any versions of the generator, each interrupted anywhere or finished, a run that
    is not interrupted finishes and every target shows its text. *)
Theorem C46_recovers : forall chunk targets fs fs1, readable fs -> runs Windows fs fs1 -> flushes chunk ->
  NoDup (map fst targets) -> (forall p ls, In (p, ls) targets -> plain ls) ->
  exists k0, forall k, k0 <= k -> exists fs2, generate Windows chunk targets k fs1 = (true, fs2) /\
    forall p ls, In (p, ls) targets -> exists f, fs2 p = Some f /\ shows f (text ls).
Proof. exact t_recovers. Qed.
Print Assumptions C46_recovers.

(** Inlined files: the lines of the file without their trailing white space; they are fit for output, and inlining what
    was written from them gives them again. *)
Theorem C46_inline : forall f, exists ls, lines_of (from_disk (f_bytes f)) ls /\
  Forall2 (fun l m => exists s, l = m ++ s /\ blank s /\ stripped m /\ ~ In LF m /\ ~ In CR m) ls (inline_file f).
Proof. exact t_inline. Qed.
Print Assumptions C46_inline.
Theorem C46_inline_again : forall pl f r w, plain (inline_file f) /\ inline_file (File (to_disk pl (text (inline_file f))) r w) = inline_file f.
Proof. intros. split; [apply t_inline_plain|apply t_inline_again]. Qed.
Print Assumptions C46_inline_again.

(** ** Findings *)
Definition one (d : list byte) : list (list byte) := [d].
Definition path0 : list byte := [x61; x2e; x68].
Definition old0 : file := File [x61; CR; LF] true false.
Definition fs0 : files := set_file path0 (Some old0) (fun _ => None).
Definition new0 : list (list byte) := [[x62; x63]; [x64]].
(** The replacement is not atomic: interrupted after two effects, a run leaves no file at all. *)
Theorem C46_atomic_refuted : exists fs', generate Windows one [(path0, new0)] 2 fs0 = (false, fs') /\ fs' path0 = None.
Proof. eexists. split; [vm_compute; reflexivity|]. vm_compute. reflexivity. Qed.
Print Assumptions C46_atomic_refuted.
(** Interrupted before the last effect, the file is complete but not read-only, and no later run makes it so. *)
Theorem C46_readonly_refuted : exists fs' f, generate Windows one [(path0, new0)] 4 fs0 = (false, fs') /\ fs' path0 = Some f /\ f_write f = true /\
  forall k, exists fs'', generate Windows one [(path0, new0)] k fs' = (true, fs'') /\ fs'' path0 = Some f.
Proof. eexists _, _. split; [vm_compute; reflexivity|]. split; [vm_compute; reflexivity|]. split; [reflexivity|]. intros k. eexists. split; [vm_compute; reflexivity|]. vm_compute. reflexivity. Qed.
Print Assumptions C46_readonly_refuted.
(** On Posix a run interrupted between chmod and remove makes every later run fail. *)
Theorem C46_posix_stuck_refuted : exists fs', generate Posix one [(path0, new0)] 1 fs0 = (false, fs') /\
  forall k, generate Posix one [(path0, new0)] k fs' = (false, fs').
Proof. eexists. split; [vm_compute; reflexivity|]. intros k. vm_compute. reflexivity. Qed.
Print Assumptions C46_posix_stuck_refuted.
(** A carriage return in a line makes the file be rewritten by every run. *)
Theorem C46_carriage_return_refuted : exists fs' fs'', generate Windows one [(path0, [[x61; CR]])] 9 fs0 = (true, fs') /\
  generate Windows one [(path0, [[x61; CR]])] 2 fs' = (false, fs'') /\ fs'' path0 = None.
Proof. eexists _, _. split; [vm_compute; reflexivity|]. split; [vm_compute; reflexivity|]. vm_compute. reflexivity. Qed.
Print Assumptions C46_carriage_return_refuted.

(** ** The hypotheses are met: two targets, an interrupted run and a finished one *)
Definition path1 : list byte := [x62].
Example hypotheses46 : flushes one /\ readable fs0 /\ NoDup (map fst [(path0, new0); (path1, new0)]) /\ plain new0 /\
  exists fs1 fs2 f, generate Windows one [(path0, new0); (path1, new0)] 6 fs0 = (false, fs1) /\ runs Windows fs0 fs1 /\
    generate Windows one [(path0, new0); (path1, new0)] 5 fs1 = (true, fs2) /\ fs2 path1 = Some f /\ f_bytes f = [x62; x63; CR; LF; x64; CR; LF] /\ f_write f = false.
Proof.
  split; [intros d; cbn; apply app_nil_r|]. split.
  { intros p f. unfold fs0, set_file. destruct (path_eqb p path0); [|discriminate]. intros E. injection E as <-. reflexivity. }
  split; [repeat constructor; cbn; intuition discriminate|]. split; [intros l Hl X; cbn in Hl; destruct Hl as [<-|[<-|[]]]; cbn in X; intuition discriminate|].
  eexists _, _, _. split; [vm_compute; reflexivity|]. split; [eapply (runs_more _ _ _ one [(path0, new0); (path1, new0)] 6); [constructor|intros d; cbn; apply app_nil_r|vm_compute; reflexivity]|].
  split; [vm_compute; reflexivity|]. split; [vm_compute; reflexivity|]. split; reflexivity.
Qed.
