(** * GenRWParse: the text of the generated functions, parsed. Proofs. *)
From Coq Require Import Strings.String Strings.Ascii.
From Verif Require Import Base Types EntityReader GenText CppText CppSem GenTextSpec GenLex GenParse GenRW CppFun GenRWSpec GenRWAst.
Local Open Scope string_scope.
Local Open Scope list_scope.

(** The tokens [ts] at depth [d] hold the specialisations [ss]. *)
Definition gives (d : nat) (ts : list tok) (ss : list spec) : Prop :=
  exists v, (forall rest, segs d None (ts ++ rest) = option_map (app v) (segs d None rest)) /\ specs_of d v = Some ss.
Lemma specs_app d v w : specs_of d (v ++ w) = match specs_of d v, specs_of d w with Some a, Some b => Some (a ++ b) | _, _ => None end.
Proof.
  induction v as [|[a ts] v IH]; cbn [app specs_of]; [destruct (specs_of d w); reflexivity|].
  destruct (Nat.eqb a d); [|reflexivity]. destruct (whole_spec ts) as [s|]; [|reflexivity].
  rewrite IH. destruct (specs_of d v); [|reflexivity]. destruct (specs_of d w); reflexivity.
Qed.
Lemma gives_nil d : gives d [] [].
Proof. exists []. split; [|reflexivity]. intros rest. cbn [app]. destruct (segs d None rest); reflexivity. Qed.
Lemma gives_app d a b x y : gives d a x -> gives d b y -> gives d (a ++ b) (x ++ y).
Proof.
  intros (v & A & B) (w & C & D). exists (v ++ w). split.
  - intros rest. rewrite <- app_assoc, A, C. destruct (segs d None rest); cbn; [|reflexivity]. rewrite app_assoc. reflexivity.
  - rewrite specs_app, B, D. reflexivity.
Qed.
Lemma gives_flat {A} d (f : A -> list tok) (g : A -> list spec) l :
  (forall x, In x l -> gives d (f x) (g x)) -> gives d (flat_map f l) (flat_map g l).
Proof.
  induction l as [|x l IH]; intros H; cbn [flat_map]; [apply gives_nil|].
  apply gives_app; [apply H; left; reflexivity|]. apply IH. intros y i. apply H. right. exact i.
Qed.
Lemma gives_one d ts seg s :
  (forall rest, segs d None (ts ++ rest) = match segs d None rest with Some u => Some ((d, seg) :: u) | None => None end) ->
  whole_spec seg = Some s -> gives d ts [s].
Proof.
  intros A B. exists [(d, seg)]. split.
  - intros rest. rewrite A. destruct (segs d None rest); reflexivity.
  - cbn. rewrite Nat.eqb_refl, B. reflexivity.
Qed.
(** A file: its beginning leads to depth [d], its end back. *)
Lemma file_gives d lines pre mid post ss :
  tokens lines = pre ++ mid ++ post -> (forall rest, segs 0 None (pre ++ rest) = segs d None rest) -> segs d None post = Some [] ->
  gives d mid ss -> file_specs d lines = Some ss.
Proof.
  intros E A B (v & C & D). unfold file_specs. rewrite E, A, C, B. cbn. rewrite app_nil_r. exact D.
Qed.

(** A name as a token. *)
Definition tgood (n : string) : Prop := good n (Id n) \/ (n = "bool" /\ good "bool" (Kw KBool)).
Lemma name_good n : name_ok n -> tgood n.
Proof.
  intros [[H|H] _]; [left; exact (good_ident n H)|]. unfold type_words in H.
  repeat (destruct H as [<-|H]; [solve [left; split; [reflexivity|split; [discriminate|reflexivity]]
    | right; split; [reflexivity|split; [reflexivity|split; [discriminate|reflexivity]]]]|]).
  destruct H.
Qed.
Lemma good_VT b : all_chars id_char b = true -> good ("VT_" ^^ b) (Id ("VT_" ^^ b)).
Proof. intros H. split; [exact H|]. split; [discriminate|reflexivity]. Qed.
Lemma good_VTA b : all_chars id_char b = true -> good ("VT_Array_" ^^ b) (Id ("VT_Array_" ^^ b)).
Proof. intros H. split; [exact H|]. split; [discriminate|reflexivity]. Qed.

Ltac seg_of l := lazymatch l with Id "template" :: ?r => r end.
Ltac one_spec :=
  unfold tokens; cbn [map app]; lex_all;
  match goal with
  | |- gives _ ?l _ =>
    let l' := eval vm_compute in l in change l with l';
    let r := seg_of l' in
    apply gives_one with (seg := r); [intros rest; vm_compute; reflexivity | vm_compute; reflexivity]
  end.
Lemma g_w_over_none T I : tgood T -> tgood I -> gives 1 (tokens (w_over_none T I)) [a_w_over_none T I].
Proof.
  intros [G1|[-> G1]] [G2|[-> G2]]; unfold w_over_none; one_spec.
Qed.
Lemma g_w_plain_none V T : good V (Id V) -> tgood T -> gives 1 (tokens (w_plain_none V T)) [a_w_plain_none V T].
Proof.
  intros H0 [G1|[-> G1]]; unfold w_plain_none; one_spec.
Qed.
Lemma g_r_over_none T I : tgood T -> tgood I -> gives 1 (tokens (r_over_none T I)) [a_r_over_none T I].
Proof.
  intros [G1|[-> G1]] [G2|[-> G2]]; unfold r_over_none; one_spec.
Qed.
Lemma g_r_plain_none V T : good V (Id V) -> tgood T -> gives 1 (tokens (r_plain_none V T)) [a_r_plain_none V T].
Proof.
  intros H0 [G1|[-> G1]]; unfold r_plain_none; one_spec.
Qed.
Lemma g_w_over_opt T I : tgood T -> tgood I -> gives 1 (tokens (w_over_opt T I)) [a_w_over_opt T I].
Proof.
  intros [G1|[-> G1]] [G2|[-> G2]]; unfold w_over_opt; one_spec.
Qed.
Lemma g_w_plain_opt V T : good V (Id V) -> tgood T -> gives 1 (tokens (w_plain_opt V T)) [a_w_plain_opt V T].
Proof.
  intros H0 [G1|[-> G1]]; unfold w_plain_opt; one_spec.
Qed.
Lemma g_r_over_opt T I : tgood T -> tgood I -> gives 1 (tokens (r_over_opt T I)) [a_r_over_opt T I].
Proof.
  intros [G1|[-> G1]] [G2|[-> G2]]; unfold r_over_opt; one_spec.
Qed.
Lemma g_r_plain_opt V T : good V (Id V) -> tgood T -> gives 1 (tokens (r_plain_opt V T)) [a_r_plain_opt V T].
Proof.
  intros H0 [G1|[-> G1]]; unfold r_plain_opt; one_spec.
Qed.
Lemma g_w_over_vec T I : tgood T -> tgood I -> gives 1 (tokens (w_over_vec T I)) [a_w_over_vec T I].
Proof.
  intros [G1|[-> G1]] [G2|[-> G2]]; unfold w_over_vec; one_spec.
Qed.
Lemma g_w_plain_vec V T : good V (Id V) -> tgood T -> gives 1 (tokens (w_plain_vec V T)) [a_w_plain_vec V T].
Proof.
  intros H0 [G1|[-> G1]]; unfold w_plain_vec; one_spec.
Qed.
Lemma g_r_over_vec T I : tgood T -> tgood I -> gives 1 (tokens (r_over_vec T I)) [a_r_over_vec T I].
Proof.
  intros [G1|[-> G1]] [G2|[-> G2]]; unfold r_over_vec; one_spec.
Qed.
Lemma g_r_plain_vec V A T : good V (Id V) -> good A (Id A) -> tgood T -> gives 1 (tokens (r_plain_vec V A T)) [a_r_plain_vec V A T].
Proof.
  intros H0 H1 [G1|[-> G1]]; unfold r_plain_vec; one_spec.
Qed.
Lemma g_w_over_optvec T I : tgood T -> tgood I -> gives 1 (tokens (w_over_optvec T I)) [a_w_over_optvec T I].
Proof.
  intros [G1|[-> G1]] [G2|[-> G2]]; unfold w_over_optvec; one_spec.
Qed.
Lemma g_w_plain_optvec V T : good V (Id V) -> tgood T -> gives 1 (tokens (w_plain_optvec V T)) [a_w_plain_optvec V T].
Proof.
  intros H0 [G1|[-> G1]]; unfold w_plain_optvec; one_spec.
Qed.
Lemma g_r_over_optvec T I : tgood T -> tgood I -> gives 1 (tokens (r_over_optvec T I)) [a_r_over_optvec T I].
Proof.
  intros [G1|[-> G1]] [G2|[-> G2]]; unfold r_over_optvec; one_spec.
Qed.
Lemma g_r_plain_optvec V A T : good V (Id V) -> good A (Id A) -> tgood T -> gives 1 (tokens (r_plain_optvec V A T)) [a_r_plain_optvec V A T].
Proof.
  intros H0 H1 [G1|[-> G1]]; unfold r_plain_optvec; one_spec.
Qed.
Lemma g_w_over_idx T I : tgood T -> tgood I -> gives 1 (tokens (w_over_idx T I)) [a_w_over_idx T I].
Proof.
  intros [G1|[-> G1]] [G2|[-> G2]]; unfold w_over_idx; one_spec.
Qed.
Lemma g_w_plain_idx V T : good V (Id V) -> tgood T -> gives 1 (tokens (w_plain_idx V T)) [a_w_plain_idx V T].
Proof.
  intros H0 [G1|[-> G1]]; unfold w_plain_idx; one_spec.
Qed.
Lemma g_r_over_idx T I : tgood T -> tgood I -> gives 1 (tokens (r_over_idx T I)) [a_r_over_idx T I].
Proof.
  intros [G1|[-> G1]] [G2|[-> G2]]; unfold r_over_idx; one_spec.
Qed.
Lemma g_r_plain_idx V A T : good V (Id V) -> good A (Id A) -> tgood T -> gives 1 (tokens (r_plain_idx V A T)) [a_r_plain_idx V A T].
Proof.
  intros H0 H1 [G1|[-> G1]]; unfold r_plain_idx; one_spec.
Qed.
Lemma g_w_over_optidx T I : tgood T -> tgood I -> gives 1 (tokens (w_over_optidx T I)) [a_w_over_optidx T I].
Proof.
  intros [G1|[-> G1]] [G2|[-> G2]]; unfold w_over_optidx; one_spec.
Qed.
Lemma g_w_plain_optidx V T : good V (Id V) -> tgood T -> gives 1 (tokens (w_plain_optidx V T)) [a_w_plain_optidx V T].
Proof.
  intros H0 [G1|[-> G1]]; unfold w_plain_optidx; one_spec.
Qed.
Lemma g_r_over_optidx T I : tgood T -> tgood I -> gives 1 (tokens (r_over_optidx T I)) [a_r_over_optidx T I].
Proof.
  intros [G1|[-> G1]] [G2|[-> G2]]; unfold r_over_optidx; one_spec.
Qed.
Lemma g_r_plain_optidx V A T : good V (Id V) -> good A (Id A) -> tgood T -> gives 1 (tokens (r_plain_optidx V A T)) [a_r_plain_optidx V A T].
Proof.
  intros H0 H1 [G1|[-> G1]]; unfold r_plain_optidx; one_spec.
Qed.
