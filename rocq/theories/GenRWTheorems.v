(** * GenRWTheorems: which specialisations the generated files contain and what they do. Proofs. *)
From Coq Require Import Strings.String Strings.Ascii.
From Verif Require Import Base Types EntityReader GenText CppText GenTextSpec GenRW CppFun GenRWSpec GenRWAst GenRWParse GenRWFile GenRWEval.
Local Open Scope string_scope.
Local Open Scope list_scope.
Local Open Scope nat_scope.

(** ** Types *)
Lemma type_of_inj a b c d : type_of a c = type_of b d -> a = b /\ c = d.
Proof. destruct c, d; cbn; intros H; try discriminate H; injection H as ->; auto. Qed.
Lemma cty_eqb_type a b c d : cty_eqb (type_of a c) (type_of b d) = true <-> a = b /\ c = d.
Proof.
  unfold type_of. split.
  - destruct c, d; cbn -[tyeqb]; rewrite ?Bool.andb_true_r; try (intros H; discriminate H); try (rewrite Bool.andb_false_r; intros H; discriminate H);
      intros H; split; try reflexivity; try (apply String.eqb_eq; exact H);
      repeat match goal with H : (_ && _)%bool = true |- _ => apply Bool.andb_true_iff in H; destruct H end; try discriminate;
      try (apply String.eqb_eq; assumption).
  - intros [-> ->]. destruct d; cbn -[tyeqb]; rewrite ?tyeqb_refl; reflexivity.
Qed.
Definition six : list ctype := [CtNone; CtOpt; CtVec; CtOptVec; CtIdx; CtOptIdx].
Lemma in_six c : In c six. Proof. destruct c; cbn; tauto. Qed.
Lemma nodup_six : NoDup six.
Proof. unfold six. repeat (constructor; [cbn; intuition discriminate|]). constructor. Qed.
Lemma nodup_app_intro {A} (a b : list A) : NoDup a -> NoDup b -> (forall x, In x a -> ~ In x b) -> NoDup (a ++ b).
Proof.
  intros Ha Hb D. induction a as [|x a IH]; cbn [app]; [exact Hb|]. inversion Ha as [|? ? N1 N2]; subst. constructor.
  - rewrite in_app_iff. intros [i|i]; [exact (N1 i)|]. exact (D x (or_introl eq_refl) i).
  - apply IH; [exact N2|]. intros y i. apply D. right. exact i.
Qed.
Lemma in_types t (l : list string) (cs : list ctype) :
  In t (flat_map (fun n => map (type_of n) cs) l) <-> exists n c, In n l /\ In c cs /\ t = type_of n c.
Proof.
  rewrite in_flat_map. split.
  - intros (n & i & j). apply in_map_iff in j. destruct j as (c & <- & j). exists n, c. auto.
  - intros (n & c & i & j & ->). exists n. split; [exact i|]. apply in_map. exact j.
Qed.
Lemma nodup_types (l : list string) (cs : list ctype) : NoDup l -> NoDup cs -> NoDup (flat_map (fun n => map (type_of n) cs) l).
Proof.
  intros H K. induction l as [|n l IH]; cbn [flat_map]; [constructor|]. inversion H as [|? ? N1 N2]; subst.
  specialize (IH N2). apply nodup_app_intro; [|exact IH|].
  - clear - K. induction K as [|c cs N K IH]; cbn [map]; constructor; [|exact IH]. intros i. apply in_map_iff in i.
    destruct i as (d & e & j). apply type_of_inj in e. destruct e as [_ ->]. exact (N j).
  - intros t i j. apply in_map_iff in i. destruct i as (c & <- & i). apply in_types in j. destruct j as (m & d & j & _ & e).
    apply type_of_inj in e. destruct e as [-> _]. exact (N1 j).
Qed.

(** ** The specialisations of a file *)
Definition impls (l : list base_type) : list string := map (fun e => vr_impl (snd e)) (entries l).
Lemma in_impls l t c : In t (map (fun n => type_of n c) (impls l)) <-> exists e, In e (entries l) /\ t = type_of (vr_impl (snd e)) c.
Proof.
  unfold impls. rewrite map_map, in_map_iff. split; intros (e & a & b); exists e; auto.
Qed.
Definition w_pick (b : base_type) (v : variant) (c : ctype) : spec :=
  let T := vr_impl v in let I := vr_item v in
  if vr_override v then
    match c with CtNone => a_w_over_none T I | CtOpt => a_w_over_opt T I | CtVec => a_w_over_vec T I | CtOptVec => a_w_over_optvec T I
               | CtIdx => a_w_over_idx T I | CtOptIdx => a_w_over_optidx T I end
  else
    let V := "VT_" ^^ bt_name b in let A := "VT_Array_" ^^ bt_name b in
    match c with CtNone => a_w_plain_none V T | CtOpt => a_w_plain_opt V T | CtVec => a_w_plain_vec A T | CtOptVec => a_w_plain_optvec A T
               | CtIdx => a_w_plain_idx A T | CtOptIdx => a_w_plain_optidx A T end.
Definition r_pick (b : base_type) (v : variant) (c : ctype) : spec :=
  let T := vr_impl v in let I := vr_item v in
  if vr_override v then
    match c with CtNone => a_r_over_none T I | CtOpt => a_r_over_opt T I | CtVec => a_r_over_vec T I | CtOptVec => a_r_over_optvec T I
               | CtIdx => a_r_over_idx T I | CtOptIdx => a_r_over_optidx T I end
  else
    let V := "VT_" ^^ bt_name b in let A := "VT_Array_" ^^ bt_name b in
    match c with CtNone => a_r_plain_none V T | CtOpt => a_r_plain_opt V T | CtVec => a_r_plain_vec V A T | CtOptVec => a_r_plain_optvec V A T
               | CtIdx => a_r_plain_idx V A T | CtOptIdx => a_r_plain_optidx V A T end.
Lemma w_specs_pick b v : w_specs b v = map (w_pick b v) six.
Proof. unfold w_specs, w_pick, six. destruct (vr_override v); reflexivity. Qed.
Lemma r_specs_pick b v : r_specs b v = map (r_pick b v) six.
Proof. unfold r_specs, r_pick, six. destruct (vr_override v); reflexivity. Qed.
Lemma w_pick_type b v c : sp_type (w_pick b v c) = type_of (vr_impl v) c.
Proof. unfold w_pick. destruct (vr_override v), c; reflexivity. Qed.
Lemma r_pick_type b v c : sp_type (r_pick b v c) = type_of (vr_impl v) c.
Proof. unfold r_pick. destruct (vr_override v), c; reflexivity. Qed.

(** A list of specialisations made from a function of the entry and the container. *)
Section Picked.
Context (l : list base_type) (pick : base_type -> variant -> ctype -> spec)
  (Hp : forall b v c, sp_type (pick b v c) = type_of (vr_impl v) c).
Definition picked (cs : list ctype) : list spec := flat_map (fun e => map (pick (fst e) (snd e)) cs) (entries l).
Lemma picked_types cs : map sp_type (picked cs) = flat_map (fun n => map (type_of n) cs) (impls l).
Proof.
  unfold picked, impls. induction (entries l) as [|e r IH]; cbn [flat_map map]; [reflexivity|]. rewrite map_app, IH. f_equal.
  rewrite map_map. apply map_ext. intros c. apply Hp.
Qed.
Lemma in_picked s cs : In s (picked cs) <-> exists e c, In e (entries l) /\ In c cs /\ s = pick (fst e) (snd e) c.
Proof.
  unfold picked. rewrite in_flat_map. split.
  - intros (e & i & j). apply in_map_iff in j. destruct j as (c & <- & j). exists e, c. auto.
  - intros (e & c & i & j & ->). exists e. split; [exact i|]. apply in_map. exact j.
Qed.
Lemma picked_find : NoDup (impls l) -> forall e c, In e (entries l) ->
  find_spec (type_of (vr_impl (snd e)) c) (picked six) = Some (pick (fst e) (snd e) c).
Proof.
  intros ND e c i.
  assert (M : In (pick (fst e) (snd e) c) (picked six)) by (apply in_picked; exists e, c; auto using in_six).
  assert (N : NoDup (map sp_type (picked six))) by (rewrite picked_types; apply nodup_types; [exact ND|exact nodup_six]).
  assert (A : forall s, In s (picked six) -> exists n d, sp_type s = type_of n d).
  { intros s j. apply in_picked in j. destruct j as (e1 & d & _ & _ & ->). rewrite Hp. eauto. }
  rewrite <- (Hp (fst e)). revert M N A. generalize (pick (fst e) (snd e) c) as s. generalize (picked six) as ss. clear.
  induction ss as [|a ss IH]; intros s M N A; [destruct M|]. cbn [find_spec]. cbn [map] in N. inversion N as [|? ? N1 N2]; subst.
  destruct (A a (or_introl eq_refl)) as (n & d & Ea). destruct (A s M) as (m & x & Es).
  destruct M as [->|M].
  - replace (cty_eqb (sp_type s) (sp_type s)) with true; [reflexivity|]. rewrite Es. symmetry. apply cty_eqb_type. auto.
  - destruct (cty_eqb (sp_type a) (sp_type s)) eqn:Q.
    + exfalso. apply N1. replace (sp_type a) with (sp_type s); [apply in_map; exact M|]. rewrite Ea, Es in Q |- *.
      apply cty_eqb_type in Q. destruct Q as [-> ->]. reflexivity.
    + apply IH; auto. intros y j. apply A. right. exact j.
Qed.
End Picked.
Lemma w_all_picked l : w_all l = picked l w_pick six.
Proof. unfold w_all, picked. apply flat_map_ext. intros e. apply w_specs_pick. Qed.
Lemma r_all_picked l : r_all l = picked l r_pick six.
Proof. unfold r_all, picked. apply flat_map_ext. intros e. apply r_specs_pick. Qed.

(** ** Names and types *)
Lemma w_pick_shape b v c : sp_name (w_pick b v c) = ["EntityWriter"; "Write"] /\
  (match sp_body (w_pick b v c) with Some _ => true | None => false end) = true /\
  exists k n x, signature (w_pick b v c) = Some (k, n, true, x).
Proof.
  unfold w_pick. destruct (vr_override v), c; (split; [reflexivity|split; [reflexivity|]]); do 3 eexists; cbn -[tyeqb]; rewrite !tyeqb_refl; reflexivity.
Qed.
Lemma r_pick_shape b v c : sp_name (r_pick b v c) = ["EntityReader"; "Read"] /\
  (match sp_body (r_pick b v c) with Some _ => true | None => false end) = true /\
  exists k n x, signature (r_pick b v c) = Some (k, n, false, x).
Proof.
  unfold r_pick. destruct (vr_override v), c; (split; [reflexivity|split; [reflexivity|]]); do 3 eexists; cbn -[tyeqb]; rewrite !tyeqb_refl; reflexivity.
Qed.
Lemma picked_names l pick name ro body :
  (forall b v c, sp_type (pick b v c) = type_of (vr_impl v) c) ->
  (forall b v c, sp_name (pick b v c) = name /\ (match sp_body (pick b v c) with Some _ => true | None => false end) = body /\
     exists k n x, signature (pick b v c) = Some (k, n, ro, x)) ->
  NoDup (impls l) -> names_types l name ro body (picked l pick six).
Proof.
  intros Hp Hs ND. unfold names_types. rewrite (picked_types l pick Hp). split; [apply nodup_types; [exact ND|exact nodup_six]|]. split.
  - intros t. rewrite in_types. unfold impls. split.
    + intros (n & c & i & _ & ->). apply in_map_iff in i. destruct i as (e & <- & i). exists e, c. auto.
    + intros (e & c & i & ->). exists (vr_impl (snd e)), c. split; [|auto using in_six]. exact (in_map (fun e => vr_impl (snd e)) _ _ i).
  - intros s i. apply in_picked in i. destruct i as (e & c & _ & _ & ->). apply Hs.
Qed.
Theorem w_names l : proper l -> exists ss, file_specs 1 (w_source l) = Some ss /\ names_types l ["EntityWriter"; "Write"] true true ss.
Proof.
  intros P. exists (w_all l). split; [exact (w_source_specs l P)|]. rewrite w_all_picked. apply picked_names; [exact w_pick_type|exact w_pick_shape|apply P].
Qed.
Theorem r_names l : proper l -> exists ss, file_specs 1 (r_source l) = Some ss /\ names_types l ["EntityReader"; "Read"] false true ss.
Proof.
  intros P. exists (r_all l). split; [exact (r_source_specs l P)|]. rewrite r_all_picked. apply picked_names; [exact r_pick_type|exact r_pick_shape|apply P].
Qed.
Lemma h_names name ro l : proper l -> names_types l [name] ro false (h_specs name ro l).
Proof.
  intros P. set (pick := fun (b : base_type) v c => d_spec name ro (vr_impl v) c).
  change (h_specs name ro l) with (picked l pick [CtNone; CtOpt] ++ picked l pick [CtVec; CtOptVec; CtIdx; CtOptIdx]).
  assert (Hp : forall b v c, sp_type (pick b v c) = type_of (vr_impl v) c) by reflexivity.
  assert (ND : NoDup (impls l)) by apply P.
  unfold names_types. rewrite map_app, !(picked_types l pick Hp). split; [|split].
  - apply nodup_app_intro; try (apply nodup_types; [exact ND|]; repeat (constructor; [cbn; intuition discriminate|]); constructor).
    intros t i j. apply in_types in i, j. destruct i as (n & c & _ & i & ->). destruct j as (m & d & _ & j & e).
    apply type_of_inj in e. destruct e as [_ <-]. cbn in i, j. destruct i as [<-|[<-|[]]]; intuition discriminate.
  - intros t. rewrite in_app_iff, !in_types. unfold impls. split.
    + intros [(n & c & i & _ & ->)|(n & c & i & _ & ->)]; apply in_map_iff in i; destruct i as (e & <- & i); exists e, c; auto.
    + intros (e & c & i & ->). apply (in_map (fun e => vr_impl (snd e))) in i. cbv beta in i.
      destruct c; [left|left|right|right|right|right]; exists (vr_impl (snd e)); eexists; (split; [exact i|]); (split; [|reflexivity]); cbn; auto.
  - intros s i. apply in_app_iff in i. assert (Q : exists e c, s = pick (fst e) (snd e) c).
    { destruct i as [i|i]; apply in_picked in i; destruct i as (e & c & _ & _ & ->); eauto. }
    destruct Q as (e & c & ->). split; [reflexivity|]. split; [reflexivity|]. exists "key", "key_length", "value".
    unfold signature, pick, d_spec. cbn [sp_params sp_type].
    replace (cty_eqb (type_of (vr_impl (snd e)) c) (type_of (vr_impl (snd e)) c)) with true; [reflexivity|].
    symmetry. apply cty_eqb_type. auto.
Qed.

(** ** Meaning *)
Lemma w_header_names l : proper l -> exists ss, file_specs 2 (w_header l) = Some ss /\ names_types l ["Write"] true false ss.
Proof. intros P. eexists. split; [exact (w_header_specs l P)|]. apply h_names. exact P. Qed.
Lemma r_header_names l : proper l -> exists ss, file_specs 2 (r_header l) = Some ss /\ names_types l ["Read"] false false ss.
Proof. intros P. eexists. split; [exact (r_header_specs l P)|]. apply h_names. exact P. Qed.

Lemma call_find {St} (h : host St) prog n t k c st :
  call h prog (S n) t k c st = match find_spec t prog with Some s => run_spec h (call h prog n) s k c st | None => None end.
Proof. reflexivity. Qed.
Lemma stored_ne l t i b : proper l -> stored_by l t i -> stored_as l i b -> t <> i.
Proof.
  intros (_ & _ & ND & _) (e & i1 & e1 & o1 & _) (e2 & i2 & e3 & o2 & _) E.
  assert (Q : e = e2); [|congruence]. clear - ND i1 i2 e1 e3 E. subst t i. revert ND i1 i2. 
  generalize (entries l). induction l0 as [|a r IH]; intros ND i1 i2; [destruct i1|]. cbn [map] in ND. inversion ND as [|? ? N1 N2]; subst.
  destruct i1 as [->|i1], i2 as [->|i2]; auto.
  - exfalso. apply N1. rewrite E. exact (in_map (fun e => vr_impl (snd e)) _ _ i2).
  - exfalso. apply N1. rewrite <- E. exact (in_map (fun e => vr_impl (snd e)) _ _ i1).
Qed.

Section Write.
Context {St : Type} (l : list base_type) (h : host St) (P : proper l) (C : compiled_for l "Write" "dstream" h).
Lemma w_find e c : In e (entries l) -> find_spec (type_of (vr_impl (snd e)) c) (w_all l) = Some (w_pick (fst e) (snd e) c).
Proof. intros i. rewrite w_all_picked. apply picked_find; [exact w_pick_type|apply P|exact i]. Qed.
Lemma w_plain_call n t b k c st : stored_as l t b ->
  call h (w_all l) (S n) (type_of t (cval_ctype c)) k c st = omap (fun r => (fst r, c, snd r)) (write_plain h b t c st).
Proof.
  intros (e & i & <- & o & <-). rewrite call_find, (w_find e _ i). unfold w_pick. rewrite o. destruct C as (C1 & C2 & C3). specialize (C3 e i).
  clear P C i. destruct h as [x1 x2 x3 x4 x5 x6 x7 x8 x9 x10]. cbn [h_self h_stream h_type] in C1, C2, C3. subst x1 x2.
  destruct c; cbn [cval_ctype].
  - apply e_w_plain_none. exact C3.
  - apply e_w_plain_opt. exact C3.
  - apply e_w_plain_vec. exact C3.
  - apply e_w_plain_optvec. exact C3.
  - apply e_w_plain_idx. exact C3.
  - apply e_w_plain_optidx. exact C3.
Qed.
Lemma cmap_ctype f c : cval_ctype (cmap f c) = cval_ctype c.
Proof. destruct c; reflexivity. Qed.
Lemma w_over_call n t i b f k c st : stored_by l t i -> stored_as l i b -> h_conv h t i = Some f ->
  call h (w_all l) (S (S n)) (type_of t (cval_ctype c)) k c st = omap (fun r => (fst r, c, snd r)) (write_plain h b i (cmap f c) st).
Proof.
  intros By As Cv. pose proof (tyeqb_ne _ _ (stored_ne l t i b P By As)) as Ne.
  transitivity (omap (fun r => (fst (fst r), c, snd r))
    (call h (w_all l) (S n) (type_of i (cval_ctype c)) (match c with CV _ => true | _ => false end) (cmap f c) st)).
  2:{ rewrite <- (cmap_ctype f c), (w_plain_call n i b _ _ st As). destruct (write_plain h b i (cmap f c) st) as [[[? ?]| |]|]; reflexivity. }
  assert (Iy : h_type h i = true). { destruct As as (e & j & <- & _). apply C. exact j. }
  destruct By as (e & j & <- & o & <-). rewrite call_find, (w_find e _ j). unfold w_pick. rewrite o.
  assert (Ty : h_type h (vr_impl (snd e)) = true) by (apply C; exact j). destruct C as (C1 & C2 & _).
  generalize (call h (w_all l) (S n)) as self. intros self.
  clear P C As j. destruct h as [x1 x2 x3 x4 x5 x6 x7 x8 x9 x10]. cbn [h_self h_stream h_type h_conv] in C1, C2, Iy, Ty, Cv. subst x1 x2.
  destruct c; cbn [cval_ctype cmap].
  - apply e_w_over_none; assumption.
  - apply e_w_over_opt; assumption.
  - apply e_w_over_vec; assumption.
  - apply e_w_over_optvec; assumption.
  - apply e_w_over_idx; assumption.
  - apply e_w_over_optidx; assumption.
Qed.
End Write.

Section Read.
Context {St : Type} (l : list base_type) (h : host St) (P : proper l) (C : compiled_for l "Read" "sstream" h).
Lemma r_find e c : In e (entries l) -> find_spec (type_of (vr_impl (snd e)) c) (r_all l) = Some (r_pick (fst e) (snd e) c).
Proof. intros i. rewrite r_all_picked. apply picked_find; [exact r_pick_type|apply P|exact i]. Qed.
Lemma r_plain_call n t b c st : stored_as l t b ->
  call h (r_all l) (S n) (type_of t (cval_ctype c)) false c st = read_plain h b t c st.
Proof.
  intros (e & i & <- & o & <-). rewrite call_find, (r_find e _ i). unfold r_pick. rewrite o. destruct C as (C1 & C2 & C3). specialize (C3 e i).
  clear P C i. destruct h as [x1 x2 x3 x4 x5 x6 x7 x8 x9 x10]. cbn [h_self h_stream h_type] in C1, C2, C3. subst x1 x2.
  destruct c; cbn [cval_ctype].
  - apply e_r_plain_none. exact C3.
  - apply e_r_plain_opt. exact C3.
  - apply e_r_plain_vec. exact C3.
  - apply e_r_plain_optvec. exact C3.
  - apply e_r_plain_idx. exact C3.
  - apply e_r_plain_optidx. exact C3.
Qed.
Lemma read_plain_ctype b t c st ok c1 s1 : read_plain h b t c st = oret (ok, c1, s1) -> cval_ctype c1 = cval_ctype c.
Proof.
  unfold read_plain, omap. destruct c; cbn [cval_ctype].
  1,2: destruct (h_read1 h _ t) as [g|]; cbn [instance obind]; [|discriminate].
  3-6: destruct (h_readn h _ t) as [g|]; cbn [instance obind]; [|discriminate].
  1: destruct (g false v st) as [[[k x] y]| |].
  4: destruct (g true _ st) as [[[k x] y]| |].
  7: destruct (g false l0 None st) as [[[[k x] z] y]| |].
  10: destruct (g true [] None st) as [[[[k x] z] y]| |].
  13: destruct (g false l0 _ st) as [[[[k x] z] y]| |].
  16: destruct (g true [] _ st) as [[[[k x] z] y]| |].
  all: try (intros E; discriminate E).
  all: intros E; injection E as _ <- _; try reflexivity; destruct k; reflexivity.
Qed.
Lemma r_over_call n t i b f c st : stored_by l t i -> stored_as l i b -> h_conv h i t = Some f ->
  call h (r_all l) (S (S n)) (type_of t (cval_ctype c)) false c st = read_over h b i f c st.
Proof.
  intros By As Cv. pose proof (tyeqb_ne i t (fun e => stored_ne l t i b P By As (eq_sym e))) as Ne.
  transitivity (over f c (call h (r_all l) (S n) (type_of i (cval_ctype c)) false (default_content h i (cval_ctype c)) st)).
  2:{ unfold read_over, over. f_equal.
      replace (cval_ctype c) with (cval_ctype (default_content h i (cval_ctype c))) at 1 by (destruct c; reflexivity).
      exact (r_plain_call n i b _ st As). }
  assert (K : forall c d s ok c1 s1, call h (r_all l) (S n) (type_of i c) false d s = oret (ok, c1, s1) -> cval_ctype d = c -> cval_ctype c1 = c).
  { intros c0 d s ok c1 s1 E <-. rewrite (r_plain_call n i b d s As) in E. exact (read_plain_ctype b i d s ok c1 s1 E). }
  assert (Iy : h_type h i = true). { destruct As as (e & j & <- & _). apply C. exact j. }
  destruct By as (e & j & <- & o & <-). rewrite call_find, (r_find e _ j). unfold r_pick. rewrite o.
  assert (Ty : h_type h (vr_impl (snd e)) = true) by (apply C; exact j). destruct C as (C1 & C2 & _).
  revert K. generalize (call h (r_all l) (S n)) as self. intros self K.
  clear P C As j. destruct h as [x1 x2 x3 x4 x5 x6 x7 x8 x9 x10]. cbn [h_self h_stream h_type h_conv] in C1, C2, Iy, Ty, Cv. subst x1 x2.
  destruct c; cbn [cval_ctype default_content h_raw].
  - apply e_r_over_none; assumption.
  - apply e_r_over_opt; assumption.
  - apply e_r_over_vec; assumption.
  - apply e_r_over_optvec; assumption.
  - apply e_r_over_idx; assumption.
  - apply e_r_over_optidx; assumption.
Qed.
End Read.
