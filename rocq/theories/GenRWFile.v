(** * GenRWFile: the generated files as lists of specialisations. Proofs. *)
From Coq Require Import Strings.String Strings.Ascii.
From Verif Require Import Base Types EntityReader GenText CppText CppSem GenTextSpec GenLex GenParse GenRW CppFun GenRWSpec GenRWAst GenRWParse.
Local Open Scope string_scope.
Local Open Scope list_scope.

(** ** Sources *)
Definition w_specs (b : base_type) (v : variant) : list spec :=
  let T := vr_impl v in let I := vr_item v in
  if vr_override v then
    [a_w_over_none T I; a_w_over_opt T I; a_w_over_vec T I; a_w_over_optvec T I; a_w_over_idx T I; a_w_over_optidx T I]
  else
    let V := "VT_" ^^ bt_name b in let A := "VT_Array_" ^^ bt_name b in
    [a_w_plain_none V T; a_w_plain_opt V T; a_w_plain_vec A T; a_w_plain_optvec A T; a_w_plain_idx A T; a_w_plain_optidx A T].
Definition r_specs (b : base_type) (v : variant) : list spec :=
  let T := vr_impl v in let I := vr_item v in
  if vr_override v then
    [a_r_over_none T I; a_r_over_opt T I; a_r_over_vec T I; a_r_over_optvec T I; a_r_over_idx T I; a_r_over_optidx T I]
  else
    let V := "VT_" ^^ bt_name b in let A := "VT_Array_" ^^ bt_name b in
    [a_r_plain_none V T; a_r_plain_opt V T; a_r_plain_vec V A T; a_r_plain_optvec V A T; a_r_plain_idx V A T; a_r_plain_optidx V A T].
Lemma gives6 d a1 a2 a3 a4 a5 a6 s1 s2 s3 s4 s5 s6 :
  gives d (tokens a1) [s1] -> gives d (tokens a2) [s2] -> gives d (tokens a3) [s3] -> gives d (tokens a4) [s4] -> gives d (tokens a5) [s5] ->
  gives d (tokens a6) [s6] -> gives d (tokens (a1 ++ a2 ++ a3 ++ a4 ++ a5 ++ a6)) [s1; s2; s3; s4; s5; s6].
Proof.
  intros. rewrite !tokens_app. change [s1; s2; s3; s4; s5; s6] with ([s1] ++ [s2] ++ [s3] ++ [s4] ++ [s5] ++ [s6]).
  repeat apply gives_app; assumption.
Qed.
Lemma w_variant_gives b v : all_chars id_char (bt_name b) = true -> tgood (vr_impl v) -> (vr_override v = true -> tgood (vr_item v)) ->
  gives 1 (tokens (w_variant b v)) (w_specs b v).
Proof.
  intros Hb Ht Hi. unfold w_variant, w_specs. pose proof (good_VT _ Hb) as V. pose proof (good_VTA _ Hb) as A.
  destruct (vr_override v); [specialize (Hi eq_refl)|]; cbv zeta; apply gives6.
  - exact (g_w_over_none _ _ Ht Hi).
  - exact (g_w_over_opt _ _ Ht Hi).
  - exact (g_w_over_vec _ _ Ht Hi).
  - exact (g_w_over_optvec _ _ Ht Hi).
  - exact (g_w_over_idx _ _ Ht Hi).
  - exact (g_w_over_optidx _ _ Ht Hi).
  - exact (g_w_plain_none _ _ V Ht).
  - exact (g_w_plain_opt _ _ V Ht).
  - exact (g_w_plain_vec _ _ A Ht).
  - exact (g_w_plain_optvec _ _ A Ht).
  - exact (g_w_plain_idx _ _ A Ht).
  - exact (g_w_plain_optidx _ _ A Ht).
Qed.
Lemma r_variant_gives b v : all_chars id_char (bt_name b) = true -> tgood (vr_impl v) -> (vr_override v = true -> tgood (vr_item v)) ->
  gives 1 (tokens (r_variant b v)) (r_specs b v).
Proof.
  intros Hb Ht Hi. unfold r_variant, r_specs. pose proof (good_VT _ Hb) as V. pose proof (good_VTA _ Hb) as A.
  destruct (vr_override v); [specialize (Hi eq_refl)|]; cbv zeta; apply gives6.
  - exact (g_r_over_none _ _ Ht Hi).
  - exact (g_r_over_opt _ _ Ht Hi).
  - exact (g_r_over_vec _ _ Ht Hi).
  - exact (g_r_over_optvec _ _ Ht Hi).
  - exact (g_r_over_idx _ _ Ht Hi).
  - exact (g_r_over_optidx _ _ Ht Hi).
  - exact (g_r_plain_none _ _ V Ht).
  - exact (g_r_plain_opt _ _ V Ht).
  - exact (g_r_plain_vec _ _ _ V A Ht).
  - exact (g_r_plain_optvec _ _ _ V A Ht).
  - exact (g_r_plain_idx _ _ _ V A Ht).
  - exact (g_r_plain_optidx _ _ _ V A Ht).
Qed.

Lemma in_entries l b v : In (b, v) (entries l) <-> In b l /\ In v (bt_variants b).
Proof.
  unfold entries. rewrite in_flat_map. split.
  - intros (c & i & j). apply in_map_iff in j. destruct j as (w & e & j). injection e as -> ->. auto.
  - intros [i j]. exists b. split; [exact i|]. apply in_map. exact j.
Qed.
Lemma proper_good l b v : proper l -> In b l -> In v (bt_variants b) ->
  all_chars id_char (bt_name b) = true /\ tgood (vr_impl v) /\ (vr_override v = true -> tgood (vr_item v)).
Proof.
  intros (P1 & P2 & _ & P4) i j. assert (ie : In (b, v) (entries l)) by (apply in_entries; auto).
  split; [exact (P1 b i)|]. split; [apply name_good; exact (P2 _ ie)|]. intros o.
  destruct (P4 (vr_impl v) (vr_item v)) as (c & e & k & <- & _); [exists (b, v); auto|]. apply name_good. exact (P2 _ k).
Qed.
Definition w_all (l : list base_type) : list spec := flat_map (fun e => w_specs (fst e) (snd e)) (entries l).
Definition r_all (l : list base_type) : list spec := flat_map (fun e => r_specs (fst e) (snd e)) (entries l).
Lemma flat_entries {A} (f : base_type -> variant -> list A) l :
  flat_map (fun e => f (fst e) (snd e)) (entries l) = flat_map (fun b => flat_map (f b) (bt_variants b)) l.
Proof.
  unfold entries. induction l as [|b l IH]; cbn [flat_map]; [reflexivity|]. rewrite flat_map_app, IH. f_equal.
  generalize (bt_variants b). induction l0 as [|v r IHr]; cbn [flat_map map]; [reflexivity|]. rewrite IHr. reflexivity.
Qed.
Lemma w_source_specs l : proper l -> file_specs 1 (w_source l) = Some (w_all l).
Proof.
  intros P. unfold w_source, w_all. rewrite flat_entries.
  eapply file_gives with (pre := tokens w_source_head) (post := tokens ["	};"]).
  - rewrite !tokens_app. reflexivity.
  - intros rest. vm_compute. reflexivity.
  - vm_compute. reflexivity.
  - rewrite tokens_flat. apply gives_flat. intros b i. rewrite tokens_flat. apply gives_flat. intros v j.
    destruct (proper_good l b v P i j) as (A & B & C). apply w_variant_gives; assumption.
Qed.
Lemma r_source_specs l : proper l -> file_specs 1 (r_source l) = Some (r_all l).
Proof.
  intros P. unfold r_source, r_all. rewrite flat_entries.
  eapply file_gives with (pre := tokens r_source_head) (post := tokens ["	};"]).
  - rewrite !tokens_app. reflexivity.
  - intros rest. vm_compute. reflexivity.
  - vm_compute. reflexivity.
  - rewrite tokens_flat. apply gives_flat. intros b i. rewrite tokens_flat. apply gives_flat. intros v j.
    destruct (proper_good l b v P i j) as (A & B & C). apply r_variant_gives; assumption.
Qed.

(** ** Headers *)
Definition d_spec (name : string) (ro : bool) (T : string) (c : ctype) : spec :=
  Spec [name] (type_of T c)
    [Par true (Ct ["char"] []) ByPtr "key"; Par true (Ct ["u8"] []) ByValue "key_length"; Par ro (type_of T c) ByRef "value"] None.
Lemma tokens_cons a l : tokens (a :: l) = tokens [a] ++ tokens l.
Proof. exact (tokens_app [a] l). Qed.
Ltac one_decl :=
  unfold tokens; cbn [map app]; lex_all;
  match goal with
  | |- gives _ ?l _ =>
    let l' := eval vm_compute in l in change l with l';
    let r := seg_of l' in
    apply gives_one with (seg := r); [intros rest; vm_compute; reflexivity | vm_compute; reflexivity]
  end.
Lemma w_decl_gives T : tgood T -> gives 2 (tokens (w_decl T)) [d_spec "Write" true T CtNone; d_spec "Write" true T CtOpt].
Proof.
  intros G. unfold w_decl. rewrite tokens_cons. apply (gives_app 2 _ _ [_] [_]); destruct G as [G|[-> G]]; one_decl.
Qed.
Lemma r_decl_gives T : tgood T -> gives 2 (tokens (r_decl T)) [d_spec "Read" false T CtNone; d_spec "Read" false T CtOpt].
Proof.
  intros G. unfold r_decl. rewrite tokens_cons. apply (gives_app 2 _ _ [_] [_]); destruct G as [G|[-> G]]; one_decl.
Qed.
Lemma w_decl_array_gives T : tgood T -> gives 2 (tokens (w_decl_array T)) (map (d_spec "Write" true T) [CtVec; CtOptVec; CtIdx; CtOptIdx]).
Proof.
  intros G. unfold w_decl_array. cbn [map].
  repeat (rewrite (tokens_cons _ (_ :: _)); apply (gives_app 2 _ _ [_] (_ :: _)); [destruct G as [G|[-> G]]; one_decl|]).
  destruct G as [G|[-> G]]; one_decl.
Qed.
Lemma r_decl_array_gives T : tgood T -> gives 2 (tokens (r_decl_array T)) (map (d_spec "Read" false T) [CtVec; CtOptVec; CtIdx; CtOptIdx]).
Proof.
  intros G. unfold r_decl_array. cbn [map].
  repeat (rewrite (tokens_cons _ (_ :: _)); apply (gives_app 2 _ _ [_] (_ :: _)); [destruct G as [G|[-> G]]; one_decl|]).
  destruct G as [G|[-> G]]; one_decl.
Qed.
Definition h_specs (name : string) (ro : bool) (l : list base_type) : list spec :=
  flat_map (fun e => map (d_spec name ro (vr_impl (snd e))) [CtNone; CtOpt]) (entries l)
  ++ flat_map (fun e => map (d_spec name ro (vr_impl (snd e))) [CtVec; CtOptVec; CtIdx; CtOptIdx]) (entries l).
Lemma comment_gives (t : string) ts ss : gives 2 ts ss -> gives 2 (tokens ["            // " ^^ t] ++ ts ++ tokens [""]) ss.
Proof.
  intros G. change (tokens ["            // " ^^ t]) with (@nil tok). change (tokens [""]) with (@nil tok).
  rewrite app_nil_r. exact G.
Qed.
Lemma w_header_specs l : proper l -> file_specs 2 (w_header l) = Some (h_specs "Write" true l).
Proof.
  intros P. unfold w_header, h_specs.
  rewrite (flat_entries (fun b v => map (d_spec "Write" true (vr_impl v)) [CtNone; CtOpt])).
  rewrite (flat_entries (fun b v => map (d_spec "Write" true (vr_impl v)) [CtVec; CtOptVec; CtIdx; CtOptIdx])).
  eapply file_gives with (pre := tokens w_header_head) (post := tokens w_header_tail).
  - rewrite !tokens_app. apply f_equal. apply app_assoc.
  - intros rest. vm_compute. reflexivity.
  - vm_compute. reflexivity.
  - apply gives_app; rewrite tokens_flat; apply gives_flat; intros b i; cbv zeta; rewrite !tokens_app; apply comment_gives;
      rewrite tokens_flat; apply gives_flat; intros v j; destruct (proper_good l b v P i j) as (_ & B & _).
    + apply w_decl_gives. exact B.
    + apply w_decl_array_gives. exact B.
Qed.
Lemma r_header_specs l : proper l -> file_specs 2 (r_header l) = Some (h_specs "Read" false l).
Proof.
  intros P. unfold r_header, h_specs.
  rewrite (flat_entries (fun b v => map (d_spec "Read" false (vr_impl v)) [CtNone; CtOpt])).
  rewrite (flat_entries (fun b v => map (d_spec "Read" false (vr_impl v)) [CtVec; CtOptVec; CtIdx; CtOptIdx])).
  eapply file_gives with (pre := tokens r_header_head) (post := tokens r_header_tail).
  - rewrite !tokens_app. apply f_equal. apply app_assoc.
  - intros rest. vm_compute. reflexivity.
  - vm_compute. reflexivity.
  - apply gives_app; rewrite tokens_flat; apply gives_flat; intros b i; cbv zeta; rewrite !tokens_app; apply comment_gives;
      rewrite tokens_flat; apply gives_flat; intros v j; destruct (proper_good l b v P i j) as (_ & B & _).
    + apply r_decl_gives. exact B.
    + apply r_decl_array_gives. exact B.
Qed.
