(** * GenTextTheorems: the generated text means the class. Proofs. *)
From Coq Require Import Strings.String Strings.Ascii.
From Verif Require Import Base Bytes Values Streams Types EntityWriter EntityReader Sections Validator Keys KeySpec Containers
  ValueEq StdSet Graph Classes Table IndexedVector DynTypes Varying EntityGen GenText CppText CppSem GenTextSpec GenLex GenParse GenDecls GenHeader GenCheck GenRun.
Local Open Scope string_scope.
Local Open Scope list_scope.

Lemma defined_names W d T : defined_classes W d = Some T -> map fst T = TNs d.
Proof. intros H. apply typedefs_names in H. rewrite H, map_map. reflexivity. Qed.
Lemma fields_acceptable d T : map fst T = TNs d -> forall l fs, class_fields T l = Some fs -> no_optional fs = true -> forall v, In v l -> acceptable d v.
Proof.
  intros HT. induction l as [|w l IH]; intros fs; cbn [class_fields]; [intros _ _ v []|].
  destruct (class_fields T l) as [fs'|]; [|discriminate]. destruct (base_type_variant (v_type w)) as [t|] eqn:E.
  - intros H O. injection H as <-. intros v [<-|i]; [left; apply is_base_variant; eauto|]. exact (IH fs' eq_refl O v i).
  - destruct (assoc (v_type w) T) as [s|] eqn:A; [|discriminate]. destruct (v_vector w) eqn:V; [discriminate|].
    destruct (v_optional w) eqn:Op; intros H O; injection H as <-; [discriminate|].
    intros v [<-|i]; [|exact (IH fs' eq_refl O v i)]. right. split; [apply is_base_none; exact E|]. split; [|auto].
    rewrite <- HT. exact (assoc_in _ _ _ A).
Qed.
Lemma acceptable_fields d T : map fst T = TNs d -> forall l, (forall v, In v l -> acceptable d v) -> exists fs, class_fields T l = Some fs /\ no_optional fs = true.
Proof.
  intros HT. induction l as [|w l IH]; intros H; [exists FNil; auto|]. cbn [class_fields].
  destruct IH as (fs & -> & O); [intros v i; apply H; right; exact i|].
  destruct (H w (or_introl eq_refl)) as [B|(B & i & Op & V)].
  - apply is_base_variant in B. destruct B as [t ->]. eauto.
  - apply is_base_none in B. rewrite B. rewrite <- HT in i. destruct (in_assoc _ _ i) as [s ->]. rewrite V, Op. eauto.
Qed.
Section One.
Context (W : world) (d : edef) (Hw : well_formed d) (Ww : world_ok W d).
Lemma compiles_iff : compiles W (prog d) = true <-> exists T fs, defines W d T fs.
Proof.
  pose proof (wf_of d Hw) as Wf. split.
  - intros C. destruct (compiles_only d Wf W Ww C) as ((T & HT) & A).
    destruct (acceptable_fields d T (defined_names W d T HT) (ed_vars d) A) as (fs & F & O). exists T, fs. split; auto.
  - intros (T & fs & HT & F & O). apply (compiles_ok d Wf W T Ww HT). exact (fields_acceptable d T (defined_names W d T HT) _ _ F O).
Qed.
Lemma means_class I T fs : defines W d T fs -> means I W (prog d) T fs.
Proof.
  pose proof (wf_of d Hw) as Wf. intros (HT & F & O). apply (means_ok I W d Wf T fs).
  apply (stand_of W d Wf T); [intros v i; exact i|exact (wf_nodup d Wf)|exact (fields_acceptable d T (defined_names W d T HT) _ _ F O)|exact F].
Qed.
End One.
(** Definitions the generator accepts although the text does not compile. *)
Lemma never_defines W d T fs v : base_type_variant (v_type v) = None -> In v (ed_vars d) -> defines W d T fs ->
  v_optional v = false /\ v_vector v = false /\ In (v_type v) (map td_name (ed_templates d)).
Proof.
  intros B i (HT & F & O). destruct (fields_acceptable d T (defined_names W d T HT) _ _ F O v i) as [B'|(_ & j & Op & V)].
  - apply is_base_variant in B'. destruct B'. congruence.
  - auto.
Qed.
Lemma table_flags_fail W G T n k s f fl : table_flags (TFlags true true) (map (fun x => Ct ["EntityTableFlags"; x] []) (f :: fl)) = None ->
  class_type W G T (Ct [n] [[k]; [s]; map (fun x => Ct ["EntityTableFlags"; x] []) (f :: fl)]) = None.
Proof.
  intros H. change (class_type W G T (Ct [n] [[k]; [s]; map (fun x => Ct ["EntityTableFlags"; x] []) (f :: fl)])) with
    (if negb (G n) then None else if streqb n "EntityTable" then
      match key_name k, class_type W G T s, table_flags (TFlags true true) (map (fun x => Ct ["EntityTableFlags"; x] []) (f :: fl)) with
      | Some kt0, Some s, Some f => Some (STable kt0 f s) | _, _, _ => None end else None).
  rewrite H. destruct (negb (G n)); [reflexivity|]. destruct (streqb n "EntityTable"); [|reflexivity].
  destruct (key_name k); [|reflexivity]. destruct (class_type W G T s); reflexivity.
Qed.
Lemma typedefs_none W G t : (forall T, class_type W G T (snd t) = None) -> forall l T, In t l -> typedefs W G T l = None.
Proof.
  intros H. induction l as [|[n c] l IH]; intros T; [intros []|]. cbn [typedefs]. intros [e|i].
  - rewrite <- e in H. cbn [snd] in H. rewrite H. reflexivity.
  - destruct (class_type W G T c); [apply IH; exact i|reflexivity].
Qed.
Lemma table_with_flags W d t k s : In t (ed_templates d) -> td_template t = "EntityTable" -> td_types t = [k; s] -> td_flags t <> [] -> defined_classes W d = None.
Proof.
  intros i Et Ek Ef. unfold defined_classes. eapply typedefs_none with (t := (td_name t, tdef_type t)).
  - intros T. cbn [snd]. unfold tdef_type. rewrite Et, Ek. destruct (td_flags t) as [|f fl]; [congruence|].
    replace (map (flag_type t) (f :: fl)) with (map (fun x => Ct ["EntityTableFlags"; x] []) (f :: fl)).
    + exact (table_flags_fail W (depends d) T "EntityTable" (tn_type k) (tn_type s) f fl eq_refl).
    + apply map_ext. intros x. unfold flag_type. rewrite Et. reflexivity.
  - apply in_map_iff. exists t. auto.
Qed.

(** ** Projects *)
Lemma project_app W a b : project W (a ++ b) = match project W a with Some W' => project W' b | None => None end.
Proof.
  revert W. induction a as [|d a IH]; intros W; [reflexivity|]. cbn [app project]. destruct (defined_classes W d) as [T|]; [|reflexivity].
  destruct (class_fields T (ed_vars d)) as [fs|]; [|reflexivity]. destruct (no_optional fs); [apply IH|reflexivity].
Qed.
Lemma project_other n : forall l W W', project W l = Some W' -> ~ In n (map ed_name l) -> W' n = W n.
Proof.
  induction l as [|d l IH]; intros W W' H N; [injection H as <-; reflexivity|]. cbn [project] in H.
  destruct (defined_classes W d) as [T|]; [|discriminate]. destruct (class_fields T (ed_vars d)) as [fs|]; [|discriminate].
  destruct (no_optional fs); [|discriminate]. rewrite (IH _ _ H) by (intros i; apply N; right; exact i).
  unfold add_class. rewrite streqb_ne; [reflexivity|]. intros ->. apply N. left. reflexivity.
Qed.
Lemma project_member W l W' a d b : project W l = Some W' -> l = a ++ d :: b -> NoDup (map ed_name l) ->
  (forall n, In n library_headers -> W n = None) -> (forall d, In d l -> well_formed d /\ W (ed_name d) = None /\ ~ In (ed_name d) library_headers) ->
  exists Wa T fs, project W a = Some Wa /\ world_ok Wa d /\ defines Wa d T fs /\ W' (ed_name d) = Some (SEntity fs).
Proof.
  intros P -> N L H. rewrite project_app in P. destruct (project W a) as [Wa|] eqn:Pa; [|discriminate]. cbn [project] in P.
  destruct (defined_classes Wa d) as [T|] eqn:HT; [|discriminate]. destruct (class_fields T (ed_vars d)) as [fs|] eqn:F; [|discriminate].
  destruct (no_optional fs) eqn:O; [|discriminate]. exists Wa, T, fs. split; [reflexivity|].
  rewrite map_app in N. cbn [map] in N. pose proof (NoDup_remove_2 _ _ _ N) as N2.
  assert (Na : ~ In (ed_name d) (map ed_name a)) by (intros i; apply N2; apply in_or_app; left; exact i).
  assert (Nb : ~ In (ed_name d) (map ed_name b)) by (intros i; apply N2; apply in_or_app; right; exact i).
  destruct (H d (in_or_app a (d :: b) d (or_intror (or_introl eq_refl)))) as (_ & Wd & Ld).
  split; [|split; [split; auto|]].
  - split; [|split; [|exact Ld]].
    + intros n i. rewrite (project_other n _ _ _ Pa); [exact (L n i)|]. intros j. apply in_map_iff in j. destruct j as (x & e & j).
      destruct (H x (in_or_app a (d :: b) x (or_introl j))) as (_ & _ & Lx). rewrite e in Lx. exact (Lx i).
    + rewrite (project_other _ _ _ _ Pa Na). exact Wd.
  - rewrite (project_other _ _ _ _ P Nb). unfold add_class. rewrite streqb_refl. reflexivity.
Qed.
(** Names of 256 characters and more. *)
Lemma key_macro_len s : len (key_macro s) = (N.of_nat (String.length s) mod 256)%N.
Proof. unfold key_macro. rewrite BytesFacts.len_take, bytes_of_string_len. apply N.min_l. apply N.mod_le. lia. Qed.
