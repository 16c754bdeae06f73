(** * GenRWProject: the generated functions of the project are the functions Write and Read of EntityWriter.v and EntityReader.v. Proofs. *)
From Coq Require Import Strings.String Strings.Ascii.
From Verif Require Import Base Bytes Values Streams Types EntityWriter EntityReader BytesFacts GenText CppText GenTextSpec GenRW CppFun GenRWSpec
  GenRWFile GenRWTheorems GenRWHost.
Local Open Scope string_scope.
Local Open Scope list_scope.
Local Open Scope nat_scope.

(** ** A test for proper lists *)
Definition inb (n : string) (l : list string) : bool := existsb (String.eqb n) l.
Lemma inb_iff n l : inb n l = true <-> In n l.
Proof.
  unfold inb. rewrite existsb_exists. split.
  - intros (x & i & e). apply String.eqb_eq in e. subst x. exact i.
  - intros i. exists n. split; [exact i|]. apply String.eqb_refl.
Qed.
Fixpoint distinct (l : list string) : bool := match l with [] => true | a :: r => negb (inb a r) && distinct r end.
Lemma distinct_ok l : distinct l = true -> NoDup l.
Proof.
  induction l as [|a r IH]; cbn [distinct]; intros H; constructor; apply andb_prop in H; destruct H as [H1 H2]; [|exact (IH H2)].
  intros i. apply inb_iff in i. rewrite i in H1. discriminate H1.
Qed.
Definition properb (l : list base_type) : bool :=
  forallb (fun b => all_chars id_char (bt_name b)) l
  && forallb (fun e => (ident_ok (vr_impl (snd e)) || inb (vr_impl (snd e)) type_words) && negb (inb (vr_impl (snd e)) rw_names)) (entries l)
  && distinct (map (fun e => vr_impl (snd e)) (entries l))
  && forallb (fun e => negb (vr_override (snd e))
                       || existsb (fun d => String.eqb (vr_impl (snd d)) (vr_item (snd e)) && negb (vr_override (snd d))) (entries l)) (entries l).
Lemma properb_ok l : properb l = true -> proper l.
Proof.
  unfold properb. intros H. apply andb_prop in H. destruct H as [H H4]. apply andb_prop in H. destruct H as [H H3].
  apply andb_prop in H. destruct H as [H1 H2]. rewrite forallb_forall in H1, H2, H4. split; [exact H1|]. split; [|split].
  - intros e i. specialize (H2 e i). apply andb_prop in H2. destruct H2 as [Q1 Q2]. split.
    + apply orb_prop in Q1. destruct Q1 as [Q1|Q1]; [left; exact Q1|right]. apply inb_iff. exact Q1.
    + intros j. apply inb_iff in j. rewrite j in Q2. discriminate Q2.
  - apply distinct_ok. exact H3.
  - intros t i (e & j & <- & o & <-). specialize (H4 e j). rewrite o in H4. cbn [negb orb] in H4. apply existsb_exists in H4.
    destruct H4 as (d & k & Q). apply andb_prop in Q. destruct Q as [Q1 Q2]. apply String.eqb_eq in Q1.
    exists (bt_name (fst d)), d. split; [exact k|]. split; [exact Q1|]. split; [|reflexivity]. apply negb_true_iff. exact Q2.
Qed.
Lemma isd_proper : proper isd_types.
Proof. apply properb_ok. vm_compute. reflexivity. Qed.

(** ** The entries of the project *)
Lemma assoc_in {A} n (l : list (string * A)) t : assoc n l = Some t -> In (n, t) l.
Proof.
  induction l as [|[m u] r IH]; cbn [assoc]; [discriminate|]. destruct (String.eqb n m) eqn:E.
  - intros H. injection H as ->. apply String.eqb_eq in E. subst m. left. reflexivity.
  - intros H. right. exact (IH H).
Qed.
Definition entry_of (n : string) : option (base_type * variant) := find (fun e => String.eqb (vr_impl (snd e)) n) (entries isd_types).
Lemma entry_in n e : entry_of n = Some e -> In e (entries isd_types) /\ vr_impl (snd e) = n.
Proof. intros H. apply find_some in H. destruct H as [i q]. apply String.eqb_eq in q. auto. Qed.
(** Types stored as they are. *)
Lemma plain_entries n t : base_type_variant n = Some t -> t <> TEntityRef -> t <> TPackageRef ->
  exists b, stored_as isd_types n b /\ single_instance ("VT_" ^^ b) n = Some (vt_single t, dshape t)
    /\ array_instance ("VT_Array_" ^^ b) n = Some (vt_array t, dshape t).
Proof.
  intros H N1 N2. apply assoc_in in H.
  assert (Q : exists e, entry_of n = Some e /\ vr_override (snd e) = false /\ single_instance ("VT_" ^^ bt_name (fst e)) n = Some (vt_single t, dshape t)
    /\ array_instance ("VT_Array_" ^^ bt_name (fst e)) n = Some (vt_array t, dshape t)).
  { unfold type_names in H.
    repeat (destruct H as [H|H]; [injection H as <- <-; first [exfalso; apply N1; reflexivity | exfalso; apply N2; reflexivity | eexists; split; [vm_compute; reflexivity|]; (split; [reflexivity|split; vm_compute; reflexivity])]|]).
    destruct H. }
  destruct Q as (e & Q1 & Q2 & Q3 & Q4). apply entry_in in Q1. destruct Q1 as [i q]. exists (bt_name (fst e)).
  split; [exists e; auto|]. split; assumption.
Qed.
Lemma all_listed raw key : compiled_for isd_types "Write" "dstream" (host_w raw key).
Proof.
  split; [reflexivity|]. split; [reflexivity|]. cbn [h_type host_w].
  assert (Q : forallb (fun e => is_type (vr_impl (snd e))) (entries isd_types) = true) by (vm_compute; reflexivity).
  rewrite forallb_forall in Q. exact Q.
Qed.
Lemma all_listed_r e raw key : compiled_for isd_types "Read" "sstream" (host_r e raw key).
Proof. split; [reflexivity|]. split; [reflexivity|]. exact (proj2 (proj2 (all_listed raw key))). Qed.

(** ** Writing *)
Lemma write_plain_ew raw key n t b c st :
  single_instance ("VT_" ^^ b) n = Some (vt_single t, dshape t) -> array_instance ("VT_Array_" ^^ b) n = Some (vt_array t, dshape t) ->
  write_plain (host_w raw key) b n c st = Some (ew_write t key c st).
Proof.
  intros S A. unfold write_plain, ew_write, host_w. cbn [h_write1 h_writen]. rewrite S, A. destruct c; reflexivity.
Qed.
Lemma cmap_id c : cmap (fun v => v) c = c.
Proof. destruct c as [v|o|l|o|l ix|o]; cbn; rewrite ?map_id; try reflexivity.
  - destruct o; reflexivity.
  - destruct o as [l|]; cbn; rewrite ?map_id; reflexivity.
  - destruct o as [[l ix]|]; cbn; rewrite ?map_id; reflexivity.
Qed.
Theorem project_write raw key n t k d c st : base_type_variant n = Some t ->
  call (host_w raw key) (w_all isd_types) (S (S d)) (type_of n (cval_ctype c)) k c st
  = Some (rmap (fun r => (fst r, c, snd r)) (ew_write t key c st)).
Proof.
  intros H. pose proof (all_listed raw key) as L.
  assert (G : forall o : res (bool * wstream), omap (fun r => (fst r, c, snd r)) (Some o) = Some (rmap (fun r => (fst r, c, snd r)) o)) by (intros [[? ?]| |]; reflexivity).
  assert (R : (n = "entity_ref" /\ t = TEntityRef) \/ (n = "package_ref" /\ t = TPackageRef) \/ (t <> TEntityRef /\ t <> TPackageRef)).
  { apply assoc_in in H. unfold type_names in H.
    repeat (destruct H as [H|H]; [injection H as <- <-; auto; right; right; split; discriminate|]). destruct H. }
  destruct R as [[-> ->]|[[-> ->]|[N1 N2]]].
  - rewrite (w_over_call isd_types _ isd_proper L d "entity_ref" "uuid" "Uuid" (fun v => v) k c st).
    + rewrite cmap_id, (write_plain_ew raw key "uuid" TUuid "Uuid" c st) by (vm_compute; reflexivity). rewrite G. destruct c; reflexivity.
    + eexists. split; [apply (entry_in "entity_ref"); vm_compute; reflexivity|repeat split].
    + eexists. split; [apply (entry_in "uuid"); vm_compute; reflexivity|repeat split].
    + reflexivity.
  - rewrite (w_over_call isd_types _ isd_proper L d "package_ref" "hash" "Hash" (fun v => v) k c st).
    + rewrite cmap_id, (write_plain_ew raw key "hash" THash "Hash" c st) by (vm_compute; reflexivity). rewrite G. destruct c; reflexivity.
    + eexists. split; [apply (entry_in "package_ref"); vm_compute; reflexivity|repeat split].
    + eexists. split; [apply (entry_in "hash"); vm_compute; reflexivity|repeat split].
    + reflexivity.
  - destruct (plain_entries n t H N1 N2) as (b & As & I1 & I2).
    rewrite (w_plain_call isd_types _ isd_proper L (S d) n b k c st As), (write_plain_ew raw key n t b c st I1 I2). apply G.
Qed.

(** ** Reading *)
Lemma new_val_ok n t : base_type_variant n = Some t -> new_val n = val_default (dshape t).
Proof. intros H. unfold new_val. rewrite H. reflexivity. Qed.
Lemma read_plain_er e raw key n t b c st : base_type_variant n = Some t ->
  single_instance ("VT_" ^^ b) n = Some (vt_single t, dshape t) -> array_instance ("VT_Array_" ^^ b) n = Some (vt_array t, dshape t) ->
  read_plain (host_r e raw key) b n c st = Some (er_read_plain e t key c st).
Proof.
  intros H S A. unfold read_plain, er_read_plain, host_r. cbn [h_read1 h_readn h_new]. rewrite S, A, (new_val_ok n t H).
  destruct c; cbn [instance]; unfold omap, obind, oret;
    match goal with
    | |- context [read_single ?a ?b ?c ?d ?x ?y ?z] => destruct (read_single a b c d x y z) as [[[k v1] s1]| |]; reflexivity
    | |- context [read_array ?a ?b ?c ?d ?x ?y ?i ?z] => destruct (read_array a b c d x y i z) as [[[[k v1] i1] s1]| |]; reflexivity
    end.
Qed.

(** Reading into an object whose value before does not matter: unless the read fails. *)
Definition same (a b : res (rstat * list byte * rstream)) : Prop :=
  match a, b with
  | Done (k, x, s), Done (j, y, t) => k = j /\ s = t /\ (k = SFail \/ x = y)
  | Throw, Throw | Undef, Undef => True
  | _, _ => False
  end.
Lemma same_refl a : same a a.
Proof. destruct a as [[[k x] s]| |]; cbn; auto. Qed.
Lemma raw_indep n a b s : len a = n -> len b = n ->
  match rs_raw n a s, rs_raw n b s with
  | Done (g, x, s1), Done (h, y, s2) => g = h /\ s1 = s2 /\ (g = n -> x = y)
  | Undef, Undef => True
  | _, _ => False
  end.
Proof.
  intros La Lb. unfold rs_raw. destruct (if N.ltb (rs_size s) (add64 (rs_pos s) n) then _ else _) as [ep g].
  rewrite La, Lb. destruct (_ && _)%bool; [|exact Logic.I]. split; [reflexivity|]. split; [reflexivity|]. intros ->.
  rewrite (drop_all a n), (drop_all b n) by lia. reflexivity.
Qed.
Lemma read1_indep k a b s : k = KUuid \/ k = KHash -> len a = ksize k -> len b = ksize k ->
  match rs_read k 1 a s, rs_read k 1 b s with
  | Done (g, x, s1), Done (h, y, s2) => g = h /\ s1 = s2 /\ (g = 1%N -> x = y)
  | Undef, Undef | Throw, Throw => True
  | _, _ => False
  end.
Proof.
  intros [-> | ->] La Lb; cbn [ksize] in La, Lb; cbn [rs_read].
  - change (N.to_nat 1) with 1. cbn [rs_uuids]. destruct (rs_words W8 16 (rep x00 16) s) as [[[g r] s1]| |]; cbn [bind]; auto.
    destruct (N.eqb g 16); [|repeat split; discriminate].
    rewrite La, Lb. destruct (N.leb _ _); [|exact Logic.I]. cbn [rs_uuids]. split; [reflexivity|]. split; [reflexivity|]. intros _.
    rewrite (drop_all a), (drop_all b) by lia. reflexivity.
  - change (mul64 32 1) with 32%N. cbn [rs_words]. pose proof (raw_indep 32 a b s La Lb) as R.
    destruct (rs_raw 32 a s) as [[[g x] s1]| |] eqn:Ea, (rs_raw 32 b s) as [[[h y] s2]| |]; try contradiction; cbn [bind]; auto.
    destruct R as (-> & -> & R). split; [reflexivity|]. split; [reflexivity|]. intros Q. apply R.
    assert (L : (h <= len a)%N).
    { revert Ea. unfold rs_raw. destruct (if N.ltb _ _ then _ else _) as [ep g]. destruct ((_ <=? _) && (_ <=? _))%N eqn:B; [|discriminate].
      intros E. injection E as <- _ _. apply andb_prop in B. destruct B as [_ B]. apply N.leb_le in B. exact B. }
    rewrite La in L. assert (D : (32 <= h)%N); [|lia]. destruct (N.lt_ge_cases h 32) as [X|X]; [|exact X].
    rewrite N.div_small in Q by exact X. discriminate Q.
Qed.
Lemma pod_indep e vt k key a b s : k = KUuid \/ k = KHash -> len a = ksize k -> len b = ksize k ->
  same (read_pod e vt k 1 key false a s) (read_pod e vt k 1 key false b s).
Proof.
  intros Hk La Lb. unfold read_pod. destruct (rs_u8 s) as [[v s1]| |]; cbn [bind]; try exact Logic.I.
  destruct (negb (N.eqb v vt)); [cbn; auto|]. destruct (rs_u8 s1) as [[v2 s2]| |]; cbn [bind]; try exact Logic.I.
  destruct (negb (N.eqb v2 _)); cbn [andb negb]; [cbn; auto|].
  pose proof (read1_indep k a b s2 Hk La Lb) as R.
  destruct (rs_read k 1 a s2) as [[[g x] s3]| |], (rs_read k 1 b s2) as [[[h y] s4]| |]; try contradiction; cbn [bind]; try exact Logic.I.
  destruct R as (-> & -> & R). destruct (N.eqb h 1) eqn:Eh; cbn [negb]; [|cbn; auto]. apply N.eqb_eq in Eh. rewrite (R Eh). apply same_refl.
Qed.
Lemma read_over_er e raw key t i b c st :
  base_type_variant i = Some t -> (t = TUuid \/ t = THash) -> val_ok t (raw i) ->
  single_instance ("VT_" ^^ b) i = Some (vt_single t, dshape t) -> array_instance ("VT_Array_" ^^ b) i = Some (vt_array t, dshape t) ->
  read_over (host_r e raw key) b i (fun v => v) c st = Some (er_read_override e t key c st).
Proof.
  intros H Ht V S A. unfold read_over. rewrite (read_plain_er e raw key i t b _ st H S A). unfold er_read_override.
  assert (Q : omap (fun r => let '(ok, tmp, s1) := r in if ok : bool then (true, taken_over (fun v => v) c tmp, s1) else (false, c, s1))
      (Some (er_read_plain e t key (default_content (host_r e raw key) i (cval_ctype c)) st))
    = omap (fun r => let '(ok, tmp, s1) := r in if ok : bool then (true, taken_over (fun v => v) c tmp, s1) else (false, c, s1))
      (Some (er_read_plain e t key (cval_default t (cval_ctype c)) st))).
  { destruct c; try reflexivity. cbn [cval_ctype default_content cval_default er_read_plain h_raw host_r].
    assert (K : exists k, dshape t = ShPod k 1 /\ (k = KUuid \/ k = KHash)) by (destruct Ht as [-> | ->]; [exists KUuid|exists KHash]; auto).
    destruct K as (k & Ek & Hk). unfold val_ok, shape_ok in V. rewrite Ek in V |- *. destruct (raw i) as [?|?|img]; try contradiction.
    cbn [read_single val_default pod_image]. 
    pose proof (pod_indep e (vt_single t) k key img (rep x00 (1 * ksize k)) st Hk) as P. rewrite len_rep in P.
    specialize (P ltac:(lia) ltac:(lia)).
    destruct (read_pod e (vt_single t) k 1 key false img st) as [[[k1 x] s1]| |], (read_pod e (vt_single t) k 1 key false (rep x00 (1 * ksize k)) st) as [[[k2 y] s2]| |];
      try contradiction; cbn [bind]; try reflexivity.
    destruct P as (-> & -> & [-> | ->]); reflexivity. }
  rewrite Q. clear Q. destruct (er_read_plain e t key (cval_default t (cval_ctype c)) st) as [[[[] tmp] s1]| |]; cbn [omap obind bind negb]; try reflexivity.
  unfold oret. do 3 f_equal. f_equal. unfold taken_over. rewrite cmap_id. destruct c, tmp; rewrite ?map_id; reflexivity.
Qed.
(** What uninitialised variables hold is of the size of their type. *)
Definition raw_ok (raw : string -> val) : Prop := forall n t, base_type_variant n = Some t -> val_ok t (raw n).
Theorem project_read e raw key n t d c st : raw_ok raw -> base_type_variant n = Some t ->
  call (host_r e raw key) (r_all isd_types) (S (S d)) (type_of n (cval_ctype c)) false c st = Some (er_read e t key c st).
Proof.
  intros V H. pose proof (all_listed_r e raw key) as L.
  assert (R : (n = "entity_ref" /\ t = TEntityRef) \/ (n = "package_ref" /\ t = TPackageRef) \/ (t <> TEntityRef /\ t <> TPackageRef)).
  { apply assoc_in in H. unfold type_names in H.
    repeat (destruct H as [H|H]; [injection H as <- <-; auto; right; right; split; discriminate|]). destruct H. }
  destruct R as [[-> ->]|[[-> ->]|[N1 N2]]].
  - rewrite (r_over_call isd_types _ isd_proper L d "entity_ref" "uuid" "Uuid" (fun v => v) c st).
    + apply (read_over_er e raw key TUuid "uuid" "Uuid"); auto.
    + eexists. split; [apply (entry_in "entity_ref"); vm_compute; reflexivity|repeat split].
    + eexists. split; [apply (entry_in "uuid"); vm_compute; reflexivity|repeat split].
    + reflexivity.
  - rewrite (r_over_call isd_types _ isd_proper L d "package_ref" "hash" "Hash" (fun v => v) c st).
    + apply (read_over_er e raw key THash "hash" "Hash"); auto.
    + eexists. split; [apply (entry_in "package_ref"); vm_compute; reflexivity|repeat split].
    + eexists. split; [apply (entry_in "hash"); vm_compute; reflexivity|repeat split].
    + reflexivity.
  - destruct (plain_entries n t H N1 N2) as (b & As & I1 & I2).
    rewrite (r_plain_call isd_types _ isd_proper L (S d) n b c st As), (read_plain_er e raw key n t b c st H I1 I2).
    destruct t; try reflexivity; exfalso; [apply N1|apply N2]; reflexivity.
Qed.
