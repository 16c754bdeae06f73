(** * GenDataFacts: proofs about the text of the data types. *)
From Coq Require Import Strings.String.
From Verif Require Import Base Bytes BytesFacts Values Types Keys KeyFacts DynTypes DynTypesFacts Refs GenText CppText CppFun CppDyn GenTypes GenRW GenDyn GenData CppData GenDataSpec.
Local Open Scope string_scope.
Local Open Scope list_scope.
Local Open Scope N_scope.

Definition parsed : option genv := compile_data (data_header isd_types) data_source pointers_header.
Definition data_genv : genv := Eval vm_compute in match parsed with Some G => G | None => empty_genv end.
Lemma data_compiled : compile_data (data_header isd_types) data_source pointers_header = Some data_genv.
Proof. vm_compute. reflexivity. Qed.

(** ** The members of data_type_information *)
Definition members_ok (G : genv) (t : dtype) : Prop :=
  let n := cpp_name t in
  (exists u w, type_called G (component_name t) = Some u /\ member_using G n "value_type" = Some u /\
     lsize u = w /\ (forall s, type_size t = Some s -> exists x, w = Some x /\ component_count t * x = s)) /\
  member_number G n "value_count" = Some (component_count t) /\
  member_text G n "value_name" = Some (component_name t) /\ member_text G n "type_name" = Some n /\
  member_number G n "type_index" = Some (dt_id t) /\
  has_member G n "zero" = true /\ has_member G n "inf" = true /\ (has_member G n "sup" = true <-> t <> TString).
Ltac each_type t := destruct t as [|[]|[]|[]|[] []|[] []|[] []|[] []|[]| | | | |].
Lemma members t : members_ok data_genv t.
Proof.
  each_type t; (split; [eexists; eexists; split; [vm_compute; reflexivity|]; split; [vm_compute; reflexivity|]; split; [reflexivity|]; intros s E; vm_compute in E; try discriminate E;
    injection E as <-; eexists; split; vm_compute; reflexivity|]);
  (split; [vm_compute; reflexivity|]); (split; [vm_compute; reflexivity|]); (split; [vm_compute; reflexivity|]); (split; [vm_compute; reflexivity|]);
  (split; [vm_compute; reflexivity|]); (split; [vm_compute; reflexivity|]);
  (split; [intros A; try discriminate; vm_compute in A; discriminate A|intros A; try (vm_compute; reflexivity); destruct (A eq_refl)]).
Qed.
Lemma pointers c t v : t <> TBool -> t <> TEntityRef -> t <> TPackageRef ->
  exists u, type_called data_genv (component_name t) = Some u /\ ask_ptr data_genv c (cpp_name t) v = Some (u, c, true).
Proof.
  intros A B C. destruct c; each_type t; try (destruct (A eq_refl)); try (destruct (B eq_refl)); try (destruct (C eq_refl)); eexists; (split; vm_compute; reflexivity).
Qed.
Lemma no_pointers c t v : t = TBool \/ t = TEntityRef \/ t = TPackageRef -> ask_ptr data_genv c (cpp_name t) v = None.
Proof. intros [->|[->| ->]]; destruct c; vm_compute; reflexivity. Qed.

(** ** The limits *)
Definition option_eqb {A} (eqb : A -> A -> bool) (a b : option A) : bool :=
  match a, b with Some x, Some y => eqb x y | None, None => true | _, _ => false end.
Lemma zero_default t : member_value data_genv (cpp_name t) "zero" = Some (val_default (dshape t)).
Proof. each_type t; vm_compute; reflexivity. Qed.
Definition inf_of (t : dtype) : val := match member_value data_genv (cpp_name t) "inf" with Some v => v | None => VB false end.
Definition sup_of (t : dtype) : val := match member_value data_genv (cpp_name t) "sup" with Some v => v | None => VB false end.
Lemma inf_key t : is_key t = true -> member_value data_genv (cpp_name t) "inf" = Some (key_inf t).
Proof. each_type t; intros H; try discriminate H; vm_compute; reflexivity. Qed.
Lemma sup_key t : is_node t = true -> member_value data_genv (cpp_name t) "sup" = Some (key_sup t).
Proof. each_type t; intros H; try discriminate H; vm_compute; reflexivity. Qed.
Lemma inf_there t : member_value data_genv (cpp_name t) "inf" = Some (inf_of t).
Proof. each_type t; vm_compute; reflexivity. Qed.
Lemma sup_there t : t <> TString -> member_value data_genv (cpp_name t) "sup" = Some (sup_of t).
Proof. intros A. each_type t; try (destruct (A eq_refl)); vm_compute; reflexivity. Qed.
Lemma no_sup : member_value data_genv "string" "sup" = None.
Proof. vm_compute. reflexivity. Qed.

Lemma weight_of_le b : weight b = of_le b.
Proof. induction b as [|x b IH]; [reflexivity|]. cbn [weight of_le]. rewrite IH. reflexivity. Qed.
(** The least and the greatest number of a format. *)
Definition low (k : numeral) : Z :=
  match k with
  | NUnsigned _ => 0 | NSigned w => - 2 ^ Z.of_N (8 * w - 1)
  | NSingle => - ((2 ^ 24 - 1) * 2 ^ 253) | NDouble => - ((2 ^ 53 - 1) * 2 ^ 2045)
  end%Z.
Definition high (k : numeral) : Z :=
  match k with
  | NUnsigned w => 2 ^ Z.of_N (8 * w) - 1 | NSigned w => 2 ^ Z.of_N (8 * w - 1) - 1
  | NSingle => (2 ^ 24 - 1) * 2 ^ 253 | NDouble => (2 ^ 53 - 1) * 2 ^ 2045
  end%Z.
Definition upto (n : N) : list N := map N.of_nat (seq 0 (N.to_nat n)).
Lemma upto_in n i : i < n -> In i (upto n).
Proof. intros H. apply in_map_iff. exists (N.to_nat i). split; [lia|]. apply in_seq. lia. Qed.
Definition all_numbers (k : numeral) (n : N) (v : val) (z : Z) : bool := forallb (fun i => option_eqb Z.eqb (nth_number k i v) (Some z)) (upto n).
Lemma all_numbers_nth k n v z i : all_numbers k n v z = true -> i < n -> nth_number k i v = Some z.
Proof.
  intros A H. unfold all_numbers in A. rewrite forallb_forall in A. specialize (A i (upto_in _ _ H)).
  destruct (nth_number k i v) as [y|]; [|discriminate A]. apply Z.eqb_eq in A. congruence.
Qed.
Lemma limits_numbers t k n : numbers t = Some (k, n) ->
  all_numbers k n (val_default (dshape t)) 0 = true /\ all_numbers k n (inf_of t) (low k) = true /\ all_numbers k n (sup_of t) (high k) = true.
Proof.
  assert (Q : forallb (fun t => match numbers t with
     | Some (k, n) => all_numbers k n (val_default (dshape t)) 0 && (all_numbers k n (inf_of t) (low k) && all_numbers k n (sup_of t) (high k))
     | None => true end) all_dtypes = true) by (vm_compute; reflexivity).
  intros H. rewrite forallb_forall in Q. specialize (Q t (all_dtypes_all t)). rewrite H in Q. apply andb_prop in Q. destruct Q as [Q1 Q].
  apply andb_prop in Q. destruct Q as [Q2 Q3]. auto.
Qed.
Lemma width_size t k n v : numbers t = Some (k, n) -> val_ok t v -> exists b, v = VP b /\ len b = n * nwidth k.
Proof.
  intros H V. assert (exists b, v = VP b /\ len b = n * nwidth k); [|assumption].
  each_type t; try discriminate H; injection H as <- <-; destruct v as [|s|b]; try (exfalso; exact V); exists b; (split; [reflexivity|]); exact V.
Qed.
Lemma part_len k n i (b : list byte) : len b = n * nwidth k -> i < n -> len (take (nwidth k) (drop (i * nwidth k) b)) = nwidth k.
Proof. intros L H. rewrite len_take, len_drop, L. nia. Qed.
Lemma ieee_bound eb mb n x : n < 2 ^ (eb + mb + 1) -> 2 <= eb -> ieee eb mb n = Some x ->
  (Z.abs x <= (2 ^ (Z.of_N mb + 1) - 1) * 2 ^ (2 ^ Z.of_N eb - 3))%Z.
Proof.
  intros B E. unfold ieee. set (e := n / 2 ^ mb mod 2 ^ eb). set (m := n mod 2 ^ mb).
  assert (Pm : 2 ^ mb <> 0) by (apply N.pow_nonzero; lia). assert (Pe : 2 ^ eb <> 0) by (apply N.pow_nonzero; lia).
  assert (Hm : m < 2 ^ mb) by (apply N.mod_lt; exact Pm). assert (He : e < 2 ^ eb) by (apply N.mod_lt; exact Pe). clearbody e m.
  assert (Le : 2 ^ 2 <= 2 ^ eb) by (apply N.pow_le_mono_r; lia). change (2 ^ 2) with 4 in Le.
  destruct (N.eqb_spec e (2 ^ eb - 1)) as [|Ne]; [discriminate|].
  set (a := if e =? 0 then m else (2 ^ mb + m) * 2 ^ (e - 1)).
  assert (Ha : a <= (2 ^ (mb + 1) - 1) * 2 ^ (2 ^ eb - 3)).
  { assert (P1 : 1 <= 2 ^ (2 ^ eb - 3)) by (change 1 with (2 ^ 0); apply N.pow_le_mono_r; lia).
    assert (P2 : 2 ^ (mb + 1) = 2 * 2 ^ mb) by (rewrite N.add_1_r, N.pow_succ_r'; reflexivity).
    unfold a. destruct (N.eqb_spec e 0).
    - rewrite P2. clear - Hm P1. nia.
    - rewrite P2. apply N.mul_le_mono; [lia|]. apply N.pow_le_mono_r; lia. }
  assert (Hz : (Z.of_N a <= (2 ^ (Z.of_N mb + 1) - 1) * 2 ^ (2 ^ Z.of_N eb - 3))%Z).
  { apply N2Z.inj_le in Ha. rewrite N2Z.inj_mul, N2Z.inj_sub, !N2Z.inj_pow in Ha.
    2:{ assert (2 ^ (mb + 1) <> 0) by (apply N.pow_nonzero; lia). lia. }
    rewrite N2Z.inj_add, N2Z.inj_sub, N2Z.inj_pow in Ha by lia. exact Ha. }
  intros [= <-]. clear - Hz. destruct (n / 2 ^ (eb + mb) =? 0); lia.
Qed.
Lemma number_bounds k b x : (forall w, k = NUnsigned w \/ k = NSigned w -> 1 <= w) -> len b = nwidth k -> number_in k b = Some x -> (low k <= x <= high k)%Z.
Proof.
  intros W L H. assert (B := of_le_bound b). rewrite L in B. rewrite <- weight_of_le in B. set (n := weight b) in *.
  destruct k as [w|w| |]; cbn [number_in low high nwidth] in *; fold n in H.
  - injection H as <-. change 256 with (2 ^ 8) in B. rewrite <- N.pow_mul_r in B. apply N2Z.inj_lt in B. rewrite N2Z.inj_pow in B. change (Z.of_N 2) with 2%Z in B. lia.
  - specialize (W w (or_intror eq_refl)).
    assert (P : 2 ^ (8 * w) = 2 * 2 ^ (8 * w - 1)) by (rewrite <- N.pow_succ_r'; f_equal; lia).
    change 256 with (2 ^ 8) in B. rewrite <- N.pow_mul_r, P in B.
    assert (Q : (2 ^ Z.of_N (8 * w) = 2 * 2 ^ Z.of_N (8 * w - 1))%Z) by (rewrite <- Z.pow_succ_r by lia; f_equal; lia).
    assert (R : (2 ^ Z.of_N (8 * w - 1) = Z.of_N (2 ^ (8 * w - 1)))%Z) by (rewrite N2Z.inj_pow; reflexivity).
    injection H as <-. destruct (N.ltb_spec n (2 ^ (8 * w - 1))); lia.
  - apply ieee_bound in H; [|exact B|lia]. change (Z.of_N 23 + 1)%Z with 24%Z in H. change (2 ^ Z.of_N 8 - 3)%Z with 253%Z in H. lia.
  - apply ieee_bound in H; [|exact B|lia]. change (Z.of_N 52 + 1)%Z with 53%Z in H. change (2 ^ Z.of_N 11 - 3)%Z with 2045%Z in H. lia.
Qed.
Lemma numbers_width t k n : numbers t = Some (k, n) -> forall w, k = NUnsigned w \/ k = NSigned w -> 1 <= w.
Proof. each_type t; intros H; try discriminate H; injection H as <- <-; intros w [E|E]; try discriminate E; injection E as <-; cbn; lia. Qed.
Lemma numbers_within t k n v : numbers t = Some (k, n) -> val_ok t v -> forall i x, i < n -> nth_number k i v = Some x ->
  nth_number k i (inf_of t) = Some (low k) /\ nth_number k i (sup_of t) = Some (high k) /\ (low k <= x <= high k)%Z.
Proof.
  intros H V i x Hi E. destruct (width_size _ _ _ _ H V) as (b & -> & L). destruct (limits_numbers _ _ _ H) as (_ & B & C).
  split; [exact (all_numbers_nth _ _ _ _ _ B Hi)|]. split; [exact (all_numbers_nth _ _ _ _ _ C Hi)|].
  eapply number_bounds; [exact (numbers_width _ _ _ H)|exact (part_len _ _ _ _ L Hi)|exact E].
Qed.

(** Byte strings. *)
Lemma before_lex a b : bytes_before a b <-> lex a b = Datatypes.Lt.
Proof.
  split.
  - intros [(p & x & y & r & s & -> & -> & H)|(y & s & ->)].
    + induction p as [|z p IH]; cbn; [rewrite (proj2 (N.compare_lt_iff _ _) H); reflexivity|]. rewrite N.compare_refl. exact IH.
    + induction a as [|z a IH]; cbn; [reflexivity|]. rewrite N.compare_refl. exact IH.
  - revert b. induction a as [|x a IH]; intros [|y b] H; cbn in H; try discriminate H.
    + right. exists y, b. reflexivity.
    + destruct (N.compare_spec (b2n x) (b2n y)) as [E|E|E]; [|left; exists [], x, y, a, b; auto|discriminate H].
      apply b2n_inj in E. subst y. destruct (IH b H) as [(p & u & w & r & s & -> & -> & L)|(y & s & ->)].
      * left. exists (x :: p), u, w, r, s. auto.
      * right. exists y, s. reflexivity.
Qed.
Lemma before_zeros b n : len b = n -> ~ bytes_before b (rep x00 n).
Proof.
  intros L [(p & x & y & r & s & E1 & E2 & H)|(y & s & E)].
  - assert (In y (rep x00 n)) by (rewrite E2; apply in_or_app; right; left; reflexivity). apply repeat_spec in H0. subst y. change (b2n x00) with 0 in H. lia.
  - assert (len (rep x00 n) = n) by apply len_rep. rewrite E in H. rewrite len_app, len_cons in H. lia.
Qed.
Lemma before_ones b n : len b = n -> ~ bytes_before (rep xff n) b.
Proof.
  intros L [(p & x & y & r & s & E1 & E2 & H)|(y & s & E)].
  - assert (In x (rep xff n)) by (rewrite E1; apply in_or_app; right; left; reflexivity). apply repeat_spec in H0. subst x. change (b2n xff) with 255 in H.
    pose proof (b2n_lt y). lia.
  - assert (len (rep xff n) = n) by apply len_rep. rewrite E, len_app, len_cons in L. lia.
Qed.
Lemma no_empty_after s : ~ bytes_before s [].
Proof. intros [(p & x & y & r & u & _ & E & _)|(y & u & E)]; [destruct p; discriminate E|destruct s; discriminate E]. Qed.
Lemma lower_inf t v : val_ok t v -> lower t (inf_of t) v.
Proof.
  intros V. unfold lower. destruct (numbers t) as [[k n]|] eqn:E.
  - intros i x Hi Ex. destruct (numbers_within _ _ _ _ E V i x Hi Ex) as (A & _ & B). exists (low k). split; [exact A|lia].
  - each_type t; try discriminate E; destruct v; try (exfalso; exact V).
    + discriminate.
    + exact (before_zeros _ 16 V).
    + exact (before_zeros _ 16 V).
    + exact (before_zeros _ 32 V).
    + exact (before_zeros _ 32 V).
    + apply no_empty_after.
Qed.
Lemma upper_sup t v : t <> TString -> val_ok t v -> upper t (sup_of t) v.
Proof.
  intros T V. unfold upper. destruct (numbers t) as [[k n]|] eqn:E.
  - intros i x Hi Ex. destruct (numbers_within _ _ _ _ E V i x Hi Ex) as (_ & A & B). exists (high k). split; [exact A|lia].
  - each_type t; try discriminate E; try (destruct (T eq_refl)); destruct v; try (exfalso; exact V).
    + intros _. vm_compute. reflexivity.
    + exact (before_ones _ 16 V).
    + exact (before_ones _ 16 V).
    + exact (before_ones _ 32 V).
    + exact (before_ones _ 32 V).
Qed.
Lemma limits_typed t : val_ok t (val_default (dshape t)) /\ val_ok t (inf_of t) /\ (t <> TString -> val_ok t (sup_of t)).
Proof.
  each_type t; (split; [vm_compute; reflexivity || exact Logic.I|]); (split; [vm_compute; reflexivity || exact Logic.I|]); intros A;
  (vm_compute; reflexivity || exact Logic.I) || destruct (A eq_refl).
Qed.
Lemma zero_is_zero t : is_zero t (val_default (dshape t)).
Proof.
  unfold is_zero. destruct (numbers t) as [[k n]|] eqn:E.
  - destruct (limits_numbers _ _ _ E) as (A & _). each_type t; try discriminate E; intros i Hi; exact (all_numbers_nth _ _ _ _ _ A Hi).
  - each_type t; try discriminate E; try reflexivity; cbn [val_default dshape]; apply Forall_forall; intros x Hx; apply repeat_spec in Hx; subst; reflexivity.
Qed.

(** ** Identifiers and references *)
Definition LHash : lt := LUnion "HASH" 32.
Definition LRef (k : rkind) : lt := match k with ERef => LClass "entity_ref" "id_m" LGuid | PRef => LClass "package_ref" "hash_m" LHash end.
Definition LId (k : rkind) : lt := match k with ERef => LGuid | PRef => LHash end.
Lemma ref_default_text k : ask_default data_genv (ref_name k) = Some (VP (ref_default k)).
Proof. destruct k; vm_compute; reflexivity. Qed.
Lemma ref_copy_text k a : ask_build data_genv false (ref_name k) (ref_name k) (VP a) = Some (VP (ref_copy a), VP a).
Proof. destruct k; vm_compute; reflexivity. Qed.
Lemma ref_move_text k a : ask_build data_genv true (ref_name k) (ref_name k) (VP a) = Some (VP (ref_copy a), VP (ref_left k)).
Proof. destruct k; vm_compute; reflexivity. Qed.
Lemma ref_assign_text k a b : ask_assign data_genv false (ref_name k) (VP a) (VP b) = Some (VP (ref_copy b), VP b).
Proof. destruct k; vm_compute; reflexivity. Qed.
Lemma ref_take_text k a b : ask_assign data_genv true (ref_name k) (VP a) (VP b) = Some (VP (ref_copy b), VP (ref_left k)).
Proof. destruct k; vm_compute; reflexivity. Qed.
Lemma ref_id_text k a : ask_convert data_genv (ref_name k) (id_name k) (VP a) = Some (VP a).
Proof. destruct k; vm_compute; reflexivity. Qed.
Lemma ref_from_text k a : ask_build data_genv false (ref_name k) (id_name k) (VP a) = Some (VP a, VP a).
Proof. destruct k; vm_compute; reflexivity. Qed.

