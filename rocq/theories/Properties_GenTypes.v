(** * C48: the numbers of the data types and the table of dynamic types, for every list of types. *)
From Verif Require Import Base Bytes Types DynTypes GenTypes GenTypesSpec GenTypesFacts.
Local Open Scope N_scope.

(** C48: the enumerators of data_type_index: for every list of base types, exactly the variants of the list have a number,
    and variant j of base type i has the number 16 (i + 1) + j + 1. *)
Theorem C48_numbers : forall (A : Type) (types : list (list A)) d a, In (d, a) (type_enum types) <-> numbered types d a.
Proof. intros. apply enum_in. Qed.
Print Assumptions C48_numbers.

(** C48: the numbers are unique exactly if no base type, except the last one, has more than 16 variants. (The list has no
    base types without variants.) *)
Theorem C48_unique_iff : forall (A : Type) (types : list (list A)), Forall (fun vs => vs <> []) types ->
  (numbers_unique types <-> forall i vs, nth_error types i = Some vs -> (i + 1 < length types)%nat -> (length vs <= 16)%nat).
Proof.
  intros A types Hn. split; [|apply unique_small]. intros Hu i vs Hi Hl.
  destruct (nth_error types (S i)) as [ws|] eqn:E; [|apply nth_error_None in E; lia].
  apply (unique_only types i vs ws Hu Hi E). rewrite Forall_forall in Hn. apply Hn. eapply nth_error_In. exact E.
Qed.
Print Assumptions C48_unique_iff.

(** C48: adding base types at the end of the list, and variants at the end of base types, changes no number: files written
    before can still be read. *)
Theorem C48_stable : forall (A : Type) (types later : list (list A)) d a,
  extends types later -> numbered types d a -> numbered later d a.
Proof. intros A types later d a. apply extends_numbered. Qed.
Print Assumptions C48_stable.

(** C48: for every list of types and containers with unique numbers, every size of the table larger than the number of
    combinations, and all multipliers (such that the hashes of the types of the list do not wrap): the generator ends, and
    the emitted lookup ends for all ids, within the table, after at most as many steps as the table has slots; it
    finds exactly the combination with these ids, null if there is none. *)
Theorem C48_lookup : forall (A C : Type) (types : list (list A)) (conts : list (N * C)) size m1 m2 n,
  numbers_unique types -> NoDup (map fst conts) -> (combinations types conts < size)%nat -> (size <= n)%nat ->
  (forall d a c, numbered types d a -> In c (map fst conts) -> d * m1 + c * m2 < 2^64) ->
  exists tab, gen_table size m1 m2 n types conts = Some tab /\ forall dt ct, exists r, gen_find size m1 m2 n tab dt ct = Some r /\
    forall x, r = Some x <-> en_dt x = dt /\ en_ct x = ct /\ numbered types dt (en_variant x) /\ In (ct, en_container x) conts.
Proof. intros A C types conts size m1 m2 n. apply t_lookup. Qed.
Print Assumptions C48_lookup.

(** C48, findings. The generator does not check that the table has an empty slot: with as many combinations as slots it
    emits a table in which the lookup of ids that no type has never ends; *)
Theorem C48_full_table_refuted : forall (A C : Type) (types : list (list A)) (conts : list (N * C)) size m1 m2 n dt ct,
  combinations types conts = size -> (0 < size)%nat -> (size <= n)%nat -> (forall a k, ~ (numbered types dt a /\ In (ct, k) conts)) ->
  exists tab, gen_table size m1 m2 n types conts = Some tab /\ forall steps, gen_find size m1 m2 steps tab dt ct = None.
Proof. intros A C types conts size m1 m2 n dt ct. apply t_full. Qed.
Print Assumptions C48_full_table_refuted.
(** with more combinations than slots the generator itself never ends. *)
Theorem C48_too_many_refuted : forall (A C : Type) (types : list (list A)) (conts : list (N * C)) size m1 m2,
  (size < combinations types conts)%nat -> (0 < size)%nat -> forall steps, gen_table size m1 m2 steps types conts = None.
Proof. intros A C types conts size m1 m2. apply t_too_many. Qed.
Print Assumptions C48_too_many_refuted.

(** The list of the project, CodeGeneratorHelpers.py:27-75, with the parameters of ISD_DynamicTypes.py:23-25: it meets the
    conditions, has the ids of Types.v, and the table is the one of DynTypes.v. *)
Definition same_base (t u : dtype) : bool := (dt_id t / 16 =? dt_id u / 16).
Fixpoint group (l : list dtype) : list (list dtype) :=
  match l with
  | [] => []
  | t :: r => match group r with
              | (u :: vs) :: more => if same_base t u then (t :: u :: vs) :: more else [t] :: (u :: vs) :: more
              | other => [t] :: other
              end
  end.
Definition project_types : list (list dtype) := group all_dtypes.
Definition project_conts : list (N * ctype) := map (fun c => (ct_id c, c)) all_ctypes.
Theorem C48_project :
  length project_types = 20%nat /\ concat project_types = all_dtypes /\ numbers_unique project_types /\ NoDup (map fst project_conts) /\
  combinations project_types project_conts = 324%nat /\
  (forall d a c, numbered project_types d a -> In c (map fst project_conts) -> d * dt_mult + c * ct_mult < 2^64) /\
  type_enum project_types = map (fun t => (dt_id t, t)) all_dtypes /\
  option_map (map (option_map (fun x => (en_variant x, en_container x)))) (gen_table table_size dt_mult ct_mult table_size project_types project_conts)
    = Some class_table.
Proof.
  split; [reflexivity|]. split; [reflexivity|].
  split. { apply unique_small. intros i vs H _. assert (X : Forall (fun vs => (length vs <= 16)%nat) project_types) by (vm_compute; repeat constructor).
    rewrite Forall_forall in X. apply X. eapply nth_error_In. exact H. }
  split; [vm_compute; repeat constructor; cbn; intuition discriminate|]. split; [reflexivity|].
  split. { intros d a c H Hc. apply enum_in in H. assert (d < 1000).
    { assert (X : Forall (fun d => fst d < 1000) (type_enum project_types)) by (vm_compute; repeat constructor). rewrite Forall_forall in X. exact (X _ H). }
    assert (c < 1000). { assert (X : Forall (fun c => c < 1000) (map fst project_conts)) by (vm_compute; repeat constructor). rewrite Forall_forall in X. exact (X _ Hc). }
    unfold dt_mult, ct_mult. change (2^64) with 18446744073709551616. lia. }
  split; [vm_compute; reflexivity|]. vm_compute. reflexivity.
Qed.
Print Assumptions C48_project.

(** The other hypotheses are met: three types in a table with three slots, four in the same table, and the list of
    the project extended by a type. *)
Example C48_example :
  let types := [[1; 2]; [3]] in let conts := [(0, tt)] in
  combinations types conts = 3%nat /\
  (exists tab, gen_table 3 109 991 3 types conts = Some tab /\ gen_find 3 109 991 1000 tab 5 5 = None /\
     option_map (option_map en_variant) (gen_find 3 109 991 1000 tab 0x12 0) = Some (Some 2)) /\
  gen_table 3 109 991 1000 [[1; 2]; [3; 4]] conts = None /\
  (exists tab, gen_table 5 109 991 5 [[1; 2]; [3; 4]] conts = Some tab /\ gen_find 5 109 991 5 tab 5 5 = Some None) /\
  extends types [[1; 2; 7]; [3]; [8]] /\ numbered types 0x21 3 /\
  ~ numbers_unique [repeat 1 17; [2]].
Proof.
  cbv zeta. split; [reflexivity|]. split; [eexists; split; [vm_compute; reflexivity|split; vm_compute; reflexivity]|].
  split; [vm_compute; reflexivity|]. split; [eexists; split; vm_compute; reflexivity|].
  split; [apply (ext_type [1; 2] [7]), (ext_type [3] []), ext_end|].
  split; [exists 1%nat, 0%nat, [3]; repeat split|]. intros H.
  pose proof (H 0%nat 16%nat 1%nat 0%nat (repeat 1 17) [2] 1 2 eq_refl eq_refl eq_refl eq_refl eq_refl) as (X & _). discriminate X.
Qed.
