(** * C42: EntityTable owns its entities: no leaks, no dangling references, no sharing. *)
From Verif Require Import Base Bytes Values Types Keys KeySpec Containers ValueEqSpec Graph Classes Table TableSpec EntityGen EntitySpec EntityFacts EntityCodec
  TableHeap TableHeapSpec TableHeapFacts TableHeapProofs Properties_Keys Properties_Entity Properties_Table.
Open Scope N_scope.

(** C42: every program that the specification of finite maps and entry names calls legal runs without undefined behaviour
    and without exceptions; all answers (values behind references, comparisons, sizes, lookups) are those of the finite
    maps; at the end the heap represents the maps: every object belongs to exactly one entry (nothing is leaked or
    shared), and every valid reference refers to the entity of its entry. *)
Theorem C42_programs : forall K T (Ko : keyops K) (U : umap_impl K) (M : mf T) left P prog,
  key_laws Ko -> copies_in M P -> Forall (uses P) prog -> a_legals Ko M prog a_start ->
  exists answers s, h_run Ko U M left prog h_start = Done (answers, s) /\
    a_answers Ko M prog a_start answers /\ represents Ko s (a_nexts Ko M prog a_start).
Proof.
  intros K T Ko U M left P prog KL CP HU L. destruct (run_ok Ko KL U M left P prog CP h_start a_start (start_ok Ko)) as (a & s & E & R & A); auto.
  - intros i k x H. discriminate.
  - exists a, s. auto.
Qed.
Print Assumptions C42_programs.
(** C42: all other programs have undefined behaviour, at the first operation that is not legal: the legality conditions
    are exact. *)
Theorem C42_exact : forall K T (Ko : keyops K) (U : umap_impl K) (M : mf T) left P prog,
  key_laws Ko -> copies_in M P -> Forall (uses P) prog -> ~ a_legals Ko M prog a_start -> h_run Ko U M left prog h_start = Undef.
Proof.
  intros K T Ko U M left P prog KL CP HU L. apply (run_undef Ko KL U M left P prog CP h_start a_start (start_ok Ko)); auto. intros i k x H. discriminate.
Qed.
Print Assumptions C42_exact.
(** C42: when all tables are destroyed, no object is left. *)
Theorem C42_no_leak : forall K T (Ko : keyops K) (U : umap_impl K) (M : mf T) left P prog,
  key_laws Ko -> copies_in M P -> Forall (uses P) prog -> a_legals Ko M prog a_start ->
  (forall i, a_tabs (a_nexts Ko M prog a_start) i = None) ->
  exists answers s, h_run Ko U M left prog h_start = Done (answers, s) /\ forall a, cells (h_mem s) a = None.
Proof.
  intros K T Ko U M left P prog KL CP HU L HN. destruct (C42_programs K T Ko U M left P prog KL CP HU L) as (a & s & E & _ & R). exists a, s. split; [exact E|].
  intros b. destruct (cells (h_mem s) b) as [x|] eqn:Ex; [|reflexivity]. destruct (rp_no_leak _ _ _ R b x Ex) as (i & k & H).
  unfold address in H. pose proof (rp_tables _ _ _ R i) as Q. rewrite HN in Q. destruct (h_tabs s i); [contradiction|discriminate].
Qed.
Print Assumptions C42_no_leak.
(** C42: the reference that Insert returns stays valid, and refers to the entry it was made for, whatever happens to
    other entries and other tables: insertions (also those that make the map grow), erasures, copies and moves. *)
Theorem C42_references_stay_valid : forall K T (Ko : keyops K) (M : mf T) p i k r q, key_laws Ko -> Forall (keeps i k r) q ->
  a_refs (a_nexts Ko M (p ++ HInsert i k r :: q) a_start) r = Some (i, k).
Proof.
  intros K T Ko M p i k r q KL H. rewrite nexts_app. cbn [a_nexts fold_left]. apply (keeps_refs Ko KL M i k r q H).
  cbn [a_next with_ref a_refs]. destruct (a_map i (a_nexts Ko M p a_start) k); apply upd_same.
Qed.
Print Assumptions C42_references_stay_valid.
(** C42: the entities of all classes can be copied; copies are identical. *)
Theorem C42_entities : forall U s, copies_in (smf U s) (s_ok s) /\ forall x, s_ok s x -> s_ident s (copy_of (smf U s) x) x.
Proof.
  intros U s. split.
  - split; [apply s_new_ok|]. intros x H. destruct (proj1 (copy_both U) s (m_new (smf U s)) x (s_new_ok U s) H) as (y & E & O & _). exists y. auto.
  - intros x H. unfold copy_of. destruct (proj1 (copy_both U) s (m_new (smf U s)) x (s_new_ok U s) H) as (y & E & _ & J). rewrite E. exact J.
Qed.
Print Assumptions C42_entities.

(** C42, findings: a reference is dangling after x = x, and after DeepCopy to the table it was taken from; Insert of a
    key whose entity is null has undefined behaviour. *)
Theorem C42_self_assignment_refuted : h_run er_ops er_u te_mf (fun n => n)
  [HNew 1; HInsert 1 k1 7; HStore 7 (te [x61] None); HAssign 1 1; HLoad 7] h_start = Undef.
Proof. vm_compute. reflexivity. Qed.
Print Assumptions C42_self_assignment_refuted.
Theorem C42_insert_null_refuted : h_run er_ops er_u te_mf (fun n => n) [HNew 1; HNull 1 k1; HInsert 1 k1 7] h_start = Undef.
Proof. vm_compute. reflexivity. Qed.
Print Assumptions C42_insert_null_refuted.

(** The hypotheses are met: references through copies, moves, insertions and erasures; a copy does not share. *)
Definition prog42 : list (hop (key TEntityRef) (ty TestEntity)) :=
  [HNew 1; HInsert 1 k1 7; HStore 7 (te [x61] None); HInsert 1 k2 8; HCopyNew 2 1; HEquals 1 2; HMoveNew 3 1; HStore 7 (te [x62] None);
   HFind 2 k1 9; HLoad 9; HErase 3 k2; HIndex 3 k1 10; HLoad 10; HSize 3; HSize 1; HEquals 2 3; HDestroy 1; HDestroy 2; HLoad 7; HDestroy 3].
Example C42_example : key_laws er_ops /\ copies_in te_mf (s_ok TestEntity) /\ Forall (uses (s_ok TestEntity)) prog42 /\ a_legals er_ops te_mf prog42 a_start /\
  (forall i, a_tabs (a_nexts er_ops te_mf prog42 a_start) i = None) /\
  exists s, h_run er_ops er_u te_mf (fun n => n) prog42 h_start = Done
    ([AVoid; AVoid; AVoid; AVoid; AVoid; ABool true; AVoid; AVoid; AFound; AValue (te [x61] None); AVoid; AVoid; AValue (te [x62] None); ASize 1; ASize 0; ABool false;
      AVoid; AVoid; AValue (te [x62] None); AVoid], s) /\ nexta (h_mem s) = 4.
Proof.
  split; [exact (klaws k_entity_ref)|]. split; [apply C42_entities|]. split; [repeat constructor; vm_compute; auto|].
  split; [|split; [|eexists; split; vm_compute; reflexivity]].
  - cbn [a_legals prog42 a_legal]. repeat split; try (vm_compute; congruence).
    + eexists. split; [vm_compute; reflexivity|]. vm_compute. congruence.
    + eexists. split; [vm_compute; reflexivity|]. vm_compute. congruence.
    + eexists _, _. split; [vm_compute; reflexivity|]. vm_compute. reflexivity.
  - intros i. destruct i as [|[[p|p|]|[p|p|]|]]; vm_compute; reflexivity.
Qed.
