(** * Properties_TestTypes: what it takes for the tests of the types to pass (C58). *)
From Verif Require Import Base Bytes BytesFacts Values Types Keys KeySpec KeyFacts Refs RefSpec RefFacts Containers StdSet TestTypes TestTypesFacts.
Local Open Scope nat_scope.

(** Test_entity_ref passes for every uuid that ::UuidCreate can make, except zero: then, and if ::UuidCreate fails, make_ref throws. *)
Theorem C58_entity_ref_test r : len (rp_id r) = 16%N ->
  (rp_ok r = true /\ rp_id r <> repeat x00 16 -> entity_ref_test r = Done true) /\
  (rp_ok r = false \/ rp_id r = repeat x00 16 -> entity_ref_test r = Throw).
Proof.
  intros L. rewrite (t_entity r L). destruct (zeros (rp_id r)) eqn:Z.
  - assert (E := proj1 (zeros_iff _) Z). rewrite L in E. unfold rep in E. cbn in E.
    split; [intros [_ N]; contradiction|]. destruct (rp_ok r); reflexivity.
  - split; [intros [-> _]; reflexivity|]. intros [->|E]; [reflexivity|]. rewrite E in Z. discriminate.
Qed.
Print Assumptions C58_entity_ref_test.

(** Test_package_ref passes exactly if the hash drawn is not zero. *)
Theorem C58_package_ref_test h : len h = 32%N -> (package_ref_test h = true <-> h <> repeat x00 32).
Proof.
  intros L. rewrite (t_package h L), negb_true_iff. split.
  - intros Z E. rewrite E in Z. discriminate.
  - intros N. destruct (zeros h) eqn:Z; [|reflexivity]. exfalso. apply N. apply zeros_iff in Z. rewrite L in Z. exact Z.
Qed.
Print Assumptions C58_package_ref_test.

(** Test_optional_value passes for every two numbers of which the first is neither zero nor the second: set() stores a zero
    that the test takes to differ from the first number, and the second number is set to be another value. *)
Theorem C58_optional_value_test a b : optional_value_test a b = Done true <-> a <> 0%N /\ a <> b.
Proof.
  rewrite t_optional_value. destruct (N.eqb_spec a 0), (N.eqb_spec a b); cbn; split; intros H; try discriminate H; tauto.
Qed.
Print Assumptions C58_optional_value_test.

(** Test_idx_vector, Test_optional_idx_vector and Test_optional_vector pass, in the debug and in the release build, for any
    values drawn, as many as one likes but at least one, and any item type whose == says whether two items are the same. *)
Theorem C58_vector_tests {T} (teq : T -> T -> bool) debug draws : (forall x y, teq x y = true <-> x = y) -> draws <> [] ->
  idx_vector_test teq draws = Done true /\
  optional_idx_vector_test teq debug draws = Done true /\
  optional_vector_test teq debug draws = Done true.
Proof.
  intros TE NE. rewrite (t_idx teq TE), (t_optional_idx teq TE), (t_optional teq TE). destruct draws; [contradiction|]. auto.
Qed.
Print Assumptions C58_vector_tests.

(** TestSetAndMapWithKey with a key type whose < is a strict total order: the test passes exactly if no key is drawn twice, and
    among the keys drawn the ones that have the same hash and are == are the same. [eqb] and [hash] are any functions for
    which this relation is symmetric. *)
Theorem C58_functors_test {K} (lt eqb : K -> K -> bool) (hash : K -> N) keys :
  strict_total_order lt ->
  (forall a b, hash a = hash b -> eqb a b = eqb b a) ->
  (functors_test lt eqb hash keys = true <->
   NoDup keys /\ forall a b, In a keys -> In b keys -> (hash a = hash b /\ eqb a b = true <-> a = b)).
Proof.
  intros LT SY. rewrite t_functors; [|exact LT|].
  - unfold u_same. split; intros [N H]; (split; [exact N|]); intros a b Ha Hb; specialize (H a b Ha Hb);
      rewrite andb_true_iff, N.eqb_eq in *; exact H.
  - intros a b. unfold u_same. rewrite (N.eqb_sym (hash b)). destruct (N.eqb_spec (hash a) (hash b)) as [E|]; [|reflexivity].
    cbn. apply SY, E.
Qed.
Print Assumptions C58_functors_test.

(** With the key types of the library it passes exactly if no key is drawn twice, whatever the hash function is. *)
Theorem C58_functors_keys t (hash : key t -> N) keys : is_key t = true ->
  (functors_test (fun a b : key t => key_lt t (proj1_sig a) (proj1_sig b)) (fun a b => key_eq t (proj1_sig a) (proj1_sig b)) hash keys = true
   <-> NoDup keys).
Proof. intros Hk. apply t_functors_key, Hk. Qed.
Print Assumptions C58_functors_keys.

(** Some of these. *)
Example entity_ref_1 : entity_ref_test (Reply true (x01 :: repeat x00 15)) = Done true.
Proof. vm_compute. reflexivity. Qed.
Example entity_ref_2 : entity_ref_test (Reply true (repeat x00 16)) = Throw.
Proof. vm_compute. reflexivity. Qed.
Example package_ref_1 : package_ref_test (repeat xff 32) = true.
Proof. vm_compute. reflexivity. Qed.
Example package_ref_2 : package_ref_test (repeat x00 32) = false.
Proof. vm_compute. reflexivity. Qed.
Example value_1 : optional_value_test 4919 78647 = Done true.
Proof. vm_compute. reflexivity. Qed.
Example vector_1 : idx_vector_test N.eqb [4; 4; 9]%N = Done true /\ optional_idx_vector_test N.eqb true [7]%N = Done true /\
  optional_vector_test N.eqb true [1; 2]%N = Done true /\ idx_vector_test N.eqb [] = Done false.
Proof. vm_compute. auto. Qed.
Definition key_of (v : val) : key TUuid := to_key TUuid (exist _ (key_inf TUuid) (key_inf_ok TUuid eq_refl)) v.
Definition uuids : list (key TUuid) := map (fun b => key_of (VP (b :: repeat x00 15))) [x07; x03; xff; x00].
Example functors_1 : let test := functors_test (fun a b : key TUuid => key_lt TUuid (proj1_sig a) (proj1_sig b))
    (fun a b => key_eq TUuid (proj1_sig a) (proj1_sig b)) in
  test (fun k => key_hash TUuid (proj1_sig k)) uuids = true /\ test (fun _ => 5%N) uuids = true /\
  test (fun _ => 5%N) (uuids ++ uuids) = false.
Proof. vm_compute. auto. Qed.
(** An operator== that looks at a part of the key only fails it, if the hash function does so too. *)
Example functors_2 : functors_test N.ltb (fun a b => N.eqb (a mod 8) (b mod 8)) (fun a => a mod 8)%N [3; 12; 11]%N = false.
Proof. vm_compute. reflexivity. Qed.
