(** * C34: order, equality and hash of keys. *)
From Verif Require Import Base Bytes Values Types Keys KeySpec KeyFacts StdSet StdSetFacts.
Open Scope N_scope.

(** C34: < is a strict total order on every key type (integers, uuid, entity_ref, hash, package_ref,
    string). *)
Theorem C34_order : forall t, is_key t = true ->
  strict_total_order (fun a b : key t => key_lt t (proj1_sig a) (proj1_sig b)).
Proof. exact key_lt_order. Qed.
Print Assumptions C34_order.

(** C34: == holds exactly for the same key, so exactly when neither is less; for uuid and hash != is its
    negation. *)
Theorem C34_equality : forall t (a b : key t), is_key t = true ->
  (key_eq t (proj1_sig a) (proj1_sig b) = true <-> a = b) /\
  (key_eq t (proj1_sig a) (proj1_sig b) = true <->
   key_lt t (proj1_sig a) (proj1_sig b) = false /\ key_lt t (proj1_sig b) (proj1_sig a) = false).
Proof.
  intros t a b K. split; [exact (key_eq_iff t a b K)|]. rewrite (key_eq_iff t a b K).
  destruct (key_lt_order t K) as (I & T & To). split; [intros ->; auto|].
  intros [H1 H2]. destruct (To a b) as [H|[H|H]]; [rewrite H in H1; discriminate|exact H|rewrite H in H2; discriminate].
Qed.
Print Assumptions C34_equality.
Theorem C34_inequality : forall w n a b, words_ne w n a b = negb (words_eq w n a b).
Proof. exact words_ne_spec. Qed.
Print Assumptions C34_inequality.

(** C34: equal keys have equal hashes. *)
Theorem C34_hash : forall t (a b : key t), is_key t = true ->
  key_eq t (proj1_sig a) (proj1_sig b) = true -> key_hash t (proj1_sig a) = key_hash t (proj1_sig b).
Proof. intros t a b K H. apply (key_eq_iff t a b K) in H. rewrite H. reflexivity. Qed.
Print Assumptions C34_hash.

(** C34: a std::set of keys built from any sequence of insertions holds each inserted key exactly once
    and nothing else, and find finds exactly those. *)
Theorem C34_sets : forall t (inserted : list (key t)), is_key t = true ->
  let lt := fun a b : key t => key_lt t (proj1_sig a) (proj1_sig b) in
  let s := set_of lt inserted in
  NoDup s /\ (forall x, In x s <-> In x inserted) /\ (forall x, set_mem lt x s = true <-> In x inserted).
Proof.
  intros t l K lt s. pose proof (key_lt_order t K) as LT. split; [apply (sorted_nodup lt LT), (set_of_sorted lt LT)|].
  split; [apply (set_of_in lt LT)|]. intros x. rewrite (mem_iff lt LT). apply (set_of_in lt LT).
Qed.
Print Assumptions C34_sets.

(** C34: the limits used by DirectedGraph really are the least and the greatest key. *)
Theorem C34_limits : forall t (k : key t), is_node t = true ->
  key_lt t (proj1_sig k) (key_inf t) = false /\ key_lt t (key_sup t) (proj1_sig k) = false.
Proof.
  intros t k H. assert (K : is_key t = true) by (destruct t; auto).
  exact (t_key_bounds t (key_inf_ok t K) (key_sup_ok t K) H k).
Qed.
Print Assumptions C34_limits.

Definition id_a : key TEntityRef := exist _ (VP (x01 :: repeat x00 15)) eq_refl.
Definition id_b : key TEntityRef := exist _ (VP (repeat x00 15 ++ [x02])) eq_refl.
Example C34_example : is_key TEntityRef = true /\ is_node THash = true /\
  key_lt TEntityRef (proj1_sig id_b) (proj1_sig id_a) = true /\
  key_eq TEntityRef (proj1_sig id_a) (proj1_sig id_b) = false /\
  map (@proj1_sig _ _) (set_of (fun a b : key TEntityRef => key_lt TEntityRef (proj1_sig a) (proj1_sig b)) [id_a; id_b; id_a])
    = map (@proj1_sig _ _) [id_b; id_a] /\
  key_lt (TInt I8) (VP [xff]) (VP [x01]) = true /\ key_lt (TUInt I8) (VP [xff]) (VP [x01]) = false.
Proof. repeat split; vm_compute; reflexivity. Qed.
