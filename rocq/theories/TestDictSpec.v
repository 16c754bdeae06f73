(** * TestDictSpec: what the tests of EntityTable need. Specification. *)
From Verif Require Import Base Values Types Items Documents DocSpec Keys KeySpec Table TableSpec EntityGen EntitySpec TestDict.
Open Scope N_scope.

(** Addresses the free store can choose: a new object is not where a living one is; the copies are at different addresses. *)
Definition draw_addrs_ok (U : forall t, umap_impl (key t)) (k : ktype) (draws : list (cdraw k)) : Prop :=
  forall before d after, draws = before ++ d :: after -> ~ In (c_addr k d) (map snd (c_own k (copy_state U k before))).
Definition copy_addrs_ok (U : forall t, umap_impl (key t)) (k : ktype) (draws : list (cdraw k)) (copies : list N) : Prop :=
  NoDup copies /\ length copies = length (t_list (c_dict k (copy_state U k draws))) /\
  (forall a, In a copies -> ~ In a (map snd (c_own k (copy_state U k draws)))).
(** A key that is not zero comes at last; names are strings. *)
Definition draw_ok {k : ktype} (d : edraw k) : Prop := (exists i, In i (e_keys k d) /\ i <> kzero k) /\ val_ok TString (e_name k d).
(** The table a call makes, and its written form. *)
Definition call_dict (U : forall t, umap_impl (key t)) (c : dcall) : dict (dc_key c) :=
  match gen_dict U (dc_key c) (dc_draws c) with Some d => d | None => t_new end.
Definition call_doc (U : forall t, umap_impl (key t)) (fl : bool) (c : dcall) : list byte :=
  nodes_bytes fl (table_doc (kops (dc_key c)) (s_doc TestEntity) (call_dict U c)).
