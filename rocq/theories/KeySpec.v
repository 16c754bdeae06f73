(** * KeySpec: what is expected of key types. Specification. *)
From Verif Require Import Base Bytes Values Types Keys.
Open Scope N_scope.

(** A strict total order (what std::set and std::map need). *)
Definition strict_total_order {K} (lt : K -> K -> bool) : Prop :=
  (forall a, lt a a = false) /\
  (forall a b c, lt a b = true -> lt b c = true -> lt a c = true) /\
  (forall a b, lt a b = true \/ a = b \/ lt b a = true).

(** < is a strict total order, == is equality, and a key written and read back is the same key. *)
Definition key_laws {K} (O : keyops K) : Prop :=
  strict_total_order (k_lt O) /\
  (forall a b, k_eq O a b = true <-> a = b) /\
  (forall k, val_ok (k_type O) (k_val O k)) /\
  (forall k, k_of O (k_val O k) = k).
(** inf and sup are the least and the greatest key. *)
Definition key_bounds {K} (O : keyops K) : Prop :=
  forall k, k_lt O k (k_inf O) = false /\ k_lt O (k_sup O) k = false.

(** The key operations of a concrete type. *)
Definition key_ops (t : dtype) (Hi : key_okb t (key_inf t) = true) (Hs : key_okb t (key_sup t) = true) : keyops (key t) :=
  KeyOps (key t)
    (fun a b => key_lt t (proj1_sig a) (proj1_sig b))
    (fun a b => key_eq t (proj1_sig a) (proj1_sig b))
    (exist _ (key_inf t) Hi) (exist _ (key_sup t) Hs)
    t (fun k => proj1_sig k) (to_key t (exist _ (key_inf t) Hi)).
