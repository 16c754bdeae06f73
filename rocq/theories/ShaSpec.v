(** * ShaSpec: what is assumed of the hash library, and what the calls of a user feed to it. Specification. *)
From Verif Require Import Base Sha256 Sha256Spec.
Open Scope N_scope.

(** The library computes SHA-256 of everything it was fed, whatever the pieces, if each is at most
    INT_MAX bytes and the whole message is within the limit of FIPS 180-4 (2^64 bits). *)
Definition computes_sha256 (L : sha_lib) : Prop :=
  forall pieces, Forall (fun p => len p <= int_max) pieces -> len (concat pieces) < 2 ^ 61 ->
    fst (lib_final L (fold_left (lib_update L) pieces (lib_init L))) = sha256 (concat pieces).

(** A pointer and length a caller may pass: at least that much memory, or null and no bytes. *)
Definition good_buffer (a : option (list byte) * N) : Prop :=
  match a with (Some d, n) => n <= len d | (None, n) => n = 0 end.
(** The bytes meant. *)
Definition bytes_meant (a : option (list byte) * N) : list byte :=
  match a with (Some d, n) => take n d | (None, _) => [] end.
