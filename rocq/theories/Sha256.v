(** * Sha256: the SHA256 class. Model of ISD/ISD_SHA256.h and ISD/ISD_SHA256.cpp.
    The hash library (librock_sha256, a submodule that is not in the repository) is a parameter. *)
From Verif Require Import Base.
Open Scope N_scope.

(** librock_SHA256_Init, _Update and _StoreFinal. (ISD_SHA256.cpp:13-14, 37, 48) *)
Record sha_lib := ShaLib {
  ctx : Type;
  lib_init : ctx;
  lib_update : ctx -> list byte -> ctx;
  lib_final : ctx -> list byte * ctx }.

(** INT_MAX of the target. (ISD_SHA256.cpp:32) *)
Definition int_max : N := 2147483647.

Section Sha.
Context (L : sha_lib).

(** The loop of Update: [data] is what the pointer points to, [n] what is left ( End - Data ). Reading
    past the memory is undefined; None: not ended within the given number of rounds.
    (ISD_SHA256.cpp:29-41) *)
Fixpoint sha_loop (rounds : nat) (c : ctx L) (data : list byte) (n : N) : option (res (ctx L)) :=
  if 0 <? n then
    match rounds with
    | O => None
    | S r =>
      let data_len := if int_max <? n then int_max else n in
      if data_len <=? len data
      then sha_loop r (lib_update L c (take data_len data)) (drop data_len data) (n - data_len)
      else Some Undef
    end
  else Some (Done c).

(** Update( Data, DataLength ): a null pointer is None. (ISD_SHA256.cpp:25-44) *)
Definition sha_update (rounds : nat) (c : ctx L) (data : option (list byte)) (n : N) : option (res (ctx L)) :=
  match data with
  | Some d => sha_loop rounds c d n
  | None => if n =? 0 then Some (Done c) else Some Undef
  end.

(** The constructor: no Update for a null pointer, whatever the length. (ISD_SHA256.cpp:10-19; an
    allocation failure of the context is not modelled) *)
Definition sha_new (rounds : nat) (data : option (list byte)) (n : N) : option (res (ctx L)) :=
  match data with
  | Some d => sha_update rounds (lib_init L) (Some d) n
  | None => Some (Done (lib_init L))
  end.

(** GetDigest. (ISD_SHA256.cpp:47-50) *)
Definition sha_digest (c : ctx L) : list byte * ctx L := lib_final L c.

(** A history of Update calls on an object, each with a pointer and a length. (Helper.) *)
Fixpoint sha_updates (rounds : nat) (c : ctx L) (l : list (option (list byte) * N)) : option (res (ctx L)) :=
  match l with
  | [] => Some (Done c)
  | (d, n) :: r =>
    match sha_update rounds c d n with
    | Some (Done c') => sha_updates rounds c' r
    | x => x
    end
  end.
End Sha.
