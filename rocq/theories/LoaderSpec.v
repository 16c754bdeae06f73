(** * LoaderSpec: files, what an operating system promises, and intact entity files. Specification. *)
From Verif Require Import Base Streams Sha256Spec Loader.
Open Scope N_scope.

(** An entity file is intact if it is some data followed by the SHA-256 of the data. *)
Definition intact (f data : list byte) : Prop := f = data ++ sha256 data.

(** The contract of ReadFile: never more bytes than asked for. *)
Definition within_requests (o : os) : Prop := forall i pos n d, os_read o i pos n = Some d -> len d <= n.
(** The OS has the file [f]: its size is that of [f], and a ReadFile that succeeds gives the next bytes of
    [f], any number of them that is at most what was asked for, but at least one before the end of [f]. *)
Definition serves (o : os) (f : list byte) : Prop :=
  os_size o = Some (len f) /\
  forall i pos n d, os_read o i pos n = Some d ->
    len d <= n /\ d = take (len d) (drop pos f) /\ (pos < len f -> 0 < n -> 0 < len d).

(** What the reads delivered, in order. *)
Definition delivered (tr : list os_call) : list byte :=
  flat_map (fun c => match c with CallRead _ _ (Some d) => d | _ => [] end) tr.
Definition a_read_failed (tr : list os_call) : Prop := exists pos n, In (CallRead pos n None) tr.
Definition closes (tr : list os_call) : nat :=
  length (filter (fun c => match c with CallClose => true | _ => false end) tr).

(** The C library converts ASCII characters to the same characters. *)
Definition ascii_kept (conv : list byte -> option (list N)) : Prop :=
  forall s, Forall (fun c => 0 < b2n c /\ b2n c < 128) s -> conv s = Some (map b2n s).
