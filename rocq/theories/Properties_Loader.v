(** * C27, C28, C36: SHA256, loading of entity files, EntityLoader. *)
From Verif Require Import Base Bytes BytesFacts Values Streams Hex HexSpec Sha256 Sha256Spec ShaSpec ShaFacts Loader LoaderSpec LoaderFacts.
Open Scope N_scope.

(** ** C28 *)

(** C28: whatever the hash library, Update hands it exactly the bytes of the buffer, in order, in
    non-empty pieces of at most INT_MAX bytes, and ends. *)
Theorem C28_update_feeds : forall (L : sha_lib) (c : ctx L) (a : option (list byte) * N), good_buffer a ->
  exists bound, forall r, (bound <= r)%nat ->
  exists pieces, Forall (fun p => 0 < len p /\ len p <= int_max) pieces /\ concat pieces = bytes_meant a /\
    sha_update L r c (fst a) (snd a) = Some (Done (fold_left (lib_update L) pieces c)).
Proof. intros L c a G. exists (rounds_for (snd a)). intros r R. exact (update_feeds L a c G r R). Qed.
Print Assumptions C28_update_feeds.

(** C28: with a library that computes SHA-256, the digest of an object constructed with a buffer and
    updated any number of times is the SHA-256 of all the bytes, however they were split. *)
Theorem C28_digest : forall L, computes_sha256 L -> forall d n l, good_buffer (Some d, n) -> Forall good_buffer l ->
  len (take n d ++ concat (map bytes_meant l)) < 2 ^ 61 ->
  exists bound, forall r, (bound <= r)%nat ->
    exists c c', sha_new L r (Some d) n = Some (Done c) /\ sha_updates L r c l = Some (Done c') /\
      fst (sha_digest L c') = sha256 (take n d ++ concat (map bytes_meant l)).
Proof. exact digest_ok. Qed.
Print Assumptions C28_digest.
(** The same for an object constructed without data (a null pointer; the length is ignored). *)
Theorem C28_digest_default : forall L, computes_sha256 L -> forall n l, Forall good_buffer l ->
  len (concat (map bytes_meant l)) < 2 ^ 61 ->
  exists bound, forall r, (bound <= r)%nat ->
    exists c c', sha_new L r None n = Some (Done c) /\ sha_updates L r c l = Some (Done c') /\
      fst (sha_digest L c') = sha256 (concat (map bytes_meant l)).
Proof. exact digest_null_ok. Qed.
Print Assumptions C28_digest_default.

(** There is such a library: one that compresses block by block. *)
Theorem C28_library_exists : computes_sha256 block_lib.
Proof. exact block_lib_ok. Qed.
Print Assumptions C28_library_exists.

(** The specification gives the digests of FIPS 180-4's example and of the unit test
    (Tests/TypeTests.cpp:130-171). *)
Example sha_abc : sha256 [x61; x62; x63] =
  [xba; x78; x16; xbf; x8f; x01; xcf; xea; x41; x41; x40; xde; x5d; xae; x22; x23;
   xb0; x03; x61; xa3; x96; x17; x7a; x9c; xb4; x10; xff; x61; xf2; x00; x15; xad].
Proof. vm_compute. reflexivity. Qed.
Definition testdata : list byte :=
  [x34; x2b; x1f; x3e; x61; x4b; x03; x4b; x02; x36; x05; x5c; x17; x29; x3d; x53; x0e; x5e; x5b; x4d;
   x52; x5f; x12; x20; x0a; x56; x31; x3b; x2c; x06; x51; x28; x28; x5d; x05; x59; x2b; x41; x0d; x1f;
   x01; x01; x1b; x1f; x09; x2c; x13; x01; x46; x19; x05; x3e; x3c; x2d; x58; x16; x5f; x19; x0f; x07;
   x39; x48; x46; x4b; x23; x06; x15; x0b; x44; x18; x0e; x38; x56; x0e; x0a; x0e; x54; x43; x0a; x31;
   x2d; x51; x0d; x2a; x5a; x09; x06; x10; x23; x24; x23; x33; x2e; x1d; x56; x48; x2f; x4a; x33; x06].
Example sha_unit_test :
  match sha_updates block_lib 3 (lib_init block_lib) [(Some testdata, 100)] with
  | Some (Done c) => fst (sha_digest block_lib c)
  | _ => []
  end =
  [xf6; x48; x54; x2d; xf8; xcc; xf2; x1f; xd3; x4e; x95; xf6; x7d; xf5; xf2; xb4;
   xf2; x72; x72; xaa; x14; xf5; x03; x09; x0c; xc4; x76; x6f; xe2; x78; xc4; xb5].
Proof. vm_compute. reflexivity. Qed.

(** ** C27 *)

(** C27: for a file the OS can open and that fits the memory, read in any pieces the OS chooses: the load
    ends; it fails with ECantRead exactly if a ReadFile failed; otherwise it is Ok, with a stream over
    exactly the data, if the file is some data followed by the SHA-256 of the data, and ECorrupted if not. *)
Theorem C27_verdict : forall L o p f, computes_sha256 L -> serves o f -> os_open o p = true ->
  len f <= os_mem o -> len f < 2 ^ 61 ->
  exists bound, forall reads rounds, (bound <= reads)%nat -> (bound <= rounds)%nat ->
  exists e tr, load_file L reads rounds o p = (e, tr) /\
    (a_read_failed tr /\ e = Ended ECantRead None \/
     ~ a_read_failed tr /\ (exists data, intact f data /\ e = Ended SOk (Some (RS data 0 false))) \/
     ~ a_read_failed tr /\ (~ exists data, intact f data) /\ e = Ended ECorrupted None).
Proof. exact t_verdict. Qed.
Print Assumptions C27_verdict.

(** C27: whatever the OS answers (even if it is not the content of any file), a load that ends with Ok has
    checked the SHA-256 over all the bytes it was given, delivers exactly the data, and has closed the
    file once. *)
Theorem C27_accepts_only_intact : forall L o p, computes_sha256 L -> within_requests o ->
  (forall n, os_size o = Some n -> n < 2 ^ 61) ->
  forall reads rounds st tr, load_file L reads rounds o p = (Ended SOk st, tr) ->
  exists data, intact (delivered tr) data /\ st = Some (RS data 0 false) /\ closes tr = 1%nat.
Proof. exact t_accepts. Qed.
Print Assumptions C27_accepts_only_intact.

(** C27: every ReadFile asks for between 1 and 2^32-1 bytes, at the position behind everything read so far
    and not past the size of the file; the buffer is never overrun. *)
Theorem C27_requests_in_bounds : forall L o p, computes_sha256 L -> within_requests o ->
  (forall n, os_size o = Some n -> n < 2 ^ 61) ->
  forall reads rounds e tr, load_file L reads rounds o p = (e, tr) ->
  e <> Bad /\
  forall a pos n x b, tr = a ++ CallRead pos n x :: b ->
    pos = len (delivered a) /\ 0 < n /\ n <= uint_max /\ exists total, os_size o = Some total /\ pos + n <= total.
Proof. exact t_requests. Qed.
Print Assumptions C27_requests_in_bounds.

(** C27: ECantOpen exactly if the file cannot be opened or has no size; an exception exactly if there is
    not enough memory for the file. *)
Theorem C27_open_errors : forall L o p reads rounds, computes_sha256 L -> within_requests o ->
  (forall n, os_size o = Some n -> n < 2 ^ 61) ->
  forall e tr, load_file L reads rounds o p = (e, tr) ->
  (e = Ended ECantOpen None <-> os_open o p = false \/ os_size o = None) /\
  (e = Threw <-> os_open o p = true /\ exists n, os_size o = Some n /\ 32 <= n /\ os_mem o < n).
Proof. exact t_cant_open. Qed.
Print Assumptions C27_open_errors.

(** C27: the file of an entity is named by the hex form of its uuid; two entities never share a file. *)
Theorem C27_file_name : forall conv path d1 d2 d3 d4, ascii_kept conv -> scalar_ok (SUuid d1 d2 d3 d4) ->
  exists s, hex_text (SUuid d1 d2 d3 d4) s /\
    file_path conv path d1 d2 d3 d4 = Done (path ++ [92] ++ map b2n s ++ [46; 100; 97; 116]).
Proof. exact t_file_path. Qed.
Print Assumptions C27_file_name.
Theorem C27_file_name_injective : forall conv path d1 d2 d3 d4 e1 e2 e3 e4 q, ascii_kept conv ->
  scalar_ok (SUuid d1 d2 d3 d4) -> scalar_ok (SUuid e1 e2 e3 e4) ->
  file_path conv path d1 d2 d3 d4 = Done q -> file_path conv path e1 e2 e3 e4 = Done q ->
  SUuid d1 d2 d3 d4 = SUuid e1 e2 e3 e4.
Proof. exact t_file_path_inj. Qed.
Print Assumptions C27_file_name_injective.

(** C27, finding: a ReadFile that succeeds with 0 bytes before the reported size (a file that was
    truncated, a device) makes the loader loop for ever. *)
Definition os_empty_reads : os := OS (fun _ => true) (Some 40) (fun _ _ _ => Some []) 1000.
Theorem C27_zero_read_refuted : within_requests os_empty_reads /\
  forall L p reads rounds, fst (load_file L reads rounds os_empty_reads p) = Running.
Proof.
  split; [intros i pos n d H; injection H as <-; cbn; apply N.le_0_l|]. intros L p reads rounds.
  unfold load_file. cbn [os_open os_size os_mem os_empty_reads negb].
  change (40 <? 32) with false. change (1000 <? 40) with false. cbv iota zeta.
  enough (X : forall r i tr, fst (read_loop r i os_empty_reads 40 0 (rep x00 40) tr) = inl Running).
  { specialize (X reads 0%nat ([CallOpen p] ++ [CallSize])). destruct (read_loop _ _ _ _ _ _ _) as (x, tr). cbn in X. subst x. reflexivity. }
  induction r as [|r IH]; intros i tr; [reflexivity|]. exact (IH (S i) _).
Qed.
Print Assumptions C27_zero_read_refuted.

(** C27, finding: after a failed ReadFile, or for a file shorter than 32 bytes, the file is never closed. *)
Theorem C27_handle_leak_refuted : exists o1 o2, within_requests o1 /\ within_requests o2 /\ forall L p, exists tr1 tr2,
  load_file L 5 5 o1 p = (Ended ECantRead None, tr1) /\ closes tr1 = 0%nat /\
  load_file L 5 5 o2 p = (Ended ECorrupted None, tr2) /\ closes tr2 = 0%nat.
Proof.
  exists (OS (fun _ => true) (Some 40) (fun _ _ _ => None) 1000), (OS (fun _ => true) (Some 3) (fun _ _ _ => None) 1000).
  split; [intros i pos n d H; discriminate|]. split; [intros i pos n d H; discriminate|].
  intros L p. eexists. eexists. split; [reflexivity|]. split; [reflexivity|]. split; reflexivity.
Qed.
Print Assumptions C27_handle_leak_refuted.

(** C27: exactly when. The file that was opened is closed once, as the last thing done to it and after all its bytes were
    read; or never, and then because its size is unknown, below 32 or above the memory, or because a ReadFile failed. *)
Theorem C27_handle_exact : forall L o p reads rounds, computes_sha256 L -> within_requests o ->
  (forall n, os_size o = Some n -> n < 2 ^ 61) ->
  forall e tr, load_file L reads rounds o p = (e, tr) -> os_open o p = true -> e <> Running ->
  (closes tr = 1%nat /\ (exists a, tr = a ++ [CallClose]) /\ os_size o = Some (len (delivered tr)) /\ ~ a_read_failed tr) \/
  (closes tr = 0%nat /\ (os_size o = None \/ (exists n, os_size o = Some n /\ (n < 32 \/ os_mem o < n)) \/ a_read_failed tr)).
Proof. exact t_handle. Qed.
Print Assumptions C27_handle_exact.

(** A concrete case: a file of 3 + 32 bytes served 10 bytes at a time is accepted, with the data "abc"; with
    one bit changed it is refused. *)
Definition file0 : list byte := [x61; x62; x63] ++ sha256 [x61; x62; x63].
Definition serve10 (f : list byte) : os :=
  OS (fun _ => true) (Some (len f)) (fun _ pos n => Some (take (N.min n 10) (drop pos f))) 1000.
Example serve10_serves : forall f, serves (serve10 f) f.
Proof.
  intros f. split; [reflexivity|]. intros i pos n d H. injection H as <-.
  assert (E : len (take (N.min n 10) (drop pos f)) = N.min (N.min n 10) (len f - pos)) by (rewrite len_take, len_drop; auto).
  split; [lia|]. split; [|lia]. rewrite E.
  destruct (N.le_gt_cases (N.min n 10) (len f - pos)).
  - rewrite (N.min_l (N.min n 10)) by auto. reflexivity.
  - rewrite (N.min_r (N.min n 10)) by lia. rewrite !take_all; auto; rewrite len_drop; lia.
Qed.
Example load_ok : fst (load_file block_lib 10 5 (serve10 file0) [100]) = Ended SOk (Some (RS [x61; x62; x63] 0 false)).
Proof. vm_compute. reflexivity. Qed.
Example load_damaged : fst (load_file block_lib 10 5 (serve10 (x60 :: tl file0)) [100]) = Ended ECorrupted None.
Proof. vm_compute. reflexivity. Qed.

(** ** C36: EntityLoader::Initialize *)

(** C36: Initialize succeeds exactly on a loader that has no path yet, for an existing path whose
    attributes are exactly "directory"; it then stores the absolute path; otherwise nothing changes. Once it
    has succeeded with a non-empty path, every later call is refused. *)
Theorem C36_initialize : forall conv o Path path, 
  (forall q, os_full o (widen conv path) = Some q -> len q < 32768) ->
  exists Path' s, initialize conv o Path path = Done (Path', s) /\
    (s = SOk \/ s = EAlreadyInitialized \/ s = EParam) /\
    (s = EAlreadyInitialized <-> Path <> []) /\
    (s = SOk -> Path = [] /\ os_attr o Path' = attr_directory /\
       (os_full o (widen conv path) = Some Path' \/ os_full o (widen conv path) = None /\ Path' = [])) /\
    (s <> SOk -> Path' = Path).
Proof.
  intros conv o Path path F. unfold initialize, full_path. destruct Path as [|c Path]; cbn [negb].
  - assert (X : forall w, (match os_full o (widen conv path) with Some q => if len q <? 32768 then Done q else Undef | None => Done [] end) = Done w ->
      os_full o (widen conv path) = Some w \/ os_full o (widen conv path) = None /\ w = []).
    { intros w. destruct (os_full o (widen conv path)) as [q|] eqn:Q.
      - replace (len q <? 32768) with true by (symmetry; apply N.ltb_lt; auto). intros H. injection H as ->. auto.
      - intros H. injection H as <-. auto. }
    destruct (os_full o (widen conv path)) as [q|] eqn:Q.
    + replace (len q <? 32768) with true in * by (symmetry; apply N.ltb_lt; auto). unfold bind.
      destruct (os_attr o q =? attr_directory) eqn:E; cbn [negb].
      * apply N.eqb_eq in E. eexists. eexists. split; [reflexivity|]. split; [auto|]. split; [split; [discriminate|congruence]|].
        split; [intros _; auto|congruence].
      * eexists. eexists. split; [reflexivity|]. split; [auto|]. split; [split; [discriminate|congruence]|]. split; [discriminate|auto].
    + unfold bind. destruct (os_attr o [] =? attr_directory) eqn:E; cbn [negb].
      * apply N.eqb_eq in E. eexists. eexists. split; [reflexivity|]. split; [auto|]. split; [split; [discriminate|congruence]|].
        split; [intros _; auto|congruence].
      * eexists. eexists. split; [reflexivity|]. split; [auto|]. split; [split; [discriminate|congruence]|]. split; [discriminate|auto].
  - eexists. eexists. split; [reflexivity|]. split; [auto|]. split; [split; [discriminate|auto]|]. split; [discriminate|auto].
Qed.
Print Assumptions C36_initialize.

(** C36, finding: a directory that has any other attribute as well (read-only, hidden, archive, ...) is
    refused as not being a directory. *)
Theorem C36_directory_attributes_refuted : forall conv o path q, os_full o (widen conv path) = Some q -> len q < 32768 ->
  os_attr o q = N.lor attr_directory 1 -> initialize conv o [] path = Done ([], EParam).
Proof.
  intros conv o path q F Q A. unfold initialize, full_path. rewrite F. apply N.ltb_lt in Q. rewrite Q. cbn [negb bind]. rewrite A. reflexivity.
Qed.
Print Assumptions C36_directory_attributes_refuted.

(** C36, finding: AsyncLoadEntity never works without undefined behaviour: it either reports that there is
    no memory or assigns to a std::wstring that was never constructed. *)
Theorem C36_async_load_refuted : forall mem_ok thread_ok,
  async_load mem_ok thread_ok = Done ECantAllocate /\ mem_ok = false \/ async_load mem_ok thread_ok = Undef /\ mem_ok = true.
Proof. intros [|] [|]; auto. Qed.
Print Assumptions C36_async_load_refuted.

Example init_witness : exists conv o, ascii_kept conv /\
  initialize conv o [] [x63] = Done ([67; 58; 92; 99], SOk) /\ initialize conv o [67; 58; 92; 99] [x63] = Done ([67; 58; 92; 99], EAlreadyInitialized).
Proof.
  exists (fun s => Some (map b2n s)), (OSDirs (fun p => Some ([67; 58; 92] ++ p)) (fun _ => 16)).
  split; [intros s _; reflexivity|]. split; vm_compute; reflexivity.
Qed.
