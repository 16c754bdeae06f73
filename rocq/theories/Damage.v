(** * Damage: the corruptions of a block against which the reader is not protected. Specification. *)
From Verif Require Import Base Bytes Values FileSpec Types Format ItemSpec Accept.
Open Scope N_scope.

(** [bs] starts with the complete header of a large block of type [vt] named [key], with a size field [size]. *)
Definition large_header (fl : bool) (vt : N) (key : list byte) (size : N) (bs rest : list byte) : Prop :=
  size < 2^64 /\ bs = n2b vt :: num W64 fl size ++ n2b (len key) :: key ++ rest.
(** Where the payload of a block at [pos] begins, and where it ends according to its size field (64-bit addition). *)
Definition payload_start (pos : N) (key : list byte) : N := pos + 10 + len key.
Definition block_end (pos size : N) : N := (pos + 9 + size) mod 2^64.
(** The bytes of an array before its items: flags, item count, and the index if there is one. *)
Definition meta_fields (fl : bool) (flags count : N) (ix : option (list N)) : list byte :=
  num W16 fl flags ++ num W64 fl count ++
  match ix with Some l => num W64 fl (len l) ++ flat_map (num W32 fl) l | None => [] end.

(** The length field of a string goes beyond the end of the block. *)
Definition string_damage (fl : bool) (pos : N) (key bs : list byte) : Prop :=
  exists size rest, large_header fl (vt_single TString) key size bs rest /\ block_end pos size < payload_start pos key + 8.
(** The fixed fields of an array (flags, item count, index count) go beyond the end of the block. *)
Definition meta_damage (fl : bool) (pos : N) (t : dtype) (with_index : bool) (key bs : list byte) : Prop :=
  exists size rest, large_header fl (vt_array t) key size bs rest /\
    block_end pos size < payload_start pos key + (if with_index then 18 else 10).
(** The count of an array of bools is so large that the sum with 7 wraps. *)
Definition bools_damage (fl : bool) (key bs : list byte) : Prop :=
  exists size rest flags count ix, large_header fl (vt_array TBool) key size bs (meta_fields fl flags count ix ++ rest) /\
    2^64 - 7 <= count < 2^64.
(** After fewer complete strings than the count says, the next length field goes beyond the end of the block. *)
Definition strings_damage (fl : bool) (pos : N) (key bs : list byte) : Prop :=
  exists size rest flags count ix ss, let m := meta_fields fl flags count ix in let b := flat_map (string_bytes fl) ss in
    large_header fl (vt_array TString) key size bs (m ++ b ++ rest) /\ len ss < count < 2^64 /\
    block_end pos size < payload_start pos key + len m + len b + 8.
(** The count of an array of vectors, matrices or quaternions is not a multiple of the number of components. *)
Definition count_damage (fl : bool) (t : dtype) (key bs : list byte) : Prop :=
  exists k n size rest flags count ix, dshape t = ShPod k n /\
    large_header fl (vt_array t) key size bs (meta_fields fl flags count ix ++ rest) /\ count < 2^64 /\ count mod n <> 0.

(** Damage that can make a read ask for more memory than four times the stream. *)
Definition size_damage (fl : bool) (pos : N) (t : dtype) (dest : cval) (key bs : list byte) : Prop :=
  (~ is_array dest /\ t = TString /\ string_damage fl pos key bs) \/
  (is_array dest /\ (meta_damage fl pos t (indexed (cval_ctype dest)) key bs \/
     (t = TBool /\ bools_damage fl key bs) \/ (t = TString /\ strings_damage fl pos key bs))).
