(** * ReadSpec: what the calls on a read stream may do. Specification for MemoryReadStream. It uses
    the data fields of the stream (bytes, position, byte order), [stored] of FileSpec.v and
    nothing of the stream's code. *)
From Verif Require Import Base Bytes Values FileSpec Streams.
Open Scope N_scope.

(** A Read of [count] items of kind [k] into a buffer [dest]: [n] complete items were available and
    are delivered; they are the values whose stored form stands at the position; the buffer keeps
    its size; the stream's bytes and byte order are unchanged; the position moves by the requested
    amount, but not behind the end. *)
Definition read_spec (k : kind) (count : N) (dest : list byte) (s : rstream)
  (n : N) (d : list byte) (s' : rstream) : Prop :=
  n = N.min count ((rs_size s - rs_pos s) / ksize k) /\
  len d = len dest /\
  (exists xs, Forall (fun x => scalar_kind x = k /\ scalar_ok x) xs /\ len xs = n /\
     flat_map (stored (rs_flip s)) xs = take (n * ksize k) (drop (rs_pos s) (rs_data s)) /\
     take (n * ksize k) d = flat_map image xs) /\
  rs_data s' = rs_data s /\ rs_flip s' = rs_flip s /\
  rs_pos s' = N.min (rs_size s) (rs_pos s + count * ksize k).

(** A caller that passes large enough buffers and counts whose byte size does not leave u64. *)
Definition rop_ok (size : N) (o : rop) : Prop :=
  match o with
  | RRead k count dest => count * ksize k <= len dest /\ size + count * ksize k < two64
  | _ => True
  end.

(** One call: its result [r] and the stream [s'] after it. *)
Definition rcall_spec (o : rop) (s : rstream) (r : rout) (s' : rstream) : Prop :=
  match o with
  | RRead k count dest =>
    exists n d, r = ORead n d /\ read_spec k count dest s n d s'
  | RSeek p =>
    rs_data s' = rs_data s /\ rs_flip s' = rs_flip s /\
    (p <= rs_size s -> r = OBool true /\ rs_pos s' = p) /\
    (rs_size s < p -> r = OBool false /\ rs_pos s' = rs_pos s)
  | RFlip b => r = OUnit /\ s' = RS (rs_data s) (rs_pos s) b
  | RPeek => s' = s /\
    ((rs_pos s < rs_size s -> exists b rest, drop (rs_pos s) (rs_data s) = b :: rest /\ r = OByte b) /\
     (rs_size s <= rs_pos s -> r = OByte x00))
  | REof => s' = s /\ exists b, r = OBool b /\ (b = true <-> drop (rs_pos s) (rs_data s) = [])
  end.

(** A history of calls; the position never leaves the data. *)
Fixpoint rcalls_spec (ops : list rop) (s : rstream) (rs : list rout) (s' : rstream) : Prop :=
  match ops, rs with
  | [], [] => s' = s
  | o :: ops', r :: rs' =>
    exists s1, rcall_spec o s r s1 /\ rs_pos s1 <= rs_size s1 /\ rcalls_spec ops' s1 rs' s'
  | _, _ => False
  end.
