(** * Format: the documented layout of entity data (ISD/ISD_Types.h:63-86 and :89-144), written down
    independently of the reader and writer code. Specification. *)
From Verif Require Import Base Bytes Values FileSpec Types.
Open Scope N_scope.

(** An unsigned integer in the stream's byte order. *)
Definition num (w : wsize) (fl : bool) (v : N) : list byte := stored fl (SInt w v).

(** The scalars of which the memory image of an object or array consists. *)
Fixpoint chunks (n : nat) (size : N) (l : list byte) : list (list byte) :=
  match n with O => [] | S n' => take size l :: chunks n' size (drop size l) end.
Definition elements (k : kind) (n : N) (img : list byte) : list scalar :=
  map (scalar_of k) (chunks (N.to_nat n) (ksize k) img).
Definition element_bytes (k : kind) (n : N) (fl : bool) (img : list byte) : list byte :=
  flat_map (stored fl) (elements k n img).

(** Small block: u8 type, u8 size of the rest, value, key. *)
Definition small_block (vt : N) (key payload : list byte) : list byte :=
  n2b vt :: n2b (len payload + len key) :: payload ++ key.

(** Large block: u8 type, u64 size of the rest, u8 key size, key, value. *)
Definition large_block (fl : bool) (vt : N) (key payload : list byte) : list byte :=
  n2b vt :: num W64 fl (1 + len key + len payload) ++ n2b (len key) :: key ++ payload.

(** Bits packed into bytes, least significant bit first, the last byte filled with zeros. *)
Fixpoint bits_value (l : list bool) : N :=
  match l with [] => 0 | b :: l' => (if b then 1 else 0) + 2 * bits_value l' end.
Fixpoint pack_bits (n : nat) (l : list bool) : list byte :=
  match n with
  | O => []
  | S n' => n2b (bits_value (firstn 8 l)) :: pack_bits n' (skipn 8 l)
  end.
Definition packed (l : list bool) : list byte := pack_bits (N.to_nat ((len l + 7) / 8)) l.

Definition the_bool (v : val) : bool := match v with VB b => b | _ => false end.
Definition the_string (v : val) : list byte := match v with VS s => s | _ => [] end.
Definition the_image (v : val) : list byte := match v with VP i => i | _ => [] end.

(** A string: u64 length, characters. *)
Definition string_bytes (fl : bool) (s : list byte) : list byte := num W64 fl (len s) ++ s.

(** Single value (None: no value, an empty payload). *)
Definition single_block (fl : bool) (t : dtype) (key : list byte) (v : option val) : list byte :=
  match dshape t with
  | ShBool => small_block (vt_single t) key
      (match v with Some x => [if the_bool x then x01 else x00] | None => [] end)
  | ShPod k n => small_block (vt_single t) key
      (match v with Some x => element_bytes k n fl (the_image x) | None => [] end)
  | ShString => large_block fl (vt_single t) key
      (match v with Some x => string_bytes fl (the_string x) | None => [] end)
  end.

(** Array payload: u16 flags (element size, 0x100 if indexed), u64 element count, optionally u64
    index count and the i32 indices, the elements. *)
Definition array_payload (fl : bool) (h : shape) (items : list val) (ix : option (list N)) : list byte :=
  num W16 fl ((match h with ShPod k _ => ksize k | _ => 0 end) + (match ix with Some _ => 256 | None => 0 end))
  ++ num W64 fl (match h with ShPod _ n => len items * n | _ => len items end)
  ++ (match ix with Some l => num W64 fl (len l) ++ flat_map (num W32 fl) l | None => [] end)
  ++ (match h with
      | ShPod k n => element_bytes k (len items * n) fl (flat_map the_image items)
      | ShBool => packed (map the_bool items)
      | ShString => flat_map (fun v => string_bytes fl (the_string v)) items
      end).
Definition array_block (fl : bool) (t : dtype) (key : list byte)
  (a : option (list val * option (list N))) : list byte :=
  large_block fl (vt_array t) key
    (match a with Some (items, ix) => array_payload fl (dshape t) items ix | None => [] end).

(** The block of an item. *)
Definition encode (fl : bool) (t : dtype) (key : list byte) (c : cval) : list byte :=
  match c with
  | CV v => single_block fl t key (Some v)
  | COpt o => single_block fl t key o
  | CVec l => array_block fl t key (Some (l, None))
  | COptVec o => array_block fl t key (match o with Some l => Some (l, None) | None => None end)
  | CIdx l ix => array_block fl t key (Some (l, Some ix))
  | COptIdx o => array_block fl t key (match o with Some (l, ix) => Some (l, Some ix) | None => None end)
  end.

(** What a reader that knows only the type byte and the size skips: the length of the first block of
    [bs], or None if the header is incomplete. *)
Definition block_length (fl : bool) (bs : list byte) : option N :=
  match bs with
  | vt :: rest =>
    if b2n vt <? 0x40 then
      match rest with sz :: _ => Some (2 + b2n sz) | [] => None end
    else if len rest <? 8 then None
    else let f := take 8 rest in Some (9 + of_le (if fl then rev f else f))
  | [] => None
  end.
