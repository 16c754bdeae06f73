(** * Accept: which byte strings are a block carrying a given value. Specification of what a reader
    may accept (wider than Format.v: the format leaves unused flag bits, padding bits and the byte of
    a true bool open). *)
From Verif Require Import Base Bytes Values FileSpec Types Format.
Open Scope N_scope.

(** Payload of a string: the length and the characters. The code also accepts the beginning of a
    length field at the end of the stream as an empty string ([eos]: nothing follows in the stream). *)
Definition string_carries (eos fl : bool) (p s : list byte) : Prop :=
  p = string_bytes fl s \/ (eos = true /\ len p < 8 /\ s = []).

(** Payload of a single value. *)
Definition single_carries (eos fl : bool) (h : shape) (p : list byte) (v : val) : Prop :=
  match h, v with
  | ShBool, VB b => exists x, p = [x] /\ b = negb (Byte.eqb x x00)
  | ShPod k n, VP img => len img = n * ksize k /\ p = element_bytes k n fl img
  | ShString, VS s => p <> [] /\ string_carries eos fl p s
  | _, _ => False
  end.

(** Bit [i] of a packed bit string. *)
Definition bit_at (p : list byte) (i : nat) : bool :=
  N.testbit (b2n (nth (i / 8) p x00)) (N.of_nat (i mod 8)).

(** Payload of an array. *)
Definition array_carries (eos fl : bool) (h : shape) (p : list byte) (items : list val) (ix : option (list N)) : Prop :=
  exists flags body, flags < 65536 /\
    N.testbit flags 8 = (match ix with Some _ => true | None => false end) /\
    N.testbit flags 9 = false /\
    Forall (shape_ok h) items /\
    (match ix with Some l => ix_ok l | None => True end) /\
    match h with
    | ShPod k n => flags mod 256 = ksize k /\ body = element_bytes k (len items * n) fl (flat_map the_image items)
    | ShBool => len body = (len items + 7) / 8 /\ map the_bool items = map (bit_at body) (seq 0 (length items))
    | ShString => exists ps, body = concat ps /\ Forall2 (string_carries eos fl) ps (map the_string items)
    end /\
    p = num W16 fl flags
        ++ num W64 fl (match h with ShPod _ n => len items * n | _ => len items end)
        ++ (match ix with Some l => num W64 fl (len l) ++ flat_map (num W32 fl) l | None => [] end)
        ++ body.

(** A large block without value. The code also accepts a block that the end of the stream cuts off
    inside the key. *)
Definition null_large (eos fl : bool) (vt : N) (key bs : list byte) : Prop :=
  bs = large_block fl vt key [] \/
  (eos = true /\ exists n k', len k' < len key /\ bs = n2b vt :: num W64 fl n ++ n2b (len key) :: k').

Definition single_accepts (eos fl : bool) (t : dtype) (key bs : list byte) (v : option val) : Prop :=
  match v with
  | Some x => exists p, single_carries eos fl (dshape t) p x /\
      bs = match dshape t with
           | ShString => large_block fl (vt_single t) key p
           | _ => small_block (vt_single t) key p end
  | None => match dshape t with
            | ShString => null_large eos fl (vt_single t) key bs
            | _ => bs = small_block (vt_single t) key [] end
  end.
Definition array_accepts (eos fl : bool) (t : dtype) (key bs : list byte)
  (a : option (list val * option (list N))) : Prop :=
  match a with
  | Some (items, ix) => exists p, array_carries eos fl (dshape t) p items ix /\ bs = large_block fl (vt_array t) key p
  | None => null_large eos fl (vt_array t) key bs
  end.

(** [bs] is a block named [key] that carries [c] as type [t]; [eos] tells whether it is the last in
    its stream. *)
Definition accepts (eos fl : bool) (t : dtype) (key bs : list byte) (c : cval) : Prop :=
  match c with
  | CV v => single_accepts eos fl t key bs (Some v)
  | COpt o => single_accepts eos fl t key bs o
  | CVec l => array_accepts eos fl t key bs (Some (l, None))
  | COptVec o => array_accepts eos fl t key bs (match o with Some l => Some (l, None) | None => None end)
  | CIdx l ix => array_accepts eos fl t key bs (Some (l, Some ix))
  | COptIdx o => array_accepts eos fl t key bs (match o with Some (l, ix) => Some (l, Some ix) | None => None end)
  end.

(** Absent values. *)
Definition is_null (c : cval) : Prop :=
  match c with COpt None | COptVec None | COptIdx None => True | _ => False end.
(** Destinations that may be absent. *)
Definition is_optional (c : cval) : Prop :=
  match c with COpt _ | COptVec _ | COptIdx _ => True | _ => False end.

(** What a destination holds after a successful read that found [w]: [w] itself, except that vectors
    and idx_vectors of entity_ref and package_ref keep their old items in front. *)
Definition delivered (t : dtype) (dest w : cval) : cval :=
  match t, dest, w with
  | (TEntityRef | TPackageRef), CVec l, CVec l1 => CVec (l ++ l1)
  | (TEntityRef | TPackageRef), CIdx l _, CIdx l1 ix => CIdx (l ++ l1) ix
  | _, _, _ => w
  end.
(** Arrays (of any container form). *)
Definition is_array (c : cval) : Prop := match c with CV _ | COpt _ => False | _ => True end.
(** Types whose objects have several components (vectors, matrices, quaternions). *)
Definition multi_component (t : dtype) : Prop := match dshape t with ShPod _ n => n <> 1 | _ => False end.
