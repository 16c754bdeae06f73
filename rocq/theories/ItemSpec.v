(** * ItemSpec: vocabulary of the statements about items. Specification. *)
From Verif Require Import Base Bytes Values FileSpec Types Format Accept EntityReader Items.
Open Scope N_scope.

(** A legal Write call: a value of its type, a key of at most 40 bytes (EntityMaxKeyLength). *)
Definition item_ok (i : item) : Prop := cval_ok (i_type i) (i_val i) /\ len (i_key i) <= 40.
(** The bytes of a list of items. *)
Definition items_image (fl : bool) (l : list item) : list byte :=
  flat_map (fun i => encode fl (i_type i) (i_key i) (i_val i)) l.
(** A Read call that mirrors a Write call: same type, key and container, some destination. *)
Definition mirrors (w r : item) : Prop :=
  i_type r = i_type w /\ i_key r = i_key w /\ cval_ctype (i_val r) = cval_ctype (i_val w) /\
  cval_ok (i_type r) (i_val r).

(** Vectors of references are appended to instead of replaced; the others, and empty ones, receive
    exactly what was written. *)
Definition replaced (t : dtype) (dest : cval) : Prop :=
  match t, dest with
  | (TEntityRef | TPackageRef), (CVec l | CIdx l _) => l = []
  | _, _ => True
  end.

(** The ValueType byte of a block holding a value of type [t] in container [c]. *)
Definition type_byte (t : dtype) (c : ctype) : N :=
  match c with CtNone | CtOpt => vt_single t | _ => vt_array t end.
(** Blocks with a u64 size: strings and arrays. *)
Definition large (t : dtype) (c : ctype) : bool :=
  match c with CtNone | CtOpt => match t with TString => true | _ => false end | _ => true end.
(** The size of the objects of a type (a value count times the component size), and the components. *)
Definition same_layout (t t' : dtype) : Prop := dshape t = dshape t'.

(** The allocator of the write stream allows twice [n] bytes. *)
Definition room (init lim n : N) : Prop := 0 < init /\ init <= lim /\ lim < two64 /\ 2 * n <= lim.
(** The allocations of a reader that meets a block of [block] bytes in a stream of [total] bytes
    succeed. *)
Definition read_room (e : renv) (block total : N) : Prop := 4 * block <= e_lim e /\ total < two64.
(** Arrays with an index. *)
Definition indexed (c : ctype) : bool := match c with CtIdx | CtOptIdx => true | _ => false end.
(** What a value says, whatever the container: the single value or the array, possibly absent. *)
Definition content (c : cval) : option val + option (list val * option (list N)) :=
  match c with
  | CV v => inl (Some v)
  | COpt o => inl o
  | CVec l => inr (Some (l, None))
  | COptVec o => inr (match o with Some l => Some (l, None) | None => None end)
  | CIdx l ix => inr (Some (l, Some ix))
  | COptIdx o => inr (match o with Some (l, ix) => Some (l, Some ix) | None => None end)
  end.

(** Skip [n] blocks knowing only their type bytes and sizes. *)
Fixpoint skip_blocks (fl : bool) (n : nat) (bs : list byte) : option (list byte) :=
  match n with
  | O => Some bs
  | S n' => match block_length fl bs with Some k => skip_blocks fl n' (drop k bs) | None => None end
  end.
