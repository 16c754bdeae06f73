(** * DebugSpec: what the checks of the debug build are about. Specification. *)
From Verif Require Import Base Bytes Values Streams FileSpec Types Format EntityReader Sections Protocol.
Open Scope N_scope.

(** The key a call names, if it takes one. *)
Definition wkey (c : wcall) : option (list byte) :=
  match c with WWrite _ _ key _ | WBegin _ key | WBeginArr _ key _ _ => Some key | _ => None end.
Definition rkey (c : rcall) : option (list byte) :=
  match c with RRead _ _ key _ | RBegin _ key _ | RBeginArr _ key _ _ => Some key | _ => None end.
(** Legal keys: at most EntityMaxKeyLength = 40 characters; readers are also given no empty key. *)
Definition wlegal (c : wcall) : Prop := match wkey c with Some key => len key <= 40 | None => True end.
Definition rlegal (c : rcall) : Prop := match rkey c with Some key => 0 < len key <= 40 | None => True end.

(** The payload of a block in a stream with byte order flag [fl] begins with array flags that announce an
    index of 32 bit numbers (bit 8 set, bit 9 clear). If the stream ends after the first byte of the
    flags, that byte counts as the high one when the bytes are swapped, and as the low one otherwise. *)
Definition announces_index (fl : bool) (l : list byte) : Prop :=
  (exists flags rest, l = num W16 fl flags ++ rest /\ flags < 65536 /\ N.testbit flags 8 = true /\ N.testbit flags 9 = false)
  \/ (fl = true /\ exists b, l = [b] /\ N.testbit (b2n b) 0 = true /\ N.testbit (b2n b) 1 = false).

(** [l] are the bytes of a stream from position [pos] on, [total] is the size of the stream. The large
    block there has the right type and key, its flags announce an index, but its size field lets the
    block end (modulo 2^64) before the flags and the item count do, although not with the key. *)
Definition cut_short (fl : bool) (pos total vt : N) (key l : list byte) : Prop :=
  exists size rest,
    l = n2b vt :: num W64 fl size ++ n2b (len key) :: key ++ rest /\
    size < two64 /\ announces_index fl rest /\
    let block_end := (pos + 9 + size) mod two64 in
    let payload := pos + 10 + len key in
    0 < block_end /\ block_end <> payload /\ block_end < N.min (payload + 10) total.

(** The blocks on which a call in the debug build fails a check. *)
Definition idx_dest (c : cval) : bool := match c with CIdx _ _ | COptIdx _ => true | _ => false end.
Definition trips (c : rcall) (st : rstate) : Prop :=
  let s := r_stream st in
  let at_ vt key := cut_short (rs_flip s) (rs_pos s) (len (rs_data s)) vt key (drop (rs_pos s) (rs_data s)) in
  match c with
  | RRead h t key dest => rlive h st /\ idx_dest dest = true /\ at_ (vt_array t) key
  | RBeginArr h key _ (Some _) => (exists a f, r_chain st = a ++ [f] /\ rf_id f = h /\ ~ In h (map rf_id a)) /\ at_ vt_array_subsection key
  | _ => False
  end.

(** The destination object of a reading call is one of the type the call names. *)
Definition dest_fits (c : rcall) : Prop := match c with RRead _ t _ dest => cval_ok t dest | _ => True end.
(** A program: the calls one after another, up to the first exception. *)
Fixpoint run {C R S} (step : C -> S -> res (R * S)) (l : list C) (st : S) : res (list R * S) :=
  match l with
  | [] => Done ([], st)
  | c :: l' => do r <- step c st; let '(x, st1) := r in do r2 <- run step l' st1; let '(xs, st2) := r2 in Done (x :: xs, st2)
  end.
