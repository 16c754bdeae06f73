(** * TestValues: the test of EntityWriter and EntityReader. Model of Tests/EntityReadWriteTests.cpp. *)
From Coq Require Import Strings.String.
From Verif Require Import Base Bytes Values Types Format Keys Containers ValueEq Streams EntityWriter EntityReader Items Sections.
Open Scope N_scope.

(** What the random generators (TestHelpers/random_vals.h) deliver in one call of TestEntityWriter_TestValueType<T>, lines
    17-31: any values. [d_idx], [d_optidx]: the values and the indices drawn. [d_uninit]: what the variable read_back_value,
    declared without a value in line 78, happens to hold. *)
Record draws := Draws {
  d_value : val; d_opt : option val; d_vec : list val; d_optvec : option (list val);
  d_idx : list val * list N; d_optidx : option (list val * list N); d_rand : N; d_uninit : val }.
(** random_idx_vector, TestHelpers/random_vals.h:140-160, on an empty vector: the indices are stored in [auto indices], which
    is a copy of dest.index(), so the index of dest remains empty. *)
Definition random_idx (d : list val * list N) : list val * list N :=
  let '(values, drawn) := d in let dest_index := @nil N in let indices := drawn in (values, dest_index).
(** Lines 142-154; a key is any of them, line 31. *)
Definition key_names : list (list byte) := map list_byte_of_string
  ["PLbYYDnVEpoPO2Yz"; "h3HHExIVS4eCngO1UZr4"; "At1w2H4jZe"; "Hi2I"; "uGp3TU67GSkitXB"; "c"; "PQkmX7Og"; "hellofoobar";
   "ARJVMxS6yF6lasdjllg8jE292A7"; "z8ERgfAM8"]%string.
Definition test_key (d : draws) : list byte := nth (N.to_nat (d_rand d mod 10)) key_names [].

(** Assert::IsTrue( er.Read( key, v ) ) with the destination [dest], then the assertions [check] on the value read. *)
Definition read_check (e : renv) (t : dtype) (key : list byte) (dest : cval) (check : cval -> bool) (st : rstate)
    (rest : rstate -> res bool) : res bool :=
  do r <- r_read e 0 t key dest st; let '(ok, v, st') := r in
  if negb (ok : bool) then Done false else if check v then rest st' else Done false.

(** The comparisons of lines 81, 87-91, 97, 103-107, 113-114, 120-125. Line 120 compares read_back with itself. *)
Definition check_value (t : dtype) (x : val) (v : cval) : bool := match v with CV y => val_eq t x y | _ => false end.
Definition check_opt (t : dtype) (x : option val) (v : cval) : bool :=
  match v, x with
  | COpt (Some y), Some x' => val_eq t x' y
  | COpt None, None => true
  | _, _ => false
  end.
Definition check_vec (t : dtype) (x : list val) (v : cval) : bool := match v with CVec y => vec_eq (val_eq t) x y | _ => false end.
Definition check_optvec (t : dtype) (x : option (list val)) (v : cval) : bool :=
  match v, x with
  | COptVec (Some y), Some x' => vec_eq (val_eq t) x' y
  | COptVec None, None => true
  | _, _ => false
  end.
Definition check_idx (t : dtype) (x : list val * list N) (v : cval) : bool :=
  match v with CIdx y j => vec_eq (val_eq t) (fst x) y && vec_eq N.eqb (snd x) j | _ => false end.
(** values() of an absent vector is undefined in general (its assertion, line 122, would run on an empty value); the model
    says false. *)
Definition check_optidx (t : dtype) (x : option (list val * list N)) (v : cval) : bool :=
  match x, v with
  | None, COptIdx _ => true
  | Some x', COptIdx (Some (y, j)) => vec_eq (val_eq t) (fst x') y && vec_eq N.eqb (snd x') j
  | _, _ => false
  end.

(** TestEntityWriter_TestValueType<T>, lines 17-127: six Writes with one key, a reader at the position of the first, six Reads. *)
Definition value_test (e : renv) (t : dtype) (d : draws) (st : wstate) : res (bool * wstate) :=
  let key := test_key d in
  let idx := random_idx (d_idx d) in
  let optidx := match d_optidx d with Some x => Some (random_idx x) | None => None end in
  let start_pos := ws_pos (w_stream st) in
  do r <- w_write 0 t key (CV (d_value d)) st; let '(ok, st1) := r in
  if negb (ok : bool) then Done (false, st1) else
  do r <- w_write 0 t key (COpt (d_opt d)) st1; let '(ok, st2) := r in
  if negb (ok : bool) then Done (false, st2) else
  do r <- w_write 0 t key (CVec (d_vec d)) st2; let '(ok, st3) := r in
  if negb (ok : bool) then Done (false, st3) else
  do r <- w_write 0 t key (COptVec (d_optvec d)) st3; let '(ok, st4) := r in
  if negb (ok : bool) then Done (false, st4) else
  do r <- w_write 0 t key (CIdx (fst idx) (snd idx)) st4; let '(ok, st5) := r in
  if negb (ok : bool) then Done (false, st5) else
  do r <- w_write 0 t key (COptIdx optidx) st5; let '(ok, st6) := r in
  if negb (ok : bool) then Done (false, st6) else
  let rs := RS (ws_data (w_stream st6)) start_pos (ws_flip (w_stream st6)) in
  do ok <-
    read_check e t key (CV (d_uninit d)) (check_value t (d_value d)) (r_open rs) (fun s =>
    read_check e t key (COpt None) (check_opt t (d_opt d)) s (fun s =>
    read_check e t key (CVec []) (check_vec t (d_vec d)) s (fun s =>
    read_check e t key (COptVec None) (check_optvec t (d_optvec d)) s (fun s =>
    read_check e t key (CIdx [] []) (check_idx t idx) s (fun s =>
    read_check e t key (COptIdx None) (check_optidx t optidx) s (fun _ => Done true))))));
  Done (ok, st6).

(** Calls one after the other on one writer: the body of the loop, lines 156-222. *)
Fixpoint value_tests (e : renv) (l : list (dtype * draws)) (st : wstate) : res (bool * wstate) :=
  match l with
  | [] => Done (true, st)
  | (t, d) :: l' =>
    do r <- value_test e t d st; let '(ok, st') := r in
    if (ok : bool) then value_tests e l' st' else Done (false, st')
  end.
(** The types in the order of lines 156-221. *)
Definition test_types : list dtype :=
  [TBool; TInt I8; TInt I16; TInt I32; TInt I64; TUInt I8; TUInt I16; TUInt I32; TUInt I64; TFloat F32; TFloat F64;
   TVec D2 F32; TVec D2 F64; TVec D3 F32; TVec D3 F64; TVec D4 F32; TVec D4 F64;
   TIVec D2 I8; TIVec D2 I16; TIVec D2 I32; TIVec D2 I64; TIVec D3 I8; TIVec D3 I16; TIVec D3 I32; TIVec D3 I64;
   TIVec D4 I8; TIVec D4 I16; TIVec D4 I32; TIVec D4 I64;
   TUVec D2 I8; TUVec D2 I16; TUVec D2 I32; TUVec D2 I64; TUVec D3 I8; TUVec D3 I16; TUVec D3 I32; TUVec D3 I64;
   TUVec D4 I8; TUVec D4 I16; TUVec D4 I32; TUVec D4 I64;
   TMat D2 F32; TMat D2 F64; TMat D3 F32; TMat D3 F64; TMat D4 F32; TMat D4 F64;
   TUuid; THash; TString; TEntityRef; TPackageRef].
(** One pass of the loop, lines 133-223: a new stream, flipped in the odd passes; one call for each type. *)
Definition value_pass (e : renv) (init lim : N) (i : nat) (ds : list draws) : res (bool * wstate) :=
  do s <- fresh init lim (Nat.odd i); value_tests e (combine test_types ds) (w_open s).
(** TestEntityWriterAndReadback, lines 131-224; the draws of each pass. *)
Fixpoint values_test (e : renv) (init lim : N) (i : nat) (passes : list (list draws)) : res bool :=
  match passes with
  | [] => Done true
  | ds :: l =>
    do r <- value_pass e init lim i ds; let '(ok, _) := r in
    if (ok : bool) then values_test e init lim (S i) l else Done false
  end.
