(** * Varying: model of ISD/ISD_Varying.cpp and ISD/ISD_Varying.h.
    First as values (the object owns its data: what the containers and entities that hold a Varying see),
    then with the data in a heap, for sequences of operations on several Varyings. *)
From Verif Require Import Base Bytes Values Streams Types EntityWriter EntityReader Sections Validator ValueEq Classes DynTypes.
Open Scope N_scope.

(** ** Values *)
(** type_m, container_type_m, data_m (ISD_Varying.h:29-31); [None] is a null pointer. *)
Record varying := Vary { v_ty : N; v_ct : N; v_data : option obj }.
(** Default construction: ISD_Varying.h:17,29-31. *)
Definition v_new : varying := Vary 0 0 None.
(** IsInitialized, ISD_Varying.cpp:101-104. *)
Definition v_init (v : varying) : bool := match v_data v with Some _ => true | None => false end.
(** Deinitialize, lines 69-88. *)
Definition v_deinit (v : varying) : res (bool * varying) :=
  if v_init v then
    do ok <- dyn_delete (v_ty v) (v_ct v) (v_data v);
    if negb ok then Done (false, v) else Done (true, v_new)
  else Done (true, v).
(** MF::SetType, lines 217-235. *)
Definition v_set_type (dt ct : N) (v : varying) : res (bool * varying) :=
  do r <- v_deinit v; let '(ok, v1) := r in
  if negb ok then Done (false, v1) else
  Done (match dyn_new dt ct with Some _ => true | None => false end, Vary dt ct (dyn_new dt ct)).
(** MF::Clear, lines 106-112. *)
Definition v_clear (v : varying) : res varying :=
  if negb (v_init v) then Done v else
  do r <- dyn_clear (v_ty v) (v_ct v) (v_data v); let '(ok, d) := r in
  if ok then Done (Vary (v_ty v) (v_ct v) d) else Throw.
(** MF::DeepCopy, lines 114-133, from another object. *)
Definition v_copy (dest : varying) (source : option varying) : res varying :=
  do r <- v_deinit dest; let '(ok, d1) := r in
  if negb ok then Throw else
  match source with
  | None => Done d1
  | Some s =>
    if negb (v_init s) then Done d1 else
    do r2 <- v_set_type (v_ty s) (v_ct s) d1; let '(ok2, d2) := r2 in
    if negb ok2 then Throw else
    do r3 <- dyn_copy (v_ty d2) (v_ct d2) (v_data d2) (v_data s); let '(ok3, x) := r3 in
    if negb ok3 then Throw else Done (Vary (v_ty d2) (v_ct d2) x)
  end.
(** MF::Equals, lines 135-153, of two different objects. *)
Definition v_equals (l r : varying) : res bool :=
  if negb (v_ty l =? v_ty r) then Done false else
  if negb (v_ct l =? v_ct r) then Done false else
  dyn_equals (v_ty l) (v_ct l) (v_data l) (v_data r).
(** ISDKeyMacro of "Type", "ContainerType" and "Data". *)
Definition key_type_ : list byte := [x54; x79; x70; x65].
Definition key_container : list byte := [x43; x6f; x6e; x74; x61; x69; x6e; x65; x72; x54; x79; x70; x65].
Definition key_data : list byte := [x44; x61; x74; x61].
(** A u16 value. *)
Definition u16_val (n : N) : cval := CV (VP (le 2 n)).
Definition u16_of (c : cval) : N := match c with CV (VP b) => of_le b | _ => 0 end.
(** MF::Write, lines 155-176; the ids are converted to u16. *)
Definition v_write (h : N) (v : varying) (st : wstate) : res (bool * wstate) :=
  if negb (v_init v) then Done (false, st) else
  do r <- w_write h (TUInt I16) key_type_ (u16_val (v_ty v mod 2^16)) st; let '(ok, st1) := r in
  if negb ok then Done (false, st1) else
  do r2 <- w_write h (TUInt I16) key_container (u16_val (v_ct v mod 2^16)) st1; let '(ok2, st2) := r2 in
  if negb ok2 then Done (false, st2) else
  do r3 <- dyn_write (v_ty v) (v_ct v) key_data h (v_data v) st2; let '(ok3, st3) := r3 in
  if negb ok3 then Done (false, st3) else Done (true, st3).
(** MF::Read, lines 178-203. *)
Definition v_read (e : renv) (h : N) (v : varying) (st : rstate) : res (bool * varying * rstate) :=
  do r0 <- v_deinit v; let '(_, v0) := r0 in
  do r1 <- r_read e h (TUInt I16) key_type_ (u16_val 0) st; let '(ok1, ty, st1) := r1 in
  if negb ok1 then Done (false, v0, st1) else
  do r2 <- r_read e h (TUInt I16) key_container (u16_val 0) st1; let '(ok2, ct, st2) := r2 in
  if negb ok2 then Done (false, v0, st2) else
  do r3 <- v_set_type (u16_of ty) (u16_of ct) v0; let '(ok3, v3) := r3 in
  if negb ok3 then Done (false, v3, st2) else
  do r4 <- dyn_read e (v_ty v3) (v_ct v3) key_data h (v_data v3) st2; let '(ok4, x, st4) := r4 in
  if negb ok4 then Done (false, Vary (v_ty v3) (v_ct v3) x, st4) else
  Done (true, Vary (v_ty v3) (v_ct v3) x, st4).
(** MF::Validate, lines 205-215. *)
Definition v_validate (v : varying) : list N := if v_init v then [] else [NullNotAllowed].
(** Equals as a function of the class interface, which has no undefined outcome: v_equals is always Done
    on objects whose data has the type the ids say (C23). *)
Definition v_eqb (l r : varying) : bool := match v_equals l r with Done b => b | _ => false end.
(** Varying::MF. *)
Definition varying_mf : mf varying :=
  MFun _ v_new v_clear v_copy v_eqb v_write v_read (fun _ v => Some (v_validate v)).

(** ** Heap *)
(** The live objects, by address. *)
Definition addr := N.
Definition heap := addr -> option obj.
Definition put (a : addr) (o : option obj) (H : heap) : heap := fun x => if x =? a then o else H x.
(** A Varying object in memory: ISD_Varying.h:29-31. *)
Record hvary := HVary { h_ty : N; h_ct : N; h_data : option addr }.
(** The program state: the variables (by name; [None] if there is no object), the heap and the next
    address (addresses are never reused, which only makes dangling pointers easier to see). *)
Record hstate := HSt { hs_vars : N -> option hvary; hs_heap : heap; hs_next : addr }.
Definition set_var (i : N) (v : option hvary) (s : hstate) : hstate :=
  HSt (fun x => if x =? i then v else hs_vars s x) (hs_heap s) (hs_next s).
(** Access to a variable; there must be an object. *)
Definition var (i : N) (s : hstate) : res hvary := match hs_vars s i with Some v => Done v | None => Undef end.
(** The object a pointer refers to; a pointer to a deleted object is undefined behaviour. *)
Definition load (p : option addr) (s : hstate) : res (option obj) :=
  match p with
  | None => Done None
  | Some a => match hs_heap s a with Some o => Done (Some o) | None => Undef end
  end.
Definition store (p : option addr) (o : option obj) (s : hstate) : hstate :=
  match p with None => s | Some a => HSt (hs_vars s) (put a o (hs_heap s)) (hs_next s) end.
(** Deinitialize of variable [i], lines 69-88. *)
Definition h_deinit (i : N) (s : hstate) : res (bool * hstate) :=
  do v <- var i s;
  match h_data v with
  | None => Done (true, s)
  | Some a =>
    do o <- load (Some a) s;
    do ok <- dyn_delete (h_ty v) (h_ct v) o;
    if negb ok then Done (false, s) else
    Done (true, set_var i (Some (HVary 0 0 None)) (store (Some a) None s))
  end.
(** SetType of variable [i], lines 217-235. *)
Definition h_set_type (i dt ct : N) (s : hstate) : res (bool * hstate) :=
  do r <- h_deinit i s; let '(ok, s1) := r in
  if negb ok then Done (false, s1) else
  match dyn_new dt ct with
  | None => Done (false, set_var i (Some (HVary dt ct None)) s1)
  | Some o =>
    let a := hs_next s1 in
    Done (true, set_var i (Some (HVary dt ct (Some a))) (HSt (hs_vars s1) (put a (Some o) (hs_heap s1)) (a + 1)))
  end.
(** MF::Clear of variable [i], lines 106-112. *)
Definition h_clear (i : N) (s : hstate) : res hstate :=
  do v <- var i s;
  match h_data v with
  | None => Done s
  | Some a => do o <- load (Some a) s;
              do r <- dyn_clear (h_ty v) (h_ct v) o; let '(ok, o') := r in
              if ok then Done (store (Some a) o' s) else Throw
  end.
(** MF::DeepCopy from variable [j] to variable [i] (possibly the same), lines 114-133. *)
Definition h_copy (i j : N) (s : hstate) : res hstate :=
  do r <- h_deinit i s; let '(ok, s1) := r in
  if negb ok then Throw else
  do w <- var j s1;
  match h_data w with
  | None => Done s1
  | Some b =>
    do r2 <- h_set_type i (h_ty w) (h_ct w) s1; let '(ok2, s2) := r2 in
    if negb ok2 then Throw else
    do v <- var i s2; do w2 <- var j s2;
    do x <- load (h_data v) s2; do y <- load (h_data w2) s2;
    do r3 <- dyn_copy (h_ty v) (h_ct v) x y; let '(ok3, x') := r3 in
    if negb ok3 then Throw else Done (store (h_data v) x' s2)
  end.
(** The move constructor and the move assignment of [i] from [j], lines 28-38 and 40-52. *)
Definition h_move (i j : N) (s : hstate) : res hstate :=
  do w <- var j s;
  Done (set_var j (Some (HVary 0 0 None)) (set_var i (Some w) s)).
(** MF::Equals, lines 135-153. *)
Definition h_equals (i j : N) (s : hstate) : res bool :=
  do v <- var i s; do w <- var j s;
  if i =? j then Done true else
  if negb (h_ty v =? h_ty w) then Done false else
  if negb (h_ct v =? h_ct w) then Done false else
  do x <- load (h_data v) s; do y <- load (h_data w) s;
  dyn_equals (h_ty v) (h_ct v) x y.
(** IsA<T>, ISD_Varying.h:83-87. *)
Definition h_is_a (k : tclass) (v : hvary) : bool := (h_ty v =? dt_id (fst k)) && (h_ct v =? ct_id (snd k)).
(** Data<T>, ISD_Varying.h:90-103: the address of the data. *)
Definition h_data_ref (k : tclass) (i : N) (s : hstate) : res addr :=
  do v <- var i s;
  match h_data v with
  | None => Throw
  | Some a => if h_is_a k v then Done a else Throw
  end.
(** Reading and writing through a reference to an object of type [k]. *)
Definition deref (k : tclass) (a : addr) (s : hstate) : res cval :=
  do o <- load (Some a) s; match o with Some x => as_class k x (fun v => Done v) | None => Undef end.
Definition assign_ref (k : tclass) (a : addr) (c : cval) (s : hstate) : res hstate :=
  do _ <- deref k a s; Done (store (Some a) (Some (Obj k c)) s).

(** One operation of a program on Varying variables, and what it returns. *)
Inductive vop :=
| VDefault (i : N)                    (* Varying vi; *)
| VCopyCtor (i j : N)                 (* Varying vi( vj ); *)
| VMoveCtor (i j : N)                 (* Varying vi( std::move( vj ) ); *)
| VAssign (i j : N)                   (* vi = vj; also MF::DeepCopy( vi, &vj ) *)
| VMoveAssign (i j : N)               (* vi = std::move( vj ); *)
| VDestroy (i : N)                    (* end of lifetime *)
| VInit (i dt ct : N)                 (* vi.Initialize( dt, ct ) *)
| VInitT (i : N) (k : tclass)         (* vi.Initialize<T>() *)
| VSet (i : N) (k : tclass) (c : cval) (* vi.Data<T>() = c *)
| VGet (i : N) (k : tclass)           (* vi.Data<T>() *)
| VClear (i : N)                      (* MF::Clear( vi ) *)
| VEquals (i j : N)                   (* vi == vj *)
| VIsInit (i : N) | VIsA (i : N) (k : tclass) | VType (i : N).
Inductive vout := OUnit | OBool (b : bool) | OVal (c : cval) | OType (dt ct : N) | OThrow.

Definition v_step (o : vop) (s : hstate) : res (vout * hstate) :=
  match o with
  | VDefault i => match hs_vars s i with Some _ => Undef | None => Done (OUnit, set_var i (Some (HVary 0 0 None)) s) end
  | VCopyCtor i j => (* lines 13-20 *)
    match hs_vars s i with Some _ => Undef | None => do s1 <- h_copy i j (set_var i (Some (HVary 0 0 None)) s); Done (OUnit, s1) end
  | VMoveCtor i j => match hs_vars s i with Some _ => Undef | None => do s1 <- h_move i j s; Done (OUnit, s1) end
  | VAssign i j => do s1 <- h_copy i j s; Done (OUnit, s1) (* lines 22-26 *)
  | VMoveAssign i j => do _ <- var i s; do s1 <- h_move i j s; Done (OUnit, s1)
  | VDestroy i => do r <- h_deinit i s; Done (OUnit, set_var i None (snd r)) (* lines 54-57 *)
  | VInit i dt ct => do r <- h_set_type i dt ct s; Done (OBool (fst r), snd r) (* lines 90-93 *)
  | VInitT i k => (* ISD_Varying.h:75-80 *)
    do r <- h_set_type i (dt_id (fst k)) (ct_id (snd k)) s; Done (if fst r then OUnit else OThrow, snd r)
  | VSet i k c => match h_data_ref k i s with
                  | Done a => do s1 <- assign_ref k a c s; Done (OUnit, s1)
                  | Throw => Done (OThrow, s)
                  | Undef => Undef
                  end
  | VGet i k => match h_data_ref k i s with
                | Done a => do c <- deref k a s; Done (OVal c, s)
                | Throw => Done (OThrow, s)
                | Undef => Undef
                end
  | VClear i => do s1 <- h_clear i s; Done (OUnit, s1)
  | VEquals i j => do b <- h_equals i j s; Done (OBool b, s)
  | VIsInit i => do v <- var i s; Done (OBool (match h_data v with Some _ => true | None => false end), s)
  | VIsA i k => do v <- var i s; Done (OBool (h_is_a k v), s)
  | VType i => do v <- var i s; Done (OType (h_ty v) (h_ct v), s)
  end.
Fixpoint v_run (l : list vop) (s : hstate) : res (list vout * hstate) :=
  match l with
  | [] => Done ([], s)
  | o :: r => do a <- v_step o s; let '(x, s1) := a in do b <- v_run r s1; let '(xs, s2) := b in Done (x :: xs, s2)
  end.
Definition v_start : hstate := HSt (fun _ => None) (fun _ => None) 0.
