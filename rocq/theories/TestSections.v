(** * TestSections: the recursive class section_object. Model of Tests/SectionHierarchyReadWriteTests.cpp.
    Assert::IsTrue throws when its argument is false; here the function stops with the result false. *)
From Coq Require Import Strings.String.
From Verif Require Import Base Bytes Values Streams Types EntityWriter EntityReader Items Sections ValueEq.
Open Scope N_scope.

(** class section_object (SectionHierarchyReadWriteTests.cpp:19-35): an optional name, a matrix, a nullable object, a vector
    of nullable objects and an optional indexed vector of nullable objects. *)
Inductive sobj := SObj (name : option (list byte)) (transform : list byte) (sub : osobj) (vec : ovecs) (arr : oarr)
with osobj := ONull | OSome (o : sobj)
with ovecs := VNil | VCons (x : osobj) (r : ovecs)
with oarr := ANone | ASome (ix : list N) (v : ovecs).
Fixpoint vsize (v : ovecs) : N := match v with VNil => 0 | VCons _ r => vsize r + 1 end.
(** section_object::CountItems (lines 66-89): the number of objects, a uint. *)
Fixpoint count (o : sobj) : N :=
  match o with SObj _ _ sub vec arr =>
    (1 + count_o sub + count_v vec + match arr with ANone => 0 | ASome _ v => count_v v end) mod 2^32
  end
with count_o (x : osobj) : N := match x with ONull => 0 | OSome o => count o end
with count_v (v : ovecs) : N := match v with VNil => 0 | VCons x r => count_o x + count_v r end.

(** The keys (lines 127-194). *)
Definition k_name : list byte := list_byte_of_string "object_name".
Definition k_transform : list byte := list_byte_of_string "object_transform".
Definition k_sub : list byte := list_byte_of_string "sub".
Definition k_vec : list byte := list_byte_of_string "vec".
Definition k_arr : list byte := list_byte_of_string "opt_arr".

Section Class.
(** The component type of mat4 (the name is not declared in /repo): any. *)
Context (f : fsize).
Definition v_name (name : option (list byte)) : cval := COpt (match name with Some s => Some (VS s) | None => None end).

(** section_object::Compare (lines 91-123). *)
Fixpoint compare (a b : sobj) : bool :=
  match a, b with SObj n t s v r, SObj n' t' s' v' r' =>
    cval_eq TString (v_name n) (v_name n') && cval_eq (TMat D4 f) (CV (VP t)) (CV (VP t')) &&
    compare_o s s' && compare_v v v' &&
    match r, r' with
    | ANone, ANone => true
    | ASome i w, ASome i' w' => compare_v w w' && (if list_eq_dec N.eq_dec i i' then true else false)
    | _, _ => false
    end
  end
with compare_o (a b : osobj) : bool :=
  match a, b with ONull, ONull => true | OSome x, OSome y => compare x y | _, _ => false end
with compare_v (a b : ovecs) : bool :=
  match a, b with VNil, VNil => true | VCons x r, VCons y r' => compare_o x y && compare_v r r' | _, _ => false end.

(** section_object::Write (lines 125-192). The result of WriteNullSection is not looked at (line 144). *)
Fixpoint write (h : N) (o : sobj) (st : wstate) : res (bool * wstate) :=
  match o with SObj name transform sub vec arr =>
    do r1 <- w_write h TString k_name (v_name name) st; let '(ok1, st1) := r1 in
    if negb ok1 then Done (false, st1) else
    do r2 <- w_write h (TMat D4 f) k_transform (CV (VP transform)) st1; let '(ok2, st2) := r2 in
    if negb ok2 then Done (false, st2) else
    do r3 <- match sub with
             | OSome x =>
               do q <- w_begin h k_sub st2; let '(c, q1) := q in
               match c with
               | None => Done (false, q1)
               | Some hc => do q2 <- write hc x q1; let '(ok, q3) := q2 in
                            if negb ok then Done (false, q3) else w_end h (Some hc) q3
               end
             | ONull => do q <- w_null h k_sub st2; let '(_, q1) := q in Done (true, q1)
             end; let '(ok3, st3) := r3 in
    if negb ok3 then Done (false, st3) else
    do q <- w_begin_arr h k_vec (vsize vec) None st3; let '(c, st4) := q in
    match c with
    | None => Done (false, st4)
    | Some hc =>
      do q2 <- write_v h hc 0 vec st4; let '(ok5, st5) := q2 in
      if negb ok5 then Done (false, st5) else
      do q3 <- w_end_arr h (Some hc) st5; let '(ok6, st6) := q3 in
      if negb ok6 then Done (false, st6) else
      match arr with
      | ASome ix v =>
        do p <- w_begin_arr h k_arr (vsize v) (Some ix) st6; let '(c2, p1) := p in
        match c2 with
        | None => Done (false, p1)
        | Some hc2 => do p2 <- write_v h hc2 0 v p1; let '(ok, p3) := p2 in
                      if negb ok then Done (false, p3) else w_end_arr h (Some hc2) p3
        end
      | ANone => w_null_arr h k_arr st6
      end
    end
  end
with write_v (h hc i : N) (v : ovecs) (st : wstate) : res (bool * wstate) :=
  match v with
  | VNil => Done (true, st)
  | VCons x r =>
    do r1 <- w_begin_in h (Some hc) i st; let '(ok, st1) := r1 in
    if negb ok then Done (false, st1) else
    do r2 <- match x with OSome o => write hc o st1 | ONull => Done (true, st1) end; let '(ok2, st2) := r2 in
    if negb ok2 then Done (false, st2) else
    do r3 <- w_end_in h (Some hc) i st2; let '(ok3, st3) := r3 in
    if negb ok3 then Done (false, st3) else write_v h hc (i + 1) r st3
  end.

(** A default constructed section_object (lines 22-27; value-initialised). *)
Definition new_transform : list byte := match val_default (dshape (TMat D4 f)) with VP l => l | _ => [] end.
Definition new_obj : sobj := SObj None new_transform ONull VNil ANone.
(** section_object::Read (lines 194-262) into a new object. It calls itself for every object found: [depth] bounds the
    number of calls inside each other; when it is used up the stack has overflowed. resize (lines 225, 246) throws when the
    pointers need more memory than there is. The loop over an array is [loop],
    applied to the number of elements that are left. *)
Definition loop (R : N -> rstate -> res (bool * sobj * rstate)) (h hc : N) : nat -> N -> rstate -> res (bool * ovecs * rstate) :=
  fix go (left : nat) (i : N) (st : rstate) : res (bool * ovecs * rstate) :=
  match left with
  | O => Done (true, VNil, st)
  | S m =>
    do r1 <- r_begin_in h (Some hc) i true st; let '(ok, has_data, st1) := r1 in
    if negb ok then Done (false, VNil, st1) else
    do r2 <- (if has_data : bool then do q <- R hc st1; let '(ok, o, q1) := q in Done (ok, OSome o, q1) else Done (true, ONull, st1));
    let '(ok2, x, st2) := r2 in
    if negb ok2 then Done (false, VCons x VNil, st2) else
    do r3 <- r_end_in h (Some hc) i st2; let '(ok3, st3) := r3 in
    if negb ok3 then Done (false, VCons x VNil, st3) else
    do r4 <- go m (i + 1) st3; let '(ok4, v, st4) := r4 in Done (ok4, VCons x v, st4)
  end.
Definition opt_text (v : cval) : option (list byte) := match v with COpt (Some (VS s)) => Some s | _ => None end.
Definition pod (v : cval) : list byte := match v with CV (VP l) => l | _ => [] end.
Fixpoint read (depth : nat) (e : renv) (h : N) (st : rstate) {struct depth} : res (bool * sobj * rstate) :=
  match depth with
  | O => Undef
  | S d =>
    do r1 <- r_read e h TString k_name (COpt None) st; let '(ok1, n, st1) := r1 in
    if negb ok1 then Done (false, new_obj, st1) else
    do r2 <- r_read e h (TMat D4 f) k_transform (CV (VP new_transform)) st1; let '(ok2, t, st2) := r2 in
    let obj := SObj (opt_text n) (pod t) in
    if negb ok2 then Done (false, obj ONull VNil ANone, st2) else
    do r3 <- r_begin e h k_sub true st2; let '(c, ok3, st3) := r3 in
    if negb ok3 then Done (false, obj ONull VNil ANone, st3) else
    do r4 <- match c with
             | None => Done (true, ONull, st3)
             | Some hc =>
               do q <- read d e hc st3; let '(ok, x, q1) := q in
               if negb ok then Done (false, OSome x, q1) else
               do q2 <- r_end h (Some hc) q1; let '(ok2, q3) := q2 in Done (ok2, OSome x, q3)
             end; let '(ok4, sub, st4) := r4 in
    if negb ok4 then Done (false, obj sub VNil ANone, st4) else
    do r5 <- r_begin_arr e h k_vec false None st4; let '(c, size, ok5, _, st5) := r5 in
    if negb ok5 then Done (false, obj sub VNil ANone, st5) else
    do r6 <- match c with
             | None => Done (true, VNil, st5)
             | Some hc =>
               if e_lim e <? 8 * size then Throw else
               do q <- loop (read d e) h hc (N.to_nat size) 0 st5; let '(ok, v, q1) := q in
               if negb ok then Done (false, v, q1) else
               do q2 <- r_end_arr h (Some hc) q1; let '(ok2, q3) := q2 in Done (ok2, v, q3)
             end; let '(ok6, vec, st6) := r6 in
    if negb ok6 then Done (false, obj sub vec ANone, st6) else
    do r7 <- r_begin_arr e h k_arr true (Some []) st6; let '(c, size, ok7, ix, st7) := r7 in
    if negb ok7 then Done (false, obj sub vec (ASome [] VNil), st7) else
    match c with
    | None => Done (true, obj sub vec ANone, st7)
    | Some hc =>
      if e_lim e <? 8 * size then Throw else
      let arr v := ASome (match ix with Some l => l | None => [] end) v in
      do q <- loop (read d e) h hc (N.to_nat size) 0 st7; let '(ok, v, q1) := q in
      if negb ok then Done (false, obj sub vec (arr v), q1) else
      do q2 <- r_end_arr h (Some hc) q1; let '(ok2, q3) := q2 in Done (ok2, obj sub vec (arr v), q3)
    end
  end.
End Class.
