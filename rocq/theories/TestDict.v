(** * TestDict: the tests of EntityTable and of entities. Model of Tests/DictionaryTests.cpp, Tests/EntityTests.cpp and of
    TestHelpers/structure_generation.h:30-63. The key types float and double of the tests are not in the model (their
    operator== is not an equivalence). *)
From Verif Require Import Base Values Types Streams EntityWriter EntityReader Items Sections Validator Keys ValueEq Classes Table EntityGen.
Open Scope N_scope.

(** The _Flags template argument: RegistryFlags, ISD/ISD_EntityTable.h:10-14,28-29; [~x] of an unsigned. *)
Definition f_ZeroKeys : N := 1.
Definition f_NullEntities : N := 2.
Definition f_not (x : N) : N := 2^32 - 1 - x.
Definition flags_of (bits : N) : tflags := TFlags (N.land bits f_ZeroKeys =? 0) (N.land bits f_NullEntities =? 0).

Section Dict.
Context (U : forall t, umap_impl (key t)) (k : ktype).
Definition dict : Type := table (kkey k) (ty TestEntity).
Definition dict_mf (bits : N) : mf dict := table_mf (kops k) (U (kt k)) (kzero k) (smf U TestEntity) (flags_of bits).
(** std::make_unique<TestEntity>(); and the same entity after Name() = [s]. *)
Definition new_entity : ty TestEntity := m_new (smf U TestEntity).
Definition named (s : val) : ty TestEntity := (CV s, snd new_entity).
Definition name_of (x : ty TestEntity) : cval := fst x.
(** dict.Entries()[key] = v. *)
Definition put_entry (i : kkey k) (v : option (ty TestEntity)) (d : dict) : dict :=
  t_assign (kops k) i v (fst (t_at (kops k) (U (kt k)) i d)).
(** Validate with a new validator, then GetErrorCount(). *)
Definition error_count (bits : N) (n : nat) (d : dict) : option N :=
  match m_validate (dict_mf bits) n d with Some l => Some (len l) | None => None end.
Definition count_is (c : N) (o : option N) : option bool := match o with Some x => Some (x =? c) | None => None end.

(** DictionaryBasicTests_Validation, Tests/DictionaryTests.cpp:23-101: the four blocks; [keys] are those drawn in the last. *)
Definition validation_test (n : nat) (keys : list (kkey k)) : list (option bool) :=
  let size1 d := Nat.eqb (length (t_list d)) 1 in
  let check bits c (d : dict) := if size1 d then count_is c (error_count bits n d) else Some false in
  [ check (N.lor f_NullEntities f_ZeroKeys) 0 (put_entry (kzero k) None t_new);
    check (f_not f_ZeroKeys) 1 (put_entry (kzero k) (Some new_entity) t_new);
    check (f_not f_NullEntities) 1 (put_entry (k_inf (kops k)) None t_new);
    count_is 0 (error_count (f_not (N.lor f_NullEntities f_ZeroKeys)) n
      (fold_left (fun d i => if k_eq (kops k) i (kzero k) then d else put_entry i (Some new_entity) d) keys t_new)) ].

(** The last block, lines 104-144. The new objects are at addresses that the free store chooses: those of the entities, and
    [copies] those of the copies, in order. [own] says where the entities of dict are, [ptrs] is the set. *)
Record cdraw := CDraw { c_key : kkey k; c_text : val; c_addr : N }.
Record cstate := CState { c_dict : dict; c_own : list (kkey k * N); c_ptrs : list N }.
Definition own_put (i : kkey k) (a : N) (own : list (kkey k * N)) : list (kkey k * N) :=
  (i, a) :: filter (fun p => negb (k_eq (kops k) i (fst p))) own.
Definition copy_step (s : cstate) (d : cdraw) : cstate :=
  CState (put_entry (c_key d) (Some (named (c_text d))) (put_entry (c_key d) (Some new_entity) (c_dict s)))
    (own_put (c_key d) (c_addr d) (c_own s)) (c_addr d :: c_ptrs s).
Definition copy_state (draws : list cdraw) : cstate := fold_left copy_step draws (CState t_new [] []).
Definition n_mem (a : N) (l : list N) : bool := existsb (N.eqb a) l.
(** The copy is made with the copy constructor, the move leaves the map empty and keeps the addresses. *)
Definition copy_test (draws : list cdraw) (copies : list N) : res bool :=
  let s := copy_state draws in let d := c_dict s in
  let size (x : dict) := length (t_list x) in
  do c <- m_copy (dict_mf 0) t_new (Some d);
  if negb (Nat.eqb (size c) (size d)) then Done false else
  if negb (m_eq (dict_mf 0) c d) then Done false else
  if existsb (fun a => n_mem a (c_ptrs s)) copies then Done false else
  let moved := d in let old : dict := t_new in
  if negb (Nat.eqb (size old) 0) then Done false else
  if negb (Nat.eqb (size moved) (size d)) then Done false else
  Done (forallb (fun p => n_mem (snd p) (c_ptrs s)) (c_own s)).

(** GenerateRandomDictionary, TestHelpers/structure_generation.h:30-63, for the default flags: for every entry the keys drawn
    until one is not zero ([None]: there is none, the loop goes on), and the name. *)
Record edraw := EDraw { e_keys : list (kkey k); e_name : val }.
Definition gen_entry (o : option dict) (d : edraw) : option dict :=
  match o, find (fun i => negb (k_eq (kops k) i (kzero k))) (e_keys d) with
  | Some m, Some i => Some (put_entry i (Some (named (e_name d))) (put_entry i (Some new_entity) m))
  | _, _ => None
  end.
Definition gen_dict (draws : list edraw) : option dict := fold_left gen_entry draws (Some t_new).
(** The comparison loop, lines 207-224: every entry of the first is in the second, both null or with equal names. *)
Definition names_equal (a b : dict) : bool :=
  forallb (fun p => match t_find (kops k) (fst p) b with
    | None => false
    | Some y => match snd p, y with
                | Some u, Some v => cval_eq TString (name_of u) (name_of v)
                | None, None => true
                | _, _ => false
                end
    end) (t_list a).
(** DictionaryReadWriteTests_TestKeyType, lines 170-225; one validator for both tables, so the second assertion is about all
    errors. [None] of Validate does not occur (no searches); the model says Undef. *)
Definition dict_rw (e : renv) (n : nat) (draws : list edraw) (st : wstate) : res (bool * wstate) :=
  match gen_dict draws with
  | None => Undef
  | Some d =>
    match m_validate (dict_mf 0) n d with
    | None => Undef
    | Some log1 =>
      let start_pos := ws_pos (w_stream st) in
      do r <- m_write (dict_mf 0) 0 d st; let '(ok, st1) := r in
      if negb (ok : bool) then Done (false, st1) else
      let rs := RS (ws_data (w_stream st1)) start_pos (ws_flip (w_stream st1)) in
      do r2 <- m_read (dict_mf 0) e 0 t_new (r_open rs); let '(ok2, back, _) := r2 in
      if negb (ok2 : bool) then Done (false, st1) else
      match m_validate (dict_mf 0) n back with
      | None => Undef
      | Some log2 =>
        Done ((len (log1 ++ log2) =? 0) && Nat.eqb (length (t_list d)) (length (t_list back)) && names_equal d back, st1)
      end
    end
  end.
End Dict.
Arguments EDraw {k}. Arguments CDraw {k}.

(** Calls for several key types on one writer, lines 251-272. *)
Record dcall := DCall { dc_key : ktype; dc_draws : list (edraw dc_key) }.
Fixpoint dict_rws (U : forall t, umap_impl (key t)) (e : renv) (n : nat) (l : list dcall) (st : wstate) : res (bool * wstate) :=
  match l with
  | [] => Done (true, st)
  | c :: l' =>
    do r <- dict_rw U (dc_key c) e n (dc_draws c) st; let '(ok, st') := r in
    if (ok : bool) then dict_rws U e n l' st' else Done (false, st')
  end.

(** EntityManagementBasicTests, Tests/EntityTests.cpp:25-66: the assertions in order, on the names and texts drawn. Equals of
    two entities; operator= is a deep copy; [ent.Name() = {}] is the empty string. *)
Section Entity.
Context (U : forall t, umap_impl (key t)).
Notation E := (ty TestEntity).
Notation MF := (smf U TestEntity).
Definition set_name (s : val) (x : E) : E := (CV s, snd x).
Definition set_text (o : option val) (x : E) : E := (fst x, (COpt o, snd (snd x))).
Definition entity_test (n : nat) (name0 name1 text1 name2 text2 : val) : res bool :=
  let ent1 := m_new MF in let ent2 := m_new MF in
  let ent1 := set_name name0 ent1 in
  if m_eq MF ent1 ent2 then Done false else
  do ent1 <- m_clear MF ent1;
  if negb (m_eq MF ent1 ent2) then Done false else
  let ent1 := set_text (Some text1) (set_name name1 ent1) in
  match m_validate MF n ent1 with
  | None => Undef
  | Some log =>
    if negb (len log =? 0) then Done false else
    let ent2 := set_text (Some text2) (set_name name2 ent2) in
    if m_eq MF ent1 ent2 then Done false else
    do ent2 <- m_copy MF ent2 (Some ent1);
    if negb (m_eq MF ent1 ent2) then Done false else
    let ent2 := set_text None ent2 in
    do ent1 <- m_copy MF ent1 (Some ent2);
    if negb (m_eq MF ent1 ent2) then Done false else
    let ent1 := set_name (VS []) ent1 in
    do ent2 <- m_copy MF ent2 (Some ent1);
    if negb (m_eq MF ent1 ent2) then Done false else
    do ent2 <- m_clear MF ent2;
    Done (m_eq MF ent1 ent2)
  end.
End Entity.
