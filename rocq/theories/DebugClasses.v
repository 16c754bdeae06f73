(** * DebugClasses: the member functions of the classes in the debug build. Model only.

    Write, Read and Validate with the debug build of the writer, the reader and the graph validation (Debug.v) and the
    checks that stand in the class functions themselves. The checks in value() and vector() of the optional containers
    (ISD/ISD_optional_value.h:33-34, ISD/ISD_optional_vector.h:43-44, ISD/ISD_optional_idx_vector.h:44-45) hold where the
    generated functions call them (after set() or behind has_value(), EntityGenerator.py:144-286), so they are left out.
    The other member functions (Clear, DeepCopy, Equals) contain no checks. *)
From Verif Require Import Base Bytes Values Streams Types EntityWriter EntityReader Sections Validator Keys StdSet Graph Classes Table
  Containers IndexedVector DynTypes Varying EntityGen Debug.
Open Scope N_scope.

(** The functions of T::MF that differ between the builds (Classes.v). Validate: [None] if the step budget was too small. *)
Record dmf (T : Type) := DFun {
  dm_write : N -> T -> wstate -> res (bool * wstate);
  dm_read : renv -> N -> T -> rstate -> res (bool * T * rstate);
  dm_validate : nat -> T -> option (res (list N)) }.
Arguments dm_write {T}. Arguments dm_read {T}. Arguments dm_validate {T}.

(** The counter of the loops [for( ...; ++it, ++index )] (ISD/ISD_DirectedGraph.h:188-193). *)
Fixpoint counted {A} (index : N) (l : list A) : N := match l with [] => index | _ :: r => counted (index + 1) r end.

(** ** DirectedGraph *)
Section Graph.
Context {K : Type} (Ko : keyops K).
(** MF::Write, ISD/ISD_DirectedGraph.h:179-201; check in line 198. *)
Definition d_g_write (h : N) (g : graph K) (st : wstate) : res (bool * wstate) :=
  do r <- d_w_write h (k_type Ko) key_roots (CVec (map (k_val Ko) (g_roots g))) st; let '(ok, st1) := r in
  if negb ok then Done (false, st1) else
  do r2 <- d_w_write h (k_type Ko) key_edges (CVec (map (k_val Ko) (flatten (g_edges g)))) st1; let '(ok2, st2) := r2 in
  if negb ok2 then Done (false, st2) else
  check (counted 0 (g_edges g) =? len (g_edges g)) (Done (true, st2)).
(** MF::Read, ISD/ISD_DirectedGraph.h:203-229. *)
Definition d_g_read (e : renv) (h : N) (g : graph K) (st : rstate) : res (bool * graph K * rstate) :=
  do r <- d_r_read e h (k_type Ko) key_roots (CVec []) st; let '(ok, roots, st1) := r in
  if (ok : bool) then
    let g1 := Graph (set_of (k_lt Ko) (keys_of Ko roots)) (g_edges g) in
    do r2 <- d_r_read e h (k_type Ko) key_edges (CVec []) st1; let '(ok2, pairs, st2) := r2 in
    if (ok2 : bool) then Done (true, insert_pairs Ko (keys_of Ko pairs) (Graph (g_roots g1) []), st2)
    else Done (false, g1, st2)
  else Done (false, g, st1).
(** The functions of DirectedGraph, ISD/ISD_DirectedGraph.h:179-301. *)
Definition d_graph (f : gflags) : dmf (graph K) := DFun _ d_g_write d_g_read (fun n g => d_g_validate Ko n f g).
End Graph.

(** ** EntityTable *)
Section Table.
Context {K T : Type} (Ko : keyops K) (I : umap_impl K) (zero : K) (M : mf T) (D : dmf T).
(** The entity loop of MF::Write, ISD/ISD_EntityTable.h:174-186; the counter is part of the result. *)
Fixpoint d_t_write_entries (h : N) (c : option N) (i : N) (m : list (K * option T)) (st : wstate) : res (bool * N * wstate) :=
  match m with
  | [] => Done (true, i, st)
  | (_, o) :: r =>
    do r1 <- w_begin_in h c i st; let '(ok, st1) := r1 in
    if negb ok then Done (false, i, st1) else
    do r2 <- match o with
             | None => Done (true, st1)
             | Some x => match c with Some hc => dm_write D hc x st1 | None => Undef end
             end; let '(ok2, st2) := r2 in
    if negb ok2 then Done (false, i, st2) else
    do r3 <- w_end_in h c i st2; let '(ok3, st3) := r3 in
    if negb ok3 then Done (false, i, st3) else d_t_write_entries h c (i + 1) r st3
  end.
(** MF::Write, ISD/ISD_EntityTable.h:153-195; check in line 188. *)
Definition d_t_write (h : N) (m : table K T) (st : wstate) : res (bool * wstate) :=
  do r <- d_w_write h (k_type Ko) key_ids (CVec (map (fun p => k_val Ko (fst p)) (t_list m))) st; let '(ok, st1) := r in
  if negb ok then Done (false, st1) else
  do r2 <- d_w_begin_arr h key_entities (len (t_list m)) None st1; let '(c, st2) := r2 in
  match c with
  | None => Done (false, st2)
  | Some hc =>
    do r3 <- d_t_write_entries h (Some hc) 0 (t_list m) st2; let '(ok3, index, st3) := r3 in
    if negb ok3 then Done (false, st3) else
    check (index =? len (t_list m)) (w_end_arr h (Some hc) st3)
  end.
(** The entity loop of MF::Read, ISD/ISD_EntityTable.h:221-249. *)
Fixpoint d_t_read_entries (e : renv) (h : N) (c : option N) (i : N) (ks : list K) (m : table K T) (st : rstate)
  : res (bool * table K T * rstate) :=
  match ks with
  | [] => Done (true, m, st)
  | k :: r =>
    do r1 <- r_begin_in h c i true st; let '(ok, has_data, st1) := r1 in
    if negb ok then Done (false, m, st1) else
    let '(m1, inserted) := t_emplace Ko I k (if (has_data : bool) then Some (m_new M) else None) m in
    if negb inserted then Done (false, m1, st1) else
    do r2 <- (if (has_data : bool) then
                match c with
                | None => Undef
                | Some hc => do q <- dm_read D e hc (m_new M) st1; let '(ok2, x, st2) := q in
                             Done (ok2, t_assign Ko k (Some x) m1, st2)
                end
              else Done (true, m1, st1)); let '(ok2, m2, st2) := r2 in
    if negb ok2 then Done (false, m2, st2) else
    do r3 <- r_end_in h c i st2; let '(ok3, st3) := r3 in
    if negb ok3 then Done (false, m2, st3) else d_t_read_entries e h c (i + 1) r m2 st3
  end.
(** MF::Read, ISD/ISD_EntityTable.h:198-255; check in line 214. *)
Definition d_t_read (e : renv) (h : N) (m : table K T) (st : rstate) : res (bool * table K T * rstate) :=
  do r <- d_r_read e h (k_type Ko) key_ids (CVec []) st; let '(ok, ks, st1) := r in
  if negb ok then Done (false, m, st1) else
  do r2 <- d_r_begin_arr e h key_entities false None st1; let '(c, map_size, ok2, _, st2) := r2 in
  if negb ok2 then Done (false, m, st2) else
  check (match c with Some _ => true | None => false end)
  (if negb (map_size =? len (t_keys_of Ko ks)) then Done (false, m, st2) else
   do r3 <- d_t_read_entries e h c 0 (t_keys_of Ko ks) (t_clear I m) st2; let '(ok3, m3, st3) := r3 in
   if negb ok3 then Done (false, m3, st3) else
   do r4 <- r_end_arr h c st3; let '(ok4, st4) := r4 in Done (ok4, m3, st4)).
(** The loop of MF::Validate, ISD/ISD_EntityTable.h:269-282. *)
Fixpoint d_t_validate_entries (n : nat) (f : tflags) (m : list (K * option T)) : option (res (list N)) :=
  match m with
  | [] => Some (Done [])
  | (_, o) :: r =>
    match (match o with
           | Some x => dm_validate D n x
           | None => Some (Done (if no_null_entities f then [NullNotAllowed] else []))
           end) with
    | None => None
    | Some Throw => Some Throw
    | Some Undef => Some Undef
    | Some (Done l) => match d_t_validate_entries n f r with None => None | Some m' => Some (do l' <- m'; Done (l ++ l')) end
    end
  end.
(** MF::Validate, ISD/ISD_EntityTable.h:258-284. *)
Definition d_t_validate (f : tflags) (n : nat) (m : table K T) : option (res (list N)) :=
  match d_t_validate_entries n f (t_list m) with
  | None => None
  | Some q => Some (do l <- q;
      Done ((if no_zero_keys f then match t_find Ko zero m with Some _ => [NullNotAllowed] | None => [] end else []) ++ l))
  end.
(** The functions of EntityTable, ISD/ISD_EntityTable.h:153-284. *)
Definition d_table (f : tflags) : dmf (table K T) := DFun _ d_t_write d_t_read (d_t_validate f).
End Table.

(** ** IndexedVector *)
(** MF::Write and MF::Read, ISD/ISD_IndexedVector.h:84-100. *)
Definition d_iv_write (t : dtype) (h : N) (o : ivec val) (st : wstate) : res (bool * wstate) :=
  d_w_write h t key_values (CIdx (iv_values o) (iv_index o)) st.
(** MF::Read, ISD/ISD_IndexedVector.h:92-100. *)
Definition d_iv_read (t : dtype) (e : renv) (h : N) (o : ivec val) (st : rstate) : res (bool * ivec val * rstate) :=
  do r <- d_r_read e h t key_values (CIdx (iv_values o) (iv_index o)) st; let '(ok, v, st1) := r in
  Done (ok, iv_of o v, st1).
(** The functions of IndexedVector, ISD/ISD_IndexedVector.h:84-110; its Validate has no check. *)
Definition d_iv (t : dtype) : dmf (ivec val) := DFun _ (d_iv_write t) (d_iv_read t) (fun _ o => Some (Done (iv_validate o))).

(** ** Varying *)
(** dynamic_types::write and read, CodeGenerator/Generators/ISD_DynamicTypes.py:173-197. *)
Definition d_dyn_write (dt ct : N) (key : list byte) (h : N) (data : option obj) (st : wstate) : res (bool * wstate) :=
  dyn_with dt ct data (false, st) (fun k o => as_class k o (fun v => d_w_write h (fst k) key v st)).
(** dynamic_types::read, CodeGenerator/Generators/ISD_DynamicTypes.py:186-197. *)
Definition d_dyn_read (e : renv) (dt ct : N) (key : list byte) (h : N) (data : option obj) (st : rstate) : res (bool * option obj * rstate) :=
  dyn_with dt ct data (false, data, st) (fun k o => as_class k o (fun v =>
    do r <- d_r_read e h (fst k) key v st; let '(ok, v', st') := r in Done (ok, Some (Obj k v'), st'))).
(** MF::Write, ISD/ISD_Varying.cpp:155-176. *)
Definition d_v_write (h : N) (v : varying) (st : wstate) : res (bool * wstate) :=
  if negb (v_init v) then Done (false, st) else
  do r <- d_w_write h (TUInt I16) key_type_ (u16_val (v_ty v mod 2^16)) st; let '(ok, st1) := r in
  if negb ok then Done (false, st1) else
  do r2 <- d_w_write h (TUInt I16) key_container (u16_val (v_ct v mod 2^16)) st1; let '(ok2, st2) := r2 in
  if negb ok2 then Done (false, st2) else
  do r3 <- d_dyn_write (v_ty v) (v_ct v) key_data h (v_data v) st2; let '(ok3, st3) := r3 in
  if negb ok3 then Done (false, st3) else Done (true, st3).
(** MF::Read, ISD/ISD_Varying.cpp:178-203. *)
Definition d_v_read (e : renv) (h : N) (v : varying) (st : rstate) : res (bool * varying * rstate) :=
  do r0 <- v_deinit v; let '(_, v0) := r0 in
  do r1 <- d_r_read e h (TUInt I16) key_type_ (u16_val 0) st; let '(ok1, ty, st1) := r1 in
  if negb ok1 then Done (false, v0, st1) else
  do r2 <- d_r_read e h (TUInt I16) key_container (u16_val 0) st1; let '(ok2, ct, st2) := r2 in
  if negb ok2 then Done (false, v0, st2) else
  do r3 <- v_set_type (u16_of ty) (u16_of ct) v0; let '(ok3, v3) := r3 in
  if negb ok3 then Done (false, v3, st2) else
  do r4 <- d_dyn_read e (v_ty v3) (v_ct v3) key_data h (v_data v3) st2; let '(ok4, x, st4) := r4 in
  if negb ok4 then Done (false, Vary (v_ty v3) (v_ct v3) x, st4) else
  Done (true, Vary (v_ty v3) (v_ct v3) x, st4).
(** The functions of Varying, ISD/ISD_Varying.cpp:155-220. *)
Definition d_varying : dmf varying := DFun _ d_v_write d_v_read (fun _ v => Some (Done (v_validate v))).

(** ** Generated entities (CodeGenerator/Generators/EntityGenerator.py) *)
(** No (more) variables. *)
Definition d_nil : dmf unit :=
  DFun unit (fun _ _ st => Done (true, st)) (fun _ _ _ st => Done (true, tt, st)) (fun _ _ => Some (Done [])).
Section Field.
Context (name : list byte) {F : Type} (D : dmf F).
(** Lines 199-208. *)
Definition d_bf_write (t : dtype) (h : N) (x : cval * F) (st : wstate) : res (bool * wstate) :=
  do r <- d_w_write h t name (fst x) st; let '(ok, st1) := r in
  if negb ok then Done (false, st1) else dm_write D h (snd x) st1.
(** Lines 231-246. *)
Definition d_bf_read (t : dtype) (e : renv) (h : N) (x : cval * F) (st : rstate) : res (bool * (cval * F) * rstate) :=
  do r <- d_r_read e h t name (fst x) st; let '(ok, v, st1) := r in
  if negb ok then Done (false, (v, snd x), st1) else
  do q <- dm_read D e h (snd x) st1; let '(ok2, f, st2) := q in Done (ok2, (v, f), st2).
(** A base type variable; EntityGenerator.py:199-208, 231-246. *)
Definition d_base (t : dtype) : dmf (cval * F) := DFun _ (d_bf_write t) (d_bf_read t) (fun n x => dm_validate D n (snd x)).

Context {T : Type} (M : mf T) (S : dmf T).
(** One Validate after the other. *)
Definition d_log_app (a b : option (res (list N))) : option (res (list N)) :=
  match a with
  | None => None
  | Some Throw => Some Throw
  | Some Undef => Some Undef
  | Some (Done x) => match b with None => None | Some m => Some (do y <- m; Done (x ++ y)) end
  end.
(** Lines 210-227. *)
Definition d_cf_write (h : N) (x : T * F) (st : wstate) : res (bool * wstate) :=
  do r <- d_w_begin h name st; let '(c, st1) := r in
  match c with
  | None => Done (false, st1)
  | Some hc =>
    do r2 <- dm_write S hc (fst x) st1; let '(ok, st2) := r2 in
    if negb ok then Done (false, st2) else
    do r3 <- w_end h (Some hc) st2; let '(_, st3) := r3 in
    dm_write D h (snd x) st3
  end.
(** Lines 247-267. *)
Definition d_cf_read (e : renv) (h : N) (x : T * F) (st : rstate) : res (bool * (T * F) * rstate) :=
  do r <- d_r_begin e h name false st; let '(c, success, st1) := r in
  if negb success then Done (false, x, st1) else
  do r2 <- match c with
           | None => Done (true, fst x, st1)
           | Some hc =>
             do q <- dm_read S e hc (fst x) st1; let '(ok, a, st2) := q in
             if negb ok then Done (false, a, st2) else
             do r3 <- r_end h (Some hc) st2; let '(_, st3) := r3 in Done (true, a, st3)
           end; let '(ok2, a, st2) := r2 in
  if negb ok2 then Done (false, (a, snd x), st2) else
  do q <- dm_read D e h (snd x) st2; let '(ok3, f, st3) := q in Done (ok3, (a, f), st3).
(** Lines 285-288. *)
Definition d_class : dmf (T * F) :=
  DFun _ d_cf_write d_cf_read (fun n x => d_log_app (dm_validate S n (fst x)) (dm_validate D n (snd x))).
(** Lines 210-227, optional. *)
Definition d_of_write (h : N) (x : option T * F) (st : wstate) : res (bool * wstate) :=
  do r <- d_w_begin h name st; let '(c, st1) := r in
  match c with
  | None => Done (false, st1)
  | Some hc =>
    do r2 <- match fst x with Some a => dm_write S hc a st1 | None => Done (true, st1) end; let '(ok, st2) := r2 in
    if negb ok then Done (false, st2) else
    do r3 <- w_end h (Some hc) st2; let '(_, st3) := r3 in
    dm_write D h (snd x) st3
  end.
(** Lines 247-267, optional. *)
Definition d_of_read (e : renv) (h : N) (x : option T * F) (st : rstate) : res (bool * (option T * F) * rstate) :=
  do r <- d_r_begin e h name true st; let '(c, success, st1) := r in
  if negb success then Done (false, x, st1) else
  do r2 <- match c with
           | None => Done (true, None, st1)
           | Some hc =>
             do q <- dm_read S e hc (m_new M) st1; let '(ok, a, st2) := q in
             if negb ok then Done (false, Some a, st2) else
             do r3 <- r_end h (Some hc) st2; let '(_, st3) := r3 in Done (true, Some a, st3)
           end; let '(ok2, a, st2) := r2 in
  if negb ok2 then Done (false, (a, snd x), st2) else
  do q <- dm_read D e h (snd x) st2; let '(ok3, f, st3) := q in Done (ok3, (a, f), st3).
(** Lines 278-284. *)
Definition d_opt : dmf (option T * F) :=
  DFun _ d_of_write d_of_read
    (fun n x => d_log_app (match fst x with Some a => dm_validate S n a | None => Some (Done []) end) (dm_validate D n (snd x))).
End Field.

(** The member functions of a class. *)
Section Functions.
Context (I : forall t, umap_impl (key t)).
(** Each class and each generated entity, as in EntityGen.v; CodeGenerator/Generators/EntityGenerator.py:190-300. *)
Fixpoint d_smf (s : schema) : dmf (ty s) :=
  match s with
  | SGraph k f => d_graph (kops k) f
  | STable k f s' => d_table (kops k) (I (kt k)) (kzero k) (smf I s') (d_smf s') f
  | SIdx t => d_iv t
  | SVarying => d_varying
  | SEntity fs => d_fmf fs
  end
with d_fmf (fs : fields) : dmf (fty fs) :=
  match fs with
  | FNil => d_nil
  | FBase name t c r => d_base name (d_fmf r) t
  | FClass name s r => d_class name (d_fmf r) (d_smf s)
  | FOpt name s r => d_opt name (d_fmf r) (smf I s) (d_smf s)
  end.
End Functions.
