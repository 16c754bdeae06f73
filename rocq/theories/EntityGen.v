(** * EntityGen: the generated entity classes, for every entity definition. Model of
    CodeGenerator/Generators/EntityGenerator.py (the functions it generates) and of
    CodeGenerator/Entities/__init__.py (entity definitions). *)
From Verif Require Import Base Bytes Values Streams Types EntityWriter EntityReader Sections Validator Keys KeySpec Containers
  ValueEq StdSet Graph Classes Table IndexedVector DynTypes Varying.
Open Scope N_scope.

(** operator!= of the data types: HASH (and package_ref) word by word
    (CodeGenerator/InlinedCode/uuid_hash_header.inl:64-70); for the others it is the negation of operator==
    (built-in types, std::string, UUID, glm). *)
Definition val_ne (t : dtype) (a b : val) : bool :=
  match t with
  | THash | TPackageRef => words_ne 8 4 (img a) (img b)
  | _ => negb (val_eq t a b)
  end.
(** operator!= of the containers (ISD/ISD_optional_value.h:74-88; Containers.v). *)
Definition cval_ne (t : dtype) (a b : cval) : bool :=
  match a, b with
  | CV x, CV y => val_ne t x y
  | COpt x, COpt y => match x, y with Some v, Some w => val_ne t v w | None, None => false | _, _ => true end
  | CVec x, CVec y => vec_ne (val_eq t) x y
  | COptVec x, COptVec y => ovx_ne (val_eq t) (ovec_of x) (ovec_of y)
  | CIdx x i, CIdx y j => ivx_ne (val_eq t) (IVec x i) (IVec y j)
  | COptIdx x, COptIdx y => oix_ne (val_eq t) (oivec_of x) (oivec_of y)
  | _, _ => true
  end.

(** DirectedGraph<K,Flags>::MF (ISD/ISD_DirectedGraph.h; Graph.v). *)
Definition graph_mf {K} (Ko : keyops K) (f : gflags) : mf (graph K) :=
  MFun _ g_empty (fun g => Done (g_clear g)) (fun d s => Done (g_deep_copy Ko d s))
    (fun l r => g_equals Ko false (Some l) (Some r)) (g_write Ko) (g_read Ko) (fun n g => g_validate Ko n f g).

(** ** The member functions, variable by variable
    An object of an entity class is the tuple of its variables. [M] stands for the rest of the variables. *)

(** No (more) variables. *)
Definition nil_mf : mf unit :=
  MFun unit tt (fun _ => Done tt) (fun _ _ => Done tt) (fun _ _ => true) (fun _ _ st => Done (true, st))
    (fun _ _ _ st => Done (true, tt, st)) (fun _ _ => Some []).

Section Field.
Context (name : list byte) {F : Type} (M : mf F).

(** A variable of a base type [t] in a container [c] (Variable, Entities/__init__.py:46-86). Constructor: value
    initialised (EntityGenerator.py:58-62). *)
Section Base.
Context (t : dtype) (c : ctype).
(** Clear, lines 131-138: reset() if optional, = {} otherwise. *)
Definition bf_clear (x : cval * F) : res (cval * F) :=
  do f <- m_clear M (snd x); Done (cval_default t c, f).
(** DeepCopy, lines 144-154; a null source clears (lines 363-368). *)
Definition bf_copy (d : cval * F) (s : option (cval * F)) : res (cval * F) :=
  match s with
  | None => bf_clear d
  | Some x => do f <- m_copy M (snd d) (Some (snd x)); Done (fst x, f)
  end.
(** Equals, lines 173-182. *)
Definition bf_eq (l r : cval * F) : bool := if cval_ne t (fst l) (fst r) then false else m_eq M (snd l) (snd r).
(** Write, lines 199-208. *)
Definition bf_write (h : N) (x : cval * F) (st : wstate) : res (bool * wstate) :=
  do r <- w_write h t name (fst x) st; let '(ok, st1) := r in
  if negb ok then Done (false, st1) else m_write M h (snd x) st1.
(** Read, lines 231-246. *)
Definition bf_read (e : renv) (h : N) (x : cval * F) (st : rstate) : res (bool * (cval * F) * rstate) :=
  do r <- r_read e h t name (fst x) st; let '(ok, v, st1) := r in
  if negb ok then Done (false, (v, snd x), st1) else
  do q <- m_read M e h (snd x) st1; let '(ok2, f, st2) := q in Done (ok2, (v, f), st2).
(** Validate, lines 271-276: nothing to do for a base type. *)
Definition base_field : mf (cval * F) :=
  MFun _ (cval_default t c, m_new M) bf_clear bf_copy bf_eq bf_write bf_read (fun n x => m_validate M n (snd x)).
End Base.

(** A variable of a class type with member functions [S]. *)
Section Class.
Context {T : Type} (S : mf T).
(** The concatenation of two logs. *)
Definition log_app (a b : option (list N)) : option (list N) :=
  match a, b with Some x, Some y => Some (x ++ y) | _, _ => None end.

(** Clear, lines 139-140. *)
Definition cf_clear (x : T * F) : res (T * F) :=
  do a <- m_clear S (fst x); do f <- m_clear M (snd x); Done (a, f).
(** DeepCopy, lines 167-168. *)
Definition cf_copy (d : T * F) (s : option (T * F)) : res (T * F) :=
  match s with
  | None => cf_clear d
  | Some x => do a <- m_copy S (fst d) (Some (fst x)); do f <- m_copy M (snd d) (Some (snd x)); Done (a, f)
  end.
(** Equals, lines 191-193: of two different objects, neither null. *)
Definition cf_eq (l r : T * F) : bool :=
  if negb (m_equals S false (Some (fst l)) (Some (fst r))) then false else m_eq M (snd l) (snd r).
(** Write, lines 210-227. The result of EndWriteSection is ignored. *)
Definition cf_write (h : N) (x : T * F) (st : wstate) : res (bool * wstate) :=
  do r <- w_begin h name st; let '(c, st1) := r in
  match c with
  | None => Done (false, st1)
  | Some hc =>
    do r2 <- m_write S hc (fst x) st1; let '(ok, st2) := r2 in
    if negb ok then Done (false, st2) else
    do r3 <- w_end h (Some hc) st2; let '(_, st3) := r3 in
    m_write M h (snd x) st3
  end.
(** Read, lines 247-267. The result of EndReadSection is ignored. *)
Definition cf_read (e : renv) (h : N) (x : T * F) (st : rstate) : res (bool * (T * F) * rstate) :=
  do r <- r_begin e h name false st; let '(c, success, st1) := r in
  if negb success then Done (false, x, st1) else
  do r2 <- match c with
           | None => Done (true, fst x, st1)
           | Some hc =>
             do q <- m_read S e hc (fst x) st1; let '(ok, a, st2) := q in
             if negb ok then Done (false, a, st2) else
             do r3 <- r_end h (Some hc) st2; let '(_, st3) := r3 in Done (true, a, st3)
           end; let '(ok2, a, st2) := r2 in
  if negb ok2 then Done (false, (a, snd x), st2) else
  do q <- m_read M e h (snd x) st2; let '(ok3, f, st3) := q in Done (ok3, (a, f), st3).
(** Validate, lines 285-288. *)
Definition cf_validate (n : nat) (x : T * F) : option (list N) := log_app (m_validate S n (fst x)) (m_validate M n (snd x)).
Definition class_field : mf (T * F) :=
  MFun _ (m_new S, m_new M) cf_clear cf_copy cf_eq cf_write cf_read cf_validate.

(** An optional variable of a class type: an optional_value<T>. The generated Clear does not compile (it
    passes the optional_value to T::MF::Clear, line 140), so it has no behaviour. *)
Definition of_clear (x : option T * F) : res (option T * F) := Undef.
(** DeepCopy, lines 156-165: set() replaces the object by a new one. *)
Definition of_copy (d : option T * F) (s : option (option T * F)) : res (option T * F) :=
  match s with
  | None => of_clear d
  | Some x =>
    do a <- match fst x with
            | Some y => do z <- m_copy S (m_new S) (Some y); Done (Some z)
            | None => Done None
            end;
    do f <- m_copy M (snd d) (Some (snd x)); Done (a, f)
  end.
(** Equals, lines 184-190: pointers, null if there is no value. *)
Definition of_eq (l r : option T * F) : bool :=
  if negb (m_equals S (match fst l, fst r with None, None => true | _, _ => false end) (fst l) (fst r)) then false
  else m_eq M (snd l) (snd r).
(** Write, lines 210-227. *)
Definition of_write (h : N) (x : option T * F) (st : wstate) : res (bool * wstate) :=
  do r <- w_begin h name st; let '(c, st1) := r in
  match c with
  | None => Done (false, st1)
  | Some hc =>
    do r2 <- match fst x with Some a => m_write S hc a st1 | None => Done (true, st1) end; let '(ok, st2) := r2 in
    if negb ok then Done (false, st2) else
    do r3 <- w_end h (Some hc) st2; let '(_, st3) := r3 in
    m_write M h (snd x) st3
  end.
(** Read, lines 247-267: set() before reading, reset() if the section is empty. *)
Definition of_read (e : renv) (h : N) (x : option T * F) (st : rstate) : res (bool * (option T * F) * rstate) :=
  do r <- r_begin e h name true st; let '(c, success, st1) := r in
  if negb success then Done (false, x, st1) else
  do r2 <- match c with
           | None => Done (true, None, st1)
           | Some hc =>
             do q <- m_read S e hc (m_new S) st1; let '(ok, a, st2) := q in
             if negb ok then Done (false, Some a, st2) else
             do r3 <- r_end h (Some hc) st2; let '(_, st3) := r3 in Done (true, Some a, st3)
           end; let '(ok2, a, st2) := r2 in
  if negb ok2 then Done (false, (a, snd x), st2) else
  do q <- m_read M e h (snd x) st2; let '(ok3, f, st3) := q in Done (ok3, (a, f), st3).
(** Validate, lines 278-284. *)
Definition of_validate (n : nat) (x : option T * F) : option (list N) :=
  log_app (match fst x with Some a => m_validate S n a | None => Some [] end) (m_validate M n (snd x)).
Definition opt_field : mf (option T * F) :=
  MFun _ (None, m_new M) of_clear of_copy of_eq of_write of_read of_validate.
End Class.
End Field.

(** ** Entity definitions *)
(** The key types: any type with an order (is_key). *)
Record ktype := KeyT {
  kt : dtype;
  kt_key : is_key kt = true;
  kt_inf : key_okb kt (key_inf kt) = true;
  kt_sup : key_okb kt (key_sup kt) = true }.
Definition kkey (k : ktype) : Type := key (kt k).
Definition kops (k : ktype) : keyops (kkey k) := key_ops (kt k) (kt_inf k) (kt_sup k).
(** data_type_information<K>::zero (CodeGenerator/Generators/ISD_DataTypes.py:58-89). *)
Definition kzero (k : ktype) : kkey k := k_of (kops k) (val_default (dshape (kt k))).

(** The class types: DirectedGraph<K,Flags>, EntityTable<K,T,Flags>, IndexedVector<T>, Varying, generated
    entities; and the variables of an entity (Entities/__init__.py:8-14, 46-86): base type and container; class type;
    optional class type. Vectors of class types are not supported by the generator (the generated functions
    treat the vector as one object of the class). *)
Inductive schema :=
| SGraph (k : ktype) (f : gflags)
| STable (k : ktype) (f : tflags) (s : schema)
| SIdx (t : dtype)
| SVarying
| SEntity (fs : fields)
with fields :=
| FNil
| FBase (name : list byte) (t : dtype) (c : ctype) (r : fields)
| FClass (name : list byte) (s : schema) (r : fields)
| FOpt (name : list byte) (s : schema) (r : fields).

(** The objects of a class. *)
Fixpoint ty (s : schema) : Type :=
  match s with
  | SGraph k _ => graph (kkey k)
  | STable k _ s' => table (kkey k) (ty s')
  | SIdx _ => ivec val
  | SVarying => varying
  | SEntity fs => fty fs
  end
with fty (fs : fields) : Type :=
  match fs with
  | FNil => unit
  | FBase _ _ _ r => (cval * fty r)%type
  | FClass _ s r => (ty s * fty r)%type
  | FOpt _ s r => (option (ty s) * fty r)%type
  end.

(** The member functions of a class; [I] is the standard library's implementation of
    std::unordered_map, one instance for every key type. *)
Section Functions.
Context (I : forall t, umap_impl (key t)).
Fixpoint smf (s : schema) : mf (ty s) :=
  match s with
  | SGraph k f => graph_mf (kops k) f
  | STable k f s' => table_mf (kops k) (I (kt k)) (kzero k) (smf s') f
  | SIdx t => iv_mf t
  | SVarying => varying_mf
  | SEntity fs => fmf fs
  end
with fmf (fs : fields) : mf (fty fs) :=
  match fs with
  | FNil => nil_mf
  | FBase name t c r => base_field name (fmf r) t c
  | FClass name s r => class_field name (fmf r) (smf s)
  | FOpt name s r => opt_field name (fmf r) (smf s)
  end.
End Functions.

(** ** The entities of the project *)
Definition k_entity_ref : ktype := KeyT TEntityRef eq_refl eq_refl eq_refl.
Definition k_package_ref : ktype := KeyT TPackageRef eq_refl eq_refl eq_refl.
(** The default template arguments: no flags (ISD/ISD_EntityTable.h:16). *)
Definition no_flags : tflags := TFlags true true.
Definition s_Name : list byte := [x4e; x61; x6d; x65].

(** CodeGenerator/Entities/Nodes/Node.py *)
Definition Node : schema := SEntity
  (FBase s_Name TString CtNone
  (FBase [x54; x72; x61; x6e; x73; x6c; x61; x74; x69; x6f; x6e] (TVec D3 F32) CtNone
  (FBase [x52; x6f; x74; x61; x74; x69; x6f; x6e] (TVec D3 F32) CtNone
  (FBase [x53; x63; x61; x6c; x65] (TVec D3 F32) CtNone FNil)))).
(** CodeGenerator/Entities/Nodes/NodeGeometry.py *)
Definition NodeGeometry : schema := SEntity (FBase [x47; x65; x6f; x6d; x65; x74; x72; x79] TPackageRef CtNone FNil).
(** CodeGenerator/Entities/Geometry/AttributeLayer.py *)
Definition AttributeLayer : schema := SEntity (FBase s_Name TString CtNone FNil).
(** CodeGenerator/Entities/Testing/TestEntity.py *)
Definition TestEntity : schema := SEntity
  (FBase s_Name TString CtNone (FBase [x4f; x70; x74; x69; x6f; x6e; x61; x6c; x54; x65; x78; x74] TString CtOpt FNil)).
(** CodeGenerator/Entities/Scene/SceneLayer.py *)
Definition SceneLayer : schema := SEntity
  (FBase s_Name TString CtNone
  (FClass [x47; x72; x61; x70; x68] (SGraph k_entity_ref (GFlags true true false))
  (FClass [x4e; x6f; x64; x65; x73] (STable k_entity_ref no_flags Node)
  (FClass [x47; x65; x6f; x6d; x65; x74; x72; x69; x65; x73] (STable k_entity_ref no_flags NodeGeometry) FNil)))).
(** CodeGenerator/Entities/Scene/Scene.py *)
Definition Scene : schema := SEntity (FClass [x4c; x61; x79; x65; x72; x73] (STable k_package_ref no_flags SceneLayer) FNil).
(** CodeGenerator/Entities/Geometry/Mesh.py *)
Definition Mesh : schema := SEntity
  (FClass [x4c; x61; x79; x65; x72; x73] (STable k_entity_ref no_flags AttributeLayer)
  (FClass [x54; x65; x78; x74; x75; x72; x65; x43; x6f; x6f; x72; x64; x73; x44; x61; x74; x61] (STable k_entity_ref no_flags (SIdx (TVec D2 F32)))
  (FClass [x54; x61; x6e; x67; x65; x6e; x74; x73; x44; x61; x74; x61] (STable k_entity_ref no_flags (SIdx (TVec D3 F32)))
  (FClass [x42; x69; x74; x61; x6e; x67; x65; x6e; x74; x73; x44; x61; x74; x61] (STable k_entity_ref no_flags (SIdx (TVec D3 F32)))
  (FClass [x4e; x6f; x72; x6d; x61; x6c; x73; x44; x61; x74; x61] (STable k_entity_ref no_flags (SIdx (TVec D3 F32)))
  (FClass [x43; x6f; x6c; x6f; x72; x73; x44; x61; x74; x61] (STable k_entity_ref no_flags (SIdx (TVec D4 F32)))
  (FClass [x43; x75; x73; x74; x6f; x6d; x44; x61; x74; x61] (STable k_entity_ref no_flags SVarying) FNil))))))).
