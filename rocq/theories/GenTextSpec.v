(** * GenTextSpec: entity definitions the code generator can be used with, and what class a definition stands for. *)
From Coq Require Import Strings.String Strings.Ascii.
From Verif Require Import Base Bytes Values Streams Types EntityWriter EntityReader Sections Keys Classes Table EntityGen
  GenText CppText CppSem.
Local Open Scope string_scope.
Local Open Scope list_scope.

(** The reserved words of C++. *)
Definition reserved_words : list string :=
  [ "alignas"; "alignof"; "and"; "and_eq"; "asm"; "auto"; "bitand"; "bitor"; "bool"; "break"; "case"; "catch"; "char";
    "char16_t"; "char32_t"; "class"; "compl"; "const"; "constexpr"; "const_cast"; "continue"; "decltype"; "default"; "delete";
    "do"; "double"; "dynamic_cast"; "else"; "enum"; "explicit"; "export"; "extern"; "false"; "float"; "for"; "friend"; "goto";
    "if"; "inline"; "int"; "long"; "mutable"; "namespace"; "new"; "noexcept"; "not"; "not_eq"; "nullptr"; "operator"; "or";
    "or_eq"; "private"; "protected"; "public"; "register"; "reinterpret_cast"; "return"; "short"; "signed"; "sizeof"; "static";
    "static_assert"; "static_cast"; "struct"; "switch"; "template"; "this"; "thread_local"; "throw"; "true"; "try"; "typedef";
    "typeid"; "typename"; "union"; "unsigned"; "using"; "virtual"; "void"; "volatile"; "wchar_t"; "while"; "xor"; "xor_eq" ].
(** An identifier of C++. *)
Fixpoint all_chars (p : ascii -> bool) (s : string) : bool :=
  match s with EmptyString => true | String c r => p c && all_chars p r end.
Definition digit (c : ascii) : bool := let n := N_of_ascii c in ((48 <=? n) && (n <=? 57))%N.
Definition ident_ok (s : string) : bool :=
  match s with EmptyString => false | String c _ => negb (digit c) end && all_chars id_char s && negb (has s reserved_words).

(** The text of a type: a name, or a template with one or two arguments. *)
Inductive tname := TN (s : string) | TA1 (s : string) (a : tname) | TA2 (s : string) (a b : tname).
Fixpoint tn_text (t : tname) : string :=
  match t with
  | TN s => s
  | TA1 s a => s ^^ "<" ^^ tn_text a ^^ ">"
  | TA2 s a b => s ^^ "<" ^^ tn_text a ^^ "," ^^ tn_text b ^^ ">"
  end.
Fixpoint tn_type (t : tname) : cty :=
  match t with TN s => Ct [s] [] | TA1 s a => Ct [s] [[tn_type a]] | TA2 s a b => Ct [s] [[tn_type a]; [tn_type b]] end.
(** How deep the templates are nested. *)
Fixpoint tn_depth (t : tname) : nat :=
  match t with TN _ => 0 | TA1 _ a => S (tn_depth a) | TA2 _ a b => S (Nat.max (tn_depth a) (tn_depth b)) end.
(** A name of a type: an identifier or a data type whose name is a reserved word. *)
Definition type_ok (s : string) : bool := ident_ok s || match base_type_variant s with Some _ => true | None => false end.
Fixpoint tn_ok (t : tname) : bool :=
  match t with
  | TN s => type_ok s
  | TA1 s a => ident_ok s && tn_ok a
  | TA2 s a b => ident_ok s && tn_ok a && tn_ok b
  end.
(** A template definition with the types given as types; the generator gets their text. *)
Record tdef := TDef { td_name : string; td_template : string; td_types : list tname; td_flags : list string }.
Definition template_of (t : tdef) : template := Tem (td_name t) (td_template t) (map tn_text (td_types t)) (td_flags t).
Definition tdef_ok (t : tdef) : bool :=
  ident_ok (td_name t) && ident_ok (td_template t) && forallb tn_ok (td_types t)
  && forallb (fun a => Nat.leb (tn_depth a) 4) (td_types t) && Nat.leb (length (td_types t) + length (td_flags t)) 16
  && forallb ident_ok (td_flags t) && negb (match td_types t with [] => true | _ => false end).

(** The names the generated text uses for itself. *)
Definition own_names : list string :=
  [ "MF"; "std"; "ISDKeyMacro"; "EntityWriter"; "EntityReader"; "EntityValidator";
    "optional_value"; "optional_vector"; "idx_vector"; "optional_idx_vector" ].
(** The headers that come with the library and declare no entity. *)
Definition library_headers : list string := [ "Types"; "EntityWriter"; "EntityReader"; "EntityValidator" ].

(** An entity definition: name, variables, dependencies, templates. *)
Record edef := EDef { ed_name : string; ed_vars : list variable; ed_deps : list dependency; ed_templates : list tdef }.
Definition entity_of (d : edef) : entity := Ent (ed_name d) (ed_vars d) (ed_deps d) (map template_of (ed_templates d)).
Definition is_type_name (n : string) : bool := match base_type_variant n with Some _ => true | None => false end.

(** A sensible definition: all names are identifiers, different from each other where C++ demands it and from the names the
    generated text uses; variable names have less than 256 characters. *)
Definition var_ok (v : variable) : bool :=
  variable_ok v && ident_ok (v_name v) && type_ok (v_type v) && N.ltb (N.of_nat (String.length (v_name v))) 256.
Definition well_formed (d : edef) : Prop :=
  ident_ok (ed_name d) = true /\ is_type_name (ed_name d) = false /\ ~ In (ed_name d) (own_names ++ map (fun v => "v_" ^^ v_name v) (ed_vars d)) /\
  forallb var_ok (ed_vars d) = true /\ NoDup (map v_name (ed_vars d)) /\
  (forall v, In v (ed_vars d) -> ~ In (v_name v) (ed_name d :: own_names ++ map td_name (ed_templates d) ++ map (fun w => "v_" ^^ v_name w) (ed_vars d)) /\
     ~ In (v_type v) (ed_name d :: own_names)) /\
  forallb (fun p => ident_ok (d_name p)) (ed_deps d) = true /\
  forallb tdef_ok (ed_templates d) = true /\ NoDup (map td_name (ed_templates d)) /\
  (forall t, In t (ed_templates d) -> is_type_name (td_name t) = false /\
     ~ In (td_name t) (ed_name d :: own_names ++ map (fun v => "v_" ^^ v_name v) (ed_vars d))).

(** The headers define the classes of [W], and the library headers none; the entity is not one of them. *)
Definition world_ok (W : world) (d : edef) : Prop :=
  (forall n, In n library_headers -> W n = None) /\ W (ed_name d) = None /\ ~ In (ed_name d) library_headers.

(** The template definition as a type. *)
Definition flag_type (t : tdef) (f : string) : cty := Ct [td_template t ^^ "Flags"; f] [].
Definition tdef_type (t : tdef) : cty :=
  Ct [td_template t] (map (fun a => [tn_type a]) (td_types t) ++ match td_flags t with [] => [] | l => [map (flag_type t) l] end).
(** The classes the template definitions stand for: in order, each may use the ones before it; a class outside must be a
    dependency. *)
Definition depends (d : edef) (n : string) : bool := has n (map d_name (ed_deps d)).
Definition defined_classes (W : world) (d : edef) : option (list (string * schema)) :=
  typedefs W (depends d) [] (map (fun t => (td_name t, tdef_type t)) (ed_templates d)).

(** The fields of the class the definition stands for: a data type in a container, an object of one of the classes above,
    or an optional one. *)
Definition container (v : variable) : ctype :=
  match v_optional v, v_vector v, v_indexed v with
  | false, false, _ => CtNone | true, false, _ => CtOpt
  | false, true, false => CtVec | true, true, false => CtOptVec
  | false, true, true => CtIdx | true, true, true => CtOptIdx
  end.
Definition field_name (v : variable) : list byte := list_byte_of_string (v_name v).
Fixpoint class_fields (T : list (string * schema)) (l : list variable) : option fields :=
  match l with
  | [] => Some FNil
  | v :: r =>
    match class_fields T r with
    | None => None
    | Some fs =>
      match base_type_variant (v_type v), assoc (v_type v) T with
      | Some t, _ => Some (FBase (field_name v) t (container v) fs)
      | None, Some s =>
        if v_vector v then None else Some (if v_optional v then FOpt (field_name v) s fs else FClass (field_name v) s fs)
      | None, None => None
      end
    end
  end.

(** An object of the class, as the values of the variables v_X. *)
Definition member_name (n : list byte) : string := "v_" ^^ string_of_list_byte n.
Fixpoint pack (fs : fields) : fty fs -> obj :=
  match fs with
  | FNil => fun _ => []
  | FBase n t c r => fun x => (member_name n, FvBase t c (fst x)) :: pack r (snd x)
  | FClass n s r => fun x => (member_name n, FvObj s (fst x)) :: pack r (snd x)
  | FOpt n s r => fun x => (member_name n, FvOpt s (fst x)) :: pack r (snd x)
  end.

Definition rmap {A B} (f : A -> B) (r : res A) : res B := match r with Done a => Done (f a) | Throw => Throw | Undef => Undef end.
Definition deref {A} (p : option bool) (a b : A) : option A := match p with None => None | Some false => Some a | Some true => Some b end.
Definition same_ptr (p q : option bool) : bool :=
  match p, q with None, None => true | Some a, Some b => Bool.eqb a b | _, _ => false end.

(** The text read as program [g] means the class with fields [fs] and functions [M]: on every object every function of the
    text does what the function of the class does. *)
Record means (I : forall t, umap_impl (key t)) (W : world) (g : program) (T : list (string * schema)) (fs : fields) : Prop := {
  means_new : run_new I W g T = Done (pack fs (m_new (fmf I fs)));
  means_clear : forall x, run_clear I W g T (pack fs x) = rmap (pack fs) (m_clear (fmf I fs) x);
  means_copy : forall d s,
    run_copy I W g T (pack fs d) (option_map (pack fs) s) = rmap (pack fs) (m_copy (fmf I fs) d s);
  means_equals : forall p q a b,
    run_equals I W g T p q (pack fs a) (pack fs b) = Done (m_equals (fmf I fs) (same_ptr p q) (deref p a b) (deref q a b));
  means_write : forall h x w, run_write I W g T h (pack fs x) w = m_write (fmf I fs) h x w;
  means_read : forall e h x w,
    run_read I W g T e h (pack fs x) w
    = rmap (fun r => let '(ok, y, w1) := r in (ok, pack fs y, w1)) (m_read (fmf I fs) e h x w);
  means_validate : forall n x,
    run_validate I W g T n (pack fs x) = match m_validate (fmf I fs) n x with Some l => Done (true, l) | None => Undef end;
  means_copy_ctor : forall x, run_copy_ctor I W g T (pack fs x) = rmap (pack fs) (m_copy (fmf I fs) (m_new (fmf I fs)) (Some x));
  means_assign : forall d x, run_assign I W g T (pack fs d) (pack fs x) = rmap (pack fs) (m_copy (fmf I fs) d (Some x));
  means_eq : forall a b, run_eq I W g T (pack fs a) (pack fs b) = Done (m_eq (fmf I fs) a b);
  means_ne : forall a b, run_ne I W g T (pack fs a) (pack fs b) = Done (negb (m_eq (fmf I fs) a b)) }.

(** ** Definitions that stand for a class, and projects *)
(** No optional variable of a class type. *)
Fixpoint no_optional (fs : fields) : bool :=
  match fs with FNil => true | FBase _ _ _ r => no_optional r | FClass _ _ r => no_optional r | FOpt _ _ _ => false end.
(** The definition stands for the class with typedefs [T] and fields [fs]: all template definitions are classes, every variable is
    of a data type or of a class in [T], and class objects are neither optional nor in vectors. *)
Definition defines (W : world) (d : edef) (T : list (string * schema)) (fs : fields) : Prop :=
  defined_classes W d = Some T /\ class_fields T (ed_vars d) = Some fs /\ no_optional fs = true.
(** A project: entity definitions one after the other, each may depend on the ones before it. *)
Definition add_class (W : world) (n : string) (s : schema) : world := fun m => if streqb m n then Some s else W m.
Fixpoint project (W : world) (l : list edef) : option world :=
  match l with
  | [] => Some W
  | d :: r =>
    match defined_classes W d with
    | None => None
    | Some T =>
      match class_fields T (ed_vars d) with
      | None => None
      | Some fs => if no_optional fs then project (add_class W (ed_name d) (SEntity fs)) r else None
      end
    end
  end.
(** The entity definitions of /repo, in an order of their dependencies (the files in CodeGenerator/Entities). *)
Definition plain_var (t n : string) : variable := Var t n false false false.
Definition include (n : string) : dependency := Dep n true.
Definition AttributeLayer_def : edef := EDef "AttributeLayer" [plain_var "string" "Name"] [] [].
Definition Node_def : edef :=
  EDef "Node" [plain_var "string" "Name"; plain_var "fvec3" "Translation"; plain_var "fvec3" "Rotation"; plain_var "fvec3" "Scale"]
    [include "DataValuePointers"] [].
Definition NodeGeometry_def : edef := EDef "NodeGeometry" [plain_var "package_ref" "Geometry"] [] [].
Definition TestEntity_def : edef := EDef "TestEntity" [plain_var "string" "Name"; Var "string" "OptionalText" true false false] [] [].
Definition SceneLayer_def : edef :=
  EDef "SceneLayer"
    [plain_var "string" "Name"; plain_var "scene_graph" "Graph"; plain_var "nodes" "Nodes"; plain_var "node_geometries" "Geometries"]
    [include "DirectedGraph"; include "EntityTable"; include "Node"; include "NodeGeometry"]
    [TDef "scene_graph" "DirectedGraph" [TN "entity_ref"] ["Acyclic"; "Rooted"];
     TDef "nodes" "EntityTable" [TN "entity_ref"; TN "Node"] [];
     TDef "node_geometries" "EntityTable" [TN "entity_ref"; TN "NodeGeometry"] []].
Definition Scene_def : edef :=
  EDef "Scene" [plain_var "scene_layers" "Layers"] [include "EntityTable"; include "SceneLayer"]
    [TDef "scene_layers" "EntityTable" [TN "package_ref"; TN "SceneLayer"] []].
Definition Mesh_def : edef :=
  EDef "Mesh"
    [plain_var "attribute_layers" "Layers"; plain_var "attribute_layers_fvec2" "TextureCoordsData"; plain_var "attribute_layers_fvec3" "TangentsData";
     plain_var "attribute_layers_fvec3" "BitangentsData"; plain_var "attribute_layers_fvec3" "NormalsData";
     plain_var "attribute_layers_fvec4" "ColorsData"; plain_var "attribute_layers_custom" "CustomData"]
    [include "EntityTable"; include "AttributeLayer"; include "IndexedVector"; Dep "Varying" false]
    [TDef "attribute_layers" "EntityTable" [TN "entity_ref"; TN "AttributeLayer"] [];
     TDef "attribute_layers_fvec2" "EntityTable" [TN "entity_ref"; TA1 "IndexedVector" (TN "fvec2")] [];
     TDef "attribute_layers_fvec3" "EntityTable" [TN "entity_ref"; TA1 "IndexedVector" (TN "fvec3")] [];
     TDef "attribute_layers_fvec4" "EntityTable" [TN "entity_ref"; TA1 "IndexedVector" (TN "fvec4")] [];
     TDef "attribute_layers_custom" "EntityTable" [TN "entity_ref"; TN "Varying"] []].
Definition the_project : list edef :=
  [AttributeLayer_def; Mesh_def; Node_def; NodeGeometry_def; SceneLayer_def; Scene_def; TestEntity_def].
(** The class the library itself defines (ISD/ISD_Varying.h). *)
Definition library : world := fun n => if streqb n "Varying" then Some SVarying else None.
