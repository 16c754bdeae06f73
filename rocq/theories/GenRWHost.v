(** * GenRWHost: what the generated ISD_EntityWriter.cpp and ISD_EntityReader.cpp are compiled against: the ValueType numbers, the data
    types of the project and the function templates of ISD_EntityWriterTemplates.inl and ISD_EntityReaderTemplates.inl (whose bodies
    are modelled in EntityWriter.v and EntityReader.v). Model only. *)
From Coq Require Import Strings.String Strings.Ascii.
From Verif Require Import Base Bytes Values Streams Types EntityWriter EntityReader GenText GenRW CppFun.
Local Open Scope string_scope.
Local Open Scope list_scope.
Local Open Scope N_scope.

(** enum class ValueType (ISD/ISD_Types.h:89-144). *)
Definition value_types : list (string * N) :=
  [ ("VT_Bool", 0x01); ("VT_Int", 0x02); ("VT_UInt", 0x03); ("VT_Float", 0x04); ("VT_Vec2", 0x05); ("VT_Vec3", 0x06); ("VT_Vec4", 0x07);
    ("VT_IVec2", 0x08); ("VT_IVec3", 0x09); ("VT_IVec4", 0x0a); ("VT_UVec2", 0x0b); ("VT_UVec3", 0x0c); ("VT_UVec4", 0x0d);
    ("VT_Mat2", 0x0e); ("VT_Mat3", 0x0f); ("VT_Mat4", 0x10); ("VT_Quat", 0x11); ("VT_Uuid", 0x12); ("VT_Hash", 0x13);
    ("VT_Array_Bool", 0x41); ("VT_Array_Int", 0x42); ("VT_Array_UInt", 0x43); ("VT_Array_Float", 0x44);
    ("VT_Array_Vec2", 0x45); ("VT_Array_Vec3", 0x46); ("VT_Array_Vec4", 0x47);
    ("VT_Array_IVec2", 0x48); ("VT_Array_IVec3", 0x49); ("VT_Array_IVec4", 0x4a);
    ("VT_Array_UVec2", 0x4b); ("VT_Array_UVec3", 0x4c); ("VT_Array_UVec4", 0x4d);
    ("VT_Array_Mat2", 0x4e); ("VT_Array_Mat3", 0x4f); ("VT_Array_Mat4", 0x50); ("VT_Array_Quat", 0x51);
    ("VT_Array_Uuid", 0x52); ("VT_Array_Hash", 0x53);
    ("VT_Subsection", 0xd0); ("VT_Array_Subsection", 0xd1); ("VT_String", 0xe0); ("VT_Array_String", 0xe1) ].

(** The templates write_single_value and read_single_item can be instantiated with: bool and string by their explicit specialisations
    (ISD_EntityWriterTemplates.inl:81,90; ISD_EntityReaderTemplates.inl:173,186), the other types by the general template, whose static_assert
    wants a value type from VT_Bool to VT_Hash (:52; :85). The streams do not write or read references
    (ISD_MemoryWriteStream.h:225-272), so there is no instance for them. Simplification: the general template is not instantiated
    with bool or string. The result is the number and how the object is stored. *)
Definition single_instance (vt t : string) : option (N * shape) :=
  match assoc vt value_types, base_type_variant t with
  | Some n, Some d =>
    let ok := match d with
              | TBool => n =? 0x01
              | TString => n =? 0xe0
              | TEntityRef | TPackageRef => false
              | _ => (0x01 <=? n) && (n <=? 0x13)
              end in
    if ok then Some (n, dshape d) else None
  | _, _ => None
  end.
(** The same for write_array and read_array (ISD_EntityWriterTemplates.inl:197-200,254,318; ISD_EntityReaderTemplates.inl:355-358,422,483). *)
Definition array_instance (vt t : string) : option (N * shape) :=
  match assoc vt value_types, base_type_variant t with
  | Some n, Some d =>
    let ok := match d with
              | TBool => n =? 0x41
              | TString => n =? 0xe1
              | TEntityRef | TPackageRef => false
              | _ => (0x41 <=? n) && (n <=? 0x53)
              end in
    if ok then Some (n, dshape d) else None
  | _, _ => None
  end.
(** entity_ref holds a uuid and package_ref a hash and they convert to and from it (CodeGenerator/InlinedCode/ISD_entity_ref.inl:9-31 and
    ISD_package_ref.inl; EntityReader is a friend): the memory
    image is the same. *)
Definition ref_conv (a b : string) : option (val -> val) :=
  if (streqb a "entity_ref" && streqb b "uuid") || (streqb a "uuid" && streqb b "entity_ref")
     || (streqb a "package_ref" && streqb b "hash") || (streqb a "hash" && streqb b "package_ref")
  then Some (fun v => v) else None.
(** The names of the data types (CodeGenerator/Generators/ISD_DataTypes.py:46-134); bool, float and double included. *)
Definition is_type (n : string) : bool := match base_type_variant n with Some _ => true | None => false end.
(** Value-initialised objects (ISD/ISD_optional_value.h:29). *)
Definition new_val (n : string) : val := match base_type_variant n with Some d => val_default (dshape d) | None => VP [] end.

(** The writer: its member is dstream (CodeGenerator/Generators/ISD_EntityWriter.py:22). [raw]: what an uninitialised local variable holds. *)
Definition host_w (raw : string -> val) (key : list byte) : host wstream :=
  Host wstream "Write" "dstream" is_type ref_conv raw new_val
    (fun vt t => match single_instance vt t with Some (n, s) => Some (fun o st => write_single n s key o st) | None => None end)
    (fun vt t => match array_instance vt t with Some (n, s) => Some (fun o ix st => write_array n s key o ix st) | None => None end)
    (fun _ _ => None) (fun _ _ => None).
(** The reader: its member is sstream (CodeGenerator/Generators/ISD_EntityReader.py:22). *)
Definition host_r (e : renv) (raw : string -> val) (key : list byte) : host rstream :=
  Host rstream "Read" "sstream" is_type ref_conv raw new_val
    (fun _ _ => None) (fun _ _ => None)
    (fun vt t => match single_instance vt t with Some (n, s) => Some (fun em d st => read_single e n s key em d st) | None => None end)
    (fun vt t => match array_instance vt t with Some (n, s) => Some (fun em d ix st => read_array e n s key em d ix st) | None => None end).
