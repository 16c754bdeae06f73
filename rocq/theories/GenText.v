(** * GenText: the text the code generator writes for an entity. Model of
    CodeGenerator/Generators/EntityGenerator.py and of CodeGenerator/Entities/__init__.py, line by line: a file is the
    list of its lines, a Python f-string is a concatenation. (What the text means is in CppText.v and CppSem.v; how the
    lines get into a file is in GenFiles.v.) *)
From Coq Require Import Strings.String Strings.Ascii.
From Verif Require Import Base Types.
Local Open Scope string_scope.
Local Open Scope list_scope.

(** Concatenation of strings ([++] is concatenation of lists). *)
Infix "^^" := append (at level 60, right associativity).

(** The names of the data types, in the order of base_types (CodeGenerator/CodeGeneratorHelpers.py:27-67). *)
Definition type_names : list (string * dtype) :=
  [ ("bool", TBool);
    ("i8", TInt I8); ("i16", TInt I16); ("i32", TInt I32); ("i64", TInt I64);
    ("u8", TUInt I8); ("u16", TUInt I16); ("u32", TUInt I32); ("u64", TUInt I64);
    ("float", TFloat F32); ("double", TFloat F64);
    ("fvec2", TVec D2 F32); ("dvec2", TVec D2 F64); ("fvec3", TVec D3 F32); ("dvec3", TVec D3 F64);
    ("fvec4", TVec D4 F32); ("dvec4", TVec D4 F64);
    ("i8vec2", TIVec D2 I8); ("i16vec2", TIVec D2 I16); ("i32vec2", TIVec D2 I32); ("i64vec2", TIVec D2 I64);
    ("i8vec3", TIVec D3 I8); ("i16vec3", TIVec D3 I16); ("i32vec3", TIVec D3 I32); ("i64vec3", TIVec D3 I64);
    ("i8vec4", TIVec D4 I8); ("i16vec4", TIVec D4 I16); ("i32vec4", TIVec D4 I32); ("i64vec4", TIVec D4 I64);
    ("u8vec2", TUVec D2 I8); ("u16vec2", TUVec D2 I16); ("u32vec2", TUVec D2 I32); ("u64vec2", TUVec D2 I64);
    ("u8vec3", TUVec D3 I8); ("u16vec3", TUVec D3 I16); ("u32vec3", TUVec D3 I32); ("u64vec3", TUVec D3 I64);
    ("u8vec4", TUVec D4 I8); ("u16vec4", TUVec D4 I16); ("u32vec4", TUVec D4 I32); ("u64vec4", TUVec D4 I64);
    ("fmat2", TMat D2 F32); ("dmat2", TMat D2 F64); ("fmat3", TMat D3 F32); ("dmat3", TMat D3 F64);
    ("fmat4", TMat D4 F32); ("dmat4", TMat D4 F64);
    ("fquat", TQuat F32); ("dquat", TQuat F64);
    ("uuid", TUuid); ("entity_ref", TEntityRef); ("hash", THash); ("package_ref", TPackageRef);
    ("string", TString) ].

(** get_base_type_variant (CodeGenerator/CodeGeneratorHelpers.py:77-83); None for (None,None). *)
Fixpoint assoc {A} (n : string) (l : list (string * A)) : option A :=
  match l with [] => None | (m, t) :: r => if String.eqb n m then Some t else assoc n r end.
Definition base_type_variant (n : string) : option dtype := assoc n type_names.

(** Variable (Entities/__init__.py:46-53). *)
Record variable := Var { v_type : string; v_name : string; v_optional : bool; v_vector : bool; v_indexed : bool }.
(** The constructor fails for indexed without vector (lines 53-54; [sys] is not imported there, so it fails with a
    NameError and not with the message; either way the generator stops). *)
Definition variable_ok (v : variable) : bool := negb (v_indexed v && negb (v_vector v)).
(** TypeString, lines 57-72. *)
Definition type_string (v : variable) : string :=
  if v_optional v then
    if v_vector v then
      if v_indexed v then "optional_idx_vector<" ^^ v_type v ^^ ">"
      else "optional_vector<" ^^ v_type v ^^ ">"
    else "optional_value<" ^^ v_type v ^^ ">"
  else
    if v_vector v then
      if v_indexed v then "idx_vector<" ^^ v_type v ^^ ">"
      else "std::vector<" ^^ v_type v ^^ ">"
    else v_type v.
(** IsSimpleValue, IsBaseType, IsSimpleBaseType, lines 74-84. *)
Definition is_simple (v : variable) : bool := negb (v_optional v) && negb (v_vector v) && negb (v_indexed v).
Definition is_base (v : variable) : bool := match base_type_variant (v_type v) with Some _ => true | None => false end.
Definition is_simple_base (v : variable) : bool := is_base v && is_simple v.

(** Dependency (lines 16-19) and Template (lines 21-44) and Entity (lines 8-14). *)
Record dependency := Dep { d_name : string; d_include : bool }.
Record template := Tem { t_name : string; t_template : string; t_types : list string; t_flags : list string }.
Record entity := Ent { e_name : string; e_variables : list variable; e_deps : list dependency; e_templates : list template }.

(** The loops of Template.__init__ (lines 29-42): types separated by commas, then the flags separated by bars. *)
Fixpoint decl_types (has_value : bool) (l : list string) : string :=
  match l with [] => "" | ty :: r => (if has_value then "," else "") ^^ ty ^^ decl_types true r end.
Fixpoint decl_flags (tem : string) (has_flag : bool) (l : list string) : string :=
  match l with [] => "" | fl :: r => (if has_flag then "|" else "") ^^ tem ^^ "Flags::" ^^ fl ^^ decl_flags tem true r end.
Definition declaration (t : template) : string :=
  "            using " ^^ t_name t ^^ " = " ^^ t_template t ^^ "<" ^^ decl_types false (t_types t)
  ^^ (match t_flags t with
      | [] => ""
      | _ => (match t_types t with [] => "" | _ => "," end) ^^ decl_flags (t_template t) false (t_flags t)
      end) ^^ ">;".

(** A quotation mark. *)
Definition dq : string := String """" "".

(** ** The header: CreateEntityHeader (EntityGenerator.py:7-123) *)
Definition header_member (v : variable) : list string :=
  (* lines 58-62 *)
  if is_simple_base v then ["            " ^^ type_string v ^^ " v_" ^^ v_name v ^^ " = {};"]
  else ["            " ^^ type_string v ^^ " v_" ^^ v_name v ^^ ";"].
Definition header_accessor (v : variable) : list string :=
  (* lines 68-72 *)
  ["            // accessor for referencing variable " ^^ v_name v;
   "            const " ^^ type_string v ^^ " & " ^^ v_name v ^^ "() const { return this->v_" ^^ v_name v ^^ "; }";
   "            " ^^ type_string v ^^ " & " ^^ v_name v ^^ "() { return this->v_" ^^ v_name v ^^ "; }";
   ""].
Definition header_lines (e : entity) : list string :=
  let n := e_name e in
  (* lines 8-14 *)
  [ "// ISD Copyright (c) 2021 Ulrik Lindahl";
    "// Licensed under the MIT license https://github.com/Cooolrik/ISD/blob/main/LICENSE";
    ""; "#pragma once"; ""; "#include " ^^ dq ^^ "ISD_Types.h" ^^ dq ]
  (* lines 16-19 *)
  ++ flat_map (fun d => if d_include d then ["#include " ^^ dq ^^ "ISD_" ^^ d_name d ^^ ".h" ^^ dq] else []) (e_deps e)
  ++ [ ""; "namespace ISD"; "    {" ]
  (* lines 25-28 *)
  ++ flat_map (fun d => if d_include d then [] else ["    class " ^^ d_name d ^^ ";"]) (e_deps e)
  ++ [ "    class " ^^ n; "        {"; "        public:" ]
  (* lines 34-38 *)
  ++ (match e_templates e with [] => [] | _ => (map declaration (e_templates e) ++ [""]) end)
  (* lines 40-56 *)
  ++ [ "            class MF;"; "            friend MF;"; "";
       "            " ^^ n ^^ "() = default;";
       "            " ^^ n ^^ "( const " ^^ n ^^ " &rval );";
       "            " ^^ n ^^ " &operator=( const " ^^ n ^^ " &rval );";
       "            " ^^ n ^^ "( " ^^ n ^^ " &&rval ) = default;";
       "            " ^^ n ^^ " &operator=( " ^^ n ^^ " &&rval ) = default;";
       "            ~" ^^ n ^^ "() = default;";
       "";
       "            // value compare operators";
       "            bool operator==( const " ^^ n ^^ " &rval ) const;";
       "            bool operator!=( const " ^^ n ^^ " &rval ) const;";
       "";
       "        protected:" ]
  ++ flat_map header_member (e_variables e)
  (* lines 64-65 *)
  ++ [ ""; "        public:" ]
  ++ flat_map header_accessor (e_variables e)
  (* lines 74-121 *)
  ++ [ "        };";
       "";
       "    class EntityWriter;"; "    class EntityReader;"; "    class EntityValidator;";
       "";
       "    class " ^^ n ^^ "::MF"; "        {"; "        public:";
       "            static void Clear( " ^^ n ^^ " &obj );";
       "            static void DeepCopy( " ^^ n ^^ " &dest, const " ^^ n ^^ " *source );";
       "            static bool Equals( const " ^^ n ^^ " *lvar, const " ^^ n ^^ " *rvar );";
       "";
       "            static bool Write( const " ^^ n ^^ " &obj, EntityWriter &writer );";
       "            static bool Read( " ^^ n ^^ " &obj, EntityReader &reader );";
       "";
       "            static bool Validate( const " ^^ n ^^ " &obj, EntityValidator &validator );";
       "        };"; "";
       "    inline " ^^ n ^^ "::" ^^ n ^^ "( const " ^^ n ^^ " &rval )"; "        {";
       "        MF::DeepCopy( *this , &rval );"; "        }"; "";
       "    inline " ^^ n ^^ " &" ^^ n ^^ "::operator=( const " ^^ n ^^ " &rval )"; "        {";
       "        MF::DeepCopy( *this , &rval );"; "        return *this;"; "        }"; "";
       "    inline bool " ^^ n ^^ "::operator==( const " ^^ n ^^ " &rval ) const"; "        {";
       "        return MF::Equals( this, &rval );"; "        }"; "";
       "    inline bool " ^^ n ^^ "::operator!=( const " ^^ n ^^ " &rval ) const"; "        {";
       "        return !(MF::Equals( this, &rval ));"; "        }"; "";
       "    };" ].

(** ** The source file *)
(** ImplementClearCall, lines 125-142. *)
Definition clear_call (v : variable) : list string :=
  [ ""; "        // clear variable " ^^ dq ^^ v_name v ^^ dq ]
  ++ (if is_base v then
        if v_optional v then ["        obj.v_" ^^ v_name v ^^ ".reset();"]
        else ["        obj.v_" ^^ v_name v ^^ " = {};"]
      else ["        " ^^ v_type v ^^ "::MF::Clear( obj.v_" ^^ v_name v ^^ " );"]).
(** ImplementDeepCopyCall, lines 144-171. *)
Definition copy_call (v : variable) : list string :=
  [ ""; "        // copy variable " ^^ dq ^^ v_name v ^^ dq ]
  ++ (if is_base v then ["        dest.v_" ^^ v_name v ^^ " = source->v_" ^^ v_name v ^^ ";"]
      else if v_optional v then
        [ "        if( source->v_" ^^ v_name v ^^ ".has_value() )";
          "            {";
          "            dest.v_" ^^ v_name v ^^ ".set();";
          "            " ^^ v_type v ^^ "::MF::DeepCopy( dest.v_" ^^ v_name v ^^ ".value() , &(source->v_" ^^ v_name v ^^ ".value()) );";
          "            }";
          "        else";
          "            {";
          "            dest.v_" ^^ v_name v ^^ ".reset();";
          "            }" ]
      else ["        " ^^ v_type v ^^ "::MF::DeepCopy( dest.v_" ^^ v_name v ^^ " , &(source->v_" ^^ v_name v ^^ ") );"]).
(** ImplementEqualsCall, lines 173-197. *)
Definition equals_call (e : entity) (v : variable) : list string :=
  ([ "        // check variable " ^^ dq ^^ v_name v ^^ dq ]
  ++ (if is_base v then
        [ "        if( lvar->v_" ^^ v_name v ^^ " != rvar->v_" ^^ v_name v ^^ " )";
          "            return false;" ]
      else if v_optional v then
        [ "        if( !" ^^ e_name e ^^ "::" ^^ v_type v ^^ "::MF::Equals(";
          "            lvar->v_" ^^ v_name v ^^ ".has_value() ? &lvar->v_" ^^ v_name v ^^ ".value() : nullptr,  ";
          "            rvar->v_" ^^ v_name v ^^ ".has_value() ? &rvar->v_" ^^ v_name v ^^ ".value() : nullptr";
          "            ) )";
          "            return false;" ]
      else
        [ "        if( !" ^^ e_name e ^^ "::" ^^ v_type v ^^ "::MF::Equals( &lvar->v_" ^^ v_name v ^^ " , &rvar->v_" ^^ v_name v ^^ " ) )";
          "            return false;" ])
  ++ [ "" ]).
(** ImplementWriterCall, lines 199-229. *)
Definition writer_call (e : entity) (v : variable) : list string :=
  if is_base v then
    [ "        // write variable " ^^ dq ^^ v_name v ^^ dq;
      "        success = writer.Write<" ^^ type_string v ^^ ">( ISDKeyMacro(" ^^ dq ^^ v_name v ^^ dq ^^ ") , obj.v_" ^^ v_name v ^^ " );";
      "        if( !success )";
      "            return false;";
      "" ]
  else
    ([ "        // write section " ^^ dq ^^ v_name v ^^ dq;
      "        success = (section_writer = writer.BeginWriteSection( ISDKeyMacro(" ^^ dq ^^ v_name v ^^ dq ^^ ") ));";
      "        if( !success )";
      "            return false;" ]
    ++ (if v_optional v then
          [ "        if( obj.v_" ^^ v_name v ^^ ".has_value() )";
            "            {";
            "            if( !" ^^ e_name e ^^ "::" ^^ v_type v ^^ "::MF::Write( obj.v_" ^^ v_name v ^^ ".value(), *section_writer ) )";
            "                return false;";
            "            }" ]
        else
          [ "        if( !" ^^ e_name e ^^ "::" ^^ v_type v ^^ "::MF::Write( obj.v_" ^^ v_name v ^^ ", *section_writer ) )";
            "            return false;" ])
    ++ [ "        writer.EndWriteSection( section_writer );";
         "        section_writer = nullptr;";
         "" ]).
(** ImplementReaderCall, lines 231-269. *)
Definition reader_call (e : entity) (v : variable) : list string :=
  let value_can_be_null := if v_optional v then "true" else "false" in
  if is_base v then
    [ "        // read variable " ^^ dq ^^ v_name v ^^ dq;
      "        success = reader.Read<" ^^ type_string v ^^ ">( ISDKeyMacro(" ^^ dq ^^ v_name v ^^ dq ^^ ") , obj.v_" ^^ v_name v ^^ " );";
      "        if( !success )";
      "            return false;";
      "" ]
  else
    ([ "        // read section " ^^ dq ^^ v_name v ^^ dq;
      "        std::tie(section_reader,success) = reader.BeginReadSection( ISDKeyMacro(" ^^ dq ^^ v_name v ^^ dq ^^ ") , " ^^ value_can_be_null ^^ " );";
      "        if( !success )";
      "            return false;";
      "        if( section_reader )";
      "            {" ]
    ++ (if v_optional v then
          [ "            obj.v_" ^^ v_name v ^^ ".set();";
            "            if( !" ^^ e_name e ^^ "::" ^^ v_type v ^^ "::MF::Read( obj.v_" ^^ v_name v ^^ ".value(), *section_reader ) )" ]
        else
          [ "            if( !" ^^ e_name e ^^ "::" ^^ v_type v ^^ "::MF::Read( obj.v_" ^^ v_name v ^^ ", *section_reader ) )" ])
    ++ [ "                return false;";
         "            reader.EndReadSection( section_reader );";
         "            section_reader = nullptr;";
         "            }" ]
    ++ (if v_optional v then
          [ "        else";
            "            obj.v_" ^^ v_name v ^^ ".reset();" ]
        else [])
    ++ [ "" ]).
(** ImplementValidatorCall, lines 271-291. *)
Definition validator_call (v : variable) : list string :=
  if is_base v then [] else
    ([ "        // validate variable " ^^ dq ^^ v_name v ^^ dq ]
    ++ (if v_optional v then
          [ "        if( obj.v_" ^^ v_name v ^^ ".has_value() )";
            "            {";
            "            success = " ^^ v_type v ^^ "::MF::Validate( obj.v_" ^^ v_name v ^^ ".value() , validator );";
            "            if( !success )";
            "                return false;";
            "            }" ]
        else
          [ "        success = " ^^ v_type v ^^ "::MF::Validate( obj.v_" ^^ v_name v ^^ " , validator );";
            "        if( !success )";
            "            return false;" ])
    ++ [ "" ]).

(** CreateEntitySource, lines 294-403, function by function. *)
(** lines 317-323 *)
Definition vars_have_entity (e : entity) : bool := existsb (fun v => negb (is_base v)) (e_variables e).
(** lines 296-315 *)
Definition source_head (e : entity) : list string :=
  [ "// ISD Copyright (c) 2021 Ulrik Lindahl";
    "// Licensed under the MIT license https://github.com/Cooolrik/ISD/blob/main/LICENSE";
    ""; "#include <glm/glm.hpp>"; "";
    "#include " ^^ dq ^^ "ISD_Types.h" ^^ dq;
    "#include " ^^ dq ^^ "ISD_EntityWriter.h" ^^ dq;
    "#include " ^^ dq ^^ "ISD_EntityReader.h" ^^ dq;
    "#include " ^^ dq ^^ "ISD_EntityValidator.h" ^^ dq;
    "";
    "#include " ^^ dq ^^ "ISD_" ^^ e_name e ^^ ".h" ^^ dq ]
  ++ flat_map (fun d => if d_include d then [] else ["#include " ^^ dq ^^ "ISD_" ^^ d_name d ^^ ".h" ^^ dq]) (e_deps e)
  ++ [ ""; "namespace ISD"; "    {" ].
(** lines 325-332 *)
Definition source_clear (e : entity) : list string :=
  ([ "    void " ^^ e_name e ^^ "::MF::Clear( " ^^ e_name e ^^ " &obj )";
    "        {";
    "        // direct clear calls on variables and Entities" ]
  ++ flat_map clear_call (e_variables e) ++ [ "        }"; "" ]).
(** lines 334-346 *)
Definition source_copy (e : entity) : list string :=
  ([ "    void " ^^ e_name e ^^ "::MF::DeepCopy( " ^^ e_name e ^^ " &dest, const " ^^ e_name e ^^ " *source )";
    "        {";
    "        // just call Clear if source is nullptr";
    "        if( !source )";
    "            {";
    "            MF::Clear( dest );";
    "            return;";
    "            }" ]
  ++ flat_map copy_call (e_variables e) ++ [ "        }"; "" ]).
(** lines 348-363 *)
Definition source_equals (e : entity) : list string :=
  ([ "    bool " ^^ e_name e ^^ "::MF::Equals( const " ^^ e_name e ^^ " *lvar, const " ^^ e_name e ^^ " *rvar )";
    "        {";
    "        // early out if pointers are equal";
    "        if( lvar == rvar )";
    "            return true;";
    "";
    "        // early out if one of the pointers is nullptr";
    "        if( !lvar || !rvar )";
    "            return false;";
    "" ]
  ++ flat_map (equals_call e) (e_variables e) ++ [ "        return true;"; "        }"; "" ]).
(** lines 365-376 *)
Definition source_write (e : entity) : list string :=
  ([ "    bool " ^^ e_name e ^^ "::MF::Write( const " ^^ e_name e ^^ " &obj, EntityWriter &writer )";
    "        {";
    "        bool success = true;" ]
  ++ (if vars_have_entity e then [ "        EntityWriter *section_writer = nullptr;" ] else [])
  ++ [ "" ] ++ flat_map (writer_call e) (e_variables e) ++ [ "        return true;"; "        }"; "" ]).
(** lines 378-389 *)
Definition source_read (e : entity) : list string :=
  ([ "    bool " ^^ e_name e ^^ "::MF::Read( " ^^ e_name e ^^ " &obj, EntityReader &reader )";
    "        {";
    "        bool success = true;" ]
  ++ (if vars_have_entity e then [ "        EntityReader *section_reader = nullptr;" ] else [])
  ++ [ "" ] ++ flat_map (reader_call e) (e_variables e) ++ [ "        return true;"; "        }"; "" ]).
(** lines 391-400 *)
Definition source_validate (e : entity) : list string :=
  ([ "    bool " ^^ e_name e ^^ "::MF::Validate( const " ^^ e_name e ^^ " &obj, EntityValidator &validator )";
    "        {";
    "        bool success = true;";
    "" ]
  ++ flat_map validator_call (e_variables e) ++ [ "        return true;"; "        }"; "" ]).
(** lines 294-403 *)
Definition source_lines (e : entity) : list string :=
  (source_head e ++ source_clear e ++ source_copy e ++ source_equals e ++ source_write e ++ source_read e
   ++ source_validate e ++ [ "    };" ]).
