(** * GenDyn: the text of the generated files ISD_DynamicTypes.cpp, ISD_CombinedTypes.h and ISD_CombinedTypes.cpp, and of the enum
    data_type_index in ISD_DataTypes.h. Model of CodeGenerator/Generators/ISD_DynamicTypes.py, ISD_CombinedTypes.py,
    ISD_DataTypes.py:135-146 and of function_for_all_basetype_combos in CodeGenerator/CodeGeneratorHelpers.py:111-135, line by line: a
    file is the list of its lines, a Python f-string is a concatenation (the numbers 577, 109 and 991 of
    ISD_DynamicTypes.py:23-25 are written out). The list of data types is a parameter. What the text means is in CppDyn.v; the rest of
    ISD_DataTypes.h and the generated tests are not modelled. *)
From Coq Require Import Strings.String Strings.Ascii Strings.HexString.
From Verif Require Import Base Bytes Types GenTypes GenText GenRW.
Local Open Scope string_scope.
Local Open Scope list_scope.

(** The containers: container_types (CodeGeneratorHelpers.py:69-74), with their ids; the names are their implementing types. *)
Definition ct_name (c : ctype) : string :=
  match c with
  | CtNone => "none" | CtOpt => "optional_value" | CtVec => "vector" | CtOptVec => "optional_vector" | CtIdx => "idx_vector"
  | CtOptIdx => "optional_idx_vector"
  end.
Definition containers : list (N * ctype) :=
  [ (0x00, CtNone); (0x01, CtOpt); (0x10, CtVec); (0x11, CtOptVec); (0x20, CtIdx); (0x21, CtOptIdx) ]%N.
Definition is_template (c : ctype) : bool := match c with CtNone => false | _ => true end.
(** base_type_container_combo (CodeGeneratorHelpers.py:117-120) *)
Definition combo (T : string) (c : ctype) : string := if is_template c then ct_name c ^^ "<" ^^ T ^^ ">" else T.
(** The loops of function_for_all_basetype_combos (CodeGeneratorHelpers.py:112-134). *)
Definition for_all_combos (l : list base_type) (f : string -> ctype -> list string) : list string :=
  flat_map (fun b => flat_map (fun v => flat_map (fun k => f (vr_impl v) (snd k)) containers) (bt_variants b)) l.
(** The names of the variants, base type by base type. *)
Definition type_lists (l : list base_type) : list (list string) := map (fun b => map vr_impl (bt_variants b)) l.

(** ISD_DynamicTypes.py:40-86: the beginning of the file, the pair of ids and the abstract class. *)
Definition dyn_head : list string :=
  [ "// ISD Copyright (c) 2021 Ulrik Lindahl";
    "// Licensed under the MIT license https://github.com/Cooolrik/ISD/blob/main/LICENSE";
    "";
    "#include ""ISD_Types.h""";
    "#include ""ISD_EntityWriter.h""";
    "#include ""ISD_EntityReader.h""";
    "#include ""ISD_DynamicTypes.h""";
    "#include ""ISD_CombinedTypes.h""";
    "";
    "#include <glm/gtc/type_ptr.hpp>";
    "";
    "namespace ISD";
    "    {";
    "namespace dynamic_types";
    "    {";
    "    struct type_combo";
    "        {";
    "        data_type_index data_type = {};";
    "        container_type_index container_type = {};";
    "        bool operator==(const type_combo& other) const { return other.data_type == this->data_type && other.container_type == this->container_type; }";
    "        };";
    "";
    "    // dynamic allocation functors for items";
    "    class _dynamicTypeClass";
    "        {";
    "        public:";
    "            virtual type_combo Type() const = 0;";
    "            virtual void *New() const = 0;";
    "            virtual void Delete( void *data ) const = 0;";
    "            virtual void Clear( void *data ) const = 0;";
    "            virtual bool Write( const char *key, const u8 key_length , EntityWriter &writer , const void *data ) const = 0;";
    "            virtual bool Read( const char *key, const u8 key_length , EntityReader &reader , void *data ) const = 0;";
    "            virtual void Copy( void *dest , const void *src ) const = 0;";
    "            virtual bool Equals( const void *dataA , const void *dataB ) const = 0;";
    "        };";
    "" ].

(** ISD_DynamicTypes.py:88-101: the class and the object of one combination. *)
Definition dyn_class (T : string) (c : ctype) : list string :=
  [ "    // " ^^ combo T c;
    "    static const class _dt_" ^^ T ^^ "_ct_" ^^ ct_name c ^^ "_DynamicTypeClass : public _dynamicTypeClass";
    "        {";
    "        public:";
    "            virtual type_combo Type() const { return { combined_type_information<" ^^ combo T c ^^ ">::type_index , combined_type_information<" ^^ combo T c ^^ ">::container_index }; }";
    "            virtual void *New() const { return new " ^^ combo T c ^^ "(); }";
    "            virtual void Delete( void *data ) const { delete ((" ^^ combo T c ^^ "*)(data)); }";
    "            virtual void Clear( void *data ) const { clear_combined_type(*((" ^^ combo T c ^^ "*)data)); }";
    "            virtual bool Write( const char *key, const u8 key_length , EntityWriter &writer , const void *data ) const { return writer.Write<" ^^ combo T c ^^ ">( key , key_length , *((const " ^^ combo T c ^^ "*)data) ); }";
    "            virtual bool Read( const char *key, const u8 key_length , EntityReader &reader , void *data ) const { return reader.Read<" ^^ combo T c ^^ ">( key , key_length , *((" ^^ combo T c ^^ "*)data) ); }";
    "            virtual void Copy( void *dest , const void *src ) const { *((" ^^ combo T c ^^ "*)dest) = *((const " ^^ combo T c ^^ "*)src); }";
    "            virtual bool Equals( const void *dataA , const void *dataB ) const { return *((const " ^^ combo T c ^^ "*)dataA) == *((const " ^^ combo T c ^^ "*)dataB); }";
    "        } _dt_" ^^ T ^^ "_ct_" ^^ ct_name c ^^ "_DynamicTypeObject;";
    "" ].

(** ISD_DynamicTypes.py:109-111 *)
Definition dyn_table_head : list string :=
  [ "    // Hash table with the type allocator objects";
    "    static const _dynamicTypeClass *_dynamicTypeClassHashTable[577] = ";
    "        {" ].

(** ISD_DynamicTypes.py:117-135: the end of the table and the lookup. *)
Definition dyn_find : list string :=
  [ "        };";
    "";
    "    // hash table lookup of typeCombo";
    "    static const _dynamicTypeClass *_findTypeClass( type_combo typeCombo )";
    "        {";
    "        size_t hashValue = ((((size_t)typeCombo.data_type) * 109) + (((size_t)typeCombo.container_type) * 991)) % 577;";
    "        while( _dynamicTypeClassHashTable[hashValue] != nullptr )";
    "            {";
    "            type_combo type = _dynamicTypeClassHashTable[hashValue]->Type();";
    "            if( type == typeCombo )";
    "                return _dynamicTypeClassHashTable[hashValue];";
    "            ++hashValue;";
    "            if(hashValue >= 577)";
    "                hashValue = 0;";
    "            }";
    "        ISDErrorLog << ""Invalid typeCombo parameter { "" << (int)typeCombo.data_type << "" , "" << (int)typeCombo.container_type << "" } "" << ISDErrorLogEnd;";
    "        return nullptr;";
    "        }";
    "" ].

(** ISD_DynamicTypes.py:136-229: the functions and the end of the file. *)
Definition dyn_functions : list string :=
  [ "    std::tuple<void*, bool> new_type( data_type_index dataType , container_type_index containerType )";
    "        {";
    "        void* data = {};";
    "        const _dynamicTypeClass *ta = _findTypeClass( { dataType, containerType } );";
    "        if( ta )";
    "            data = ta->New();";
    "        return std::tuple<void*, bool>(data, data != nullptr);";
    "        }";
    "";
    "    bool delete_type( data_type_index dataType , container_type_index containerType , void *data )";
    "        {";
    "        if( !data )";
    "            {";
    "            ISDErrorLog << ""Invalid parameter, data must be a pointer to existing type"" << ISDErrorLogEnd;";
    "            return false;";
    "            }";
    "        const _dynamicTypeClass *ta = _findTypeClass( { dataType, containerType } );";
    "        if( !ta )";
    "            return false;";
    "        ta->Delete( data );";
    "        return true;";
    "        }";
    "";
    "    bool clear( data_type_index dataType , container_type_index containerType , void *data )";
    "        {";
    "        if( !data )";
    "            {";
    "            ISDErrorLog << ""Invalid parameter, data must be a pointer to existing type"" << ISDErrorLogEnd;";
    "            return false;";
    "            }";
    "        const _dynamicTypeClass *ta = _findTypeClass( { dataType, containerType } );";
    "        if( !ta )";
    "            return false;";
    "        ta->Clear( data );";
    "        return true;";
    "        }";
    "";
    "    bool write( data_type_index dataType , container_type_index containerType , const char *key, const u8 key_length , EntityWriter &writer , const void *data )";
    "        {";
    "        if( !data )";
    "            {";
    "            ISDErrorLog << ""Invalid parameter, data must be a pointer to existing type"" << ISDErrorLogEnd;";
    "            return false;";
    "            }";
    "        const _dynamicTypeClass *ta = _findTypeClass( { dataType, containerType } );";
    "        if( !ta )";
    "            return false;";
    "        return ta->Write( key , key_length , writer , data );";
    "        }";
    "";
    "    bool read( data_type_index dataType , container_type_index containerType , const char *key, const u8 key_length , EntityReader &reader , void *data )";
    "        {";
    "        if( !data )";
    "            {";
    "            ISDErrorLog << ""Invalid parameter, data must be a pointer to existing type"" << ISDErrorLogEnd;";
    "            return false;";
    "            }";
    "        const _dynamicTypeClass *ta = _findTypeClass( { dataType, containerType } );";
    "        if( !ta )";
    "            return false;";
    "        return ta->Read( key , key_length , reader , data );";
    "        }";
    "";
    "    bool copy( data_type_index dataType , container_type_index containerType , void *dest , const void *src )";
    "        {";
    "        if( !dest || !src )";
    "            {";
    "            ISDErrorLog << ""Invalid parameter, dest and src must be pointers to existing types"" << ISDErrorLogEnd;";
    "            return false;";
    "            }";
    "        const _dynamicTypeClass *ta = _findTypeClass( { dataType, containerType } );";
    "        if( !ta )";
    "            return false;";
    "        ta->Copy( dest , src );";
    "        return true;";
    "        }";
    "";
    "    bool equals( data_type_index dataType , container_type_index containerType , const void *dataA , const void *dataB )";
    "        {";
    "        if( !dataA || !dataB )";
    "            {";
    "            ISDErrorLog << ""Invalid parameter, dataA and dataB must be pointers to existing types"" << ISDErrorLogEnd;";
    "            return false;";
    "            }";
    "        const _dynamicTypeClass *ta = _findTypeClass( { dataType, containerType } );";
    "        if( !ta )";
    "            return false;";
    "        return ta->Equals( dataA , dataB );";
    "        }";
    "";
    "    };";
    "    };" ].

(** ISD_CombinedTypes.py:7-27 *)
Definition comb_head : list string :=
  [ "// ISD Copyright (c) 2021,2022 Ulrik Lindahl";
    "// Licensed under the MIT license https://github.com/Cooolrik/ISD/blob/main/LICENSE";
    "";
    "#pragma once";
    "";
    "#include ""ISD_Types.h""";
    "";
    "// Lists information of combined types: a combination of data type and container, ";
    "// even when the container is ""none"" and the data type is used directly";
    "";
    "namespace ISD";
    "    {";
    "";
    "    // type_information stores information on the combined types in ISD";
    "    template <class _Ty> struct combined_type_information;";
    "";
    "    // clears the combined type";
    "    template <class _Ty> void clear_combined_type( _Ty& type );";
    "" ].

(** ISD_CombinedTypes.py:31-38: what is known about one combination. *)
Definition comb_info (T : string) (c : ctype) : list string :=
  [ "    // " ^^ combo T c;
    "    template<> struct combined_type_information<" ^^ combo T c ^^ ">";
    "        {";
    "        using data_type = " ^^ T ^^ ";";
    "        static constexpr data_type_index type_index = data_type_index::dt_" ^^ T ^^ "; // the data type index of " ^^ combo T c ^^ " ( dt_" ^^ T ^^ " )";
    "        static constexpr container_type_index container_index = container_type_index::ct_" ^^ ct_name c ^^ "; // the container type index of " ^^ combo T c ^^ " ( dt_" ^^ ct_name c ^^ " )";
    "        };";
    "" ].

(** ISD_CombinedTypes.py:48-58 *)
Definition comb_src_head : list string :=
  [ "// ISD Copyright (c) 2021,2022 Ulrik Lindahl";
    "// Licensed under the MIT license https://github.com/Cooolrik/ISD/blob/main/LICENSE";
    "";
    "#include ""ISD_Types.h""";
    "#include ""ISD_CombinedTypes.h""";
    "";
    "#include <glm/gtc/type_ptr.hpp>";
    "";
    "namespace ISD";
    "    {" ].

(** ISD_CombinedTypes.py:61-66 *)
Definition comb_clear (T : string) (c : ctype) : list string :=
  match c with
  | CtNone => [ "    template <> void clear_combined_type<" ^^ combo T c ^^ ">( " ^^ combo T c ^^ " &type ) { type = data_type_information<" ^^ combo T c ^^ ">::zero; }" ]
  | CtVec | CtIdx => [ "    template <> void clear_combined_type<" ^^ combo T c ^^ ">( " ^^ combo T c ^^ " &type ) { type.clear(); }" ]
  | _ => [ "    template <> void clear_combined_type<" ^^ combo T c ^^ ">( " ^^ combo T c ^^ " &type ) { type.reset(); }" ]
  end.

(** ISD_CombinedTypes.py:6-43 *)
Definition comb_header (l : list base_type) : list string := comb_head ++ for_all_combos l comb_info ++ [ "    };" ].
(** ISD_CombinedTypes.py:45-73 *)
Definition comb_source (l : list base_type) : list string := comb_src_head ++ for_all_combos l comb_clear ++ [ "    };" ].

(** ISD_DynamicTypes.py:112-116: a slot of the table; the text of an object is made at line 35. *)
Definition table_line (x : option (entry string ctype)) : string :=
  match x with
  | None => "        nullptr,"
  | Some e => "        &_dt_" ^^ en_variant e ^^ "_ct_" ^^ ct_name (en_container e) ^^ "_DynamicTypeObject,"
  end.
(** AllocatorHashTable (ISD_DynamicTypes.py:6-35, 105), with a step budget. *)
Definition dyn_table (n : nat) (l : list base_type) : option (gtable string ctype) := gen_table 577 109 991 n (type_lists l) containers.
(** ISD_DynamicTypes_cpp (ISD_DynamicTypes.py:38-230), with a step budget for the table; None: the budget was used up. *)
Definition dyn_source (n : nat) (l : list base_type) : option (list string) :=
  match dyn_table n l with
  | Some tab => Some (dyn_head ++ for_all_combos l dyn_class ++ dyn_table_head ++ map table_line tab ++ dyn_find ++ dyn_functions)
  | None => None
  end.

(** The enum of all data types (ISD_DataTypes.py:135-146); Python's hex is HexString.of_N of the standard library. *)
Definition enum_line (x : N * string) : string := "		dt_" ^^ snd x ^^ " = " ^^ HexString.of_N (fst x) ^^ ",".
Definition enum_text (l : list base_type) : list string :=
  [ "	// all value type indices"; "	enum class data_type_index"; "		{" ]
  ++ map enum_line (type_enum (type_lists l)) ++ [ "		};"; "" ].
(** The enum of all container types (ISD/ISD_Types.h:146-155). *)
Definition container_enum_text : list string :=
  [ "	// all container type indices";
    "	enum class container_type_index";
    "		{";
    "		ct_none = 0x0,";
    "		ct_optional_value = 0x1,";
    "		ct_vector = 0x10,";
    "		ct_optional_vector = 0x11,";
    "		ct_idx_vector = 0x20,";
    "		ct_optional_idx_vector = 0x21,";
    "		};" ].
