(** * GenRW: the text of the generated functions EntityWriter::Write<T> and EntityReader::Read<T>. Model of
    CodeGenerator/Generators/ISD_EntityWriter.py, CodeGenerator/Generators/ISD_EntityReader.py and of the list of data types in
    CodeGenerator/CodeGeneratorHelpers.py, line by line: a file is the list of its lines, a Python f-string is a
    concatenation. The list of data types is a parameter; [isd_types] is the list of the project. (What the text means is in
    CppFun.v; how the lines get into a file is in GenFiles.v.) *)
From Coq Require Import Strings.String Strings.Ascii.
From Verif Require Import Base Types GenText.
Local Open Scope string_scope.
Local Open Scope list_scope.

(** BaseTypeVariant and BaseType (CodeGeneratorHelpers.py:9-19). *)
Record variant := Vr { vr_impl : string; vr_item : string; vr_count : N; vr_override : bool }.
Record base_type := BT { bt_name : string; bt_variants : list variant }.

(** base_types (CodeGeneratorHelpers.py:27-67). *)
Definition isd_types : list base_type :=
  [ BT "Bool" [Vr "bool" "bool" 1 false];
    BT "Int" [Vr "i8" "i8" 1 false; Vr "i16" "i16" 1 false; Vr "i32" "i32" 1 false; Vr "i64" "i64" 1 false];
    BT "UInt" [Vr "u8" "u8" 1 false; Vr "u16" "u16" 1 false; Vr "u32" "u32" 1 false; Vr "u64" "u64" 1 false];
    BT "Float" [Vr "float" "float" 1 false; Vr "double" "double" 1 false];
    BT "Vec2" [Vr "fvec2" "float" 2 false; Vr "dvec2" "double" 2 false];
    BT "Vec3" [Vr "fvec3" "float" 3 false; Vr "dvec3" "double" 3 false];
    BT "Vec4" [Vr "fvec4" "float" 4 false; Vr "dvec4" "double" 4 false];
    BT "IVec2" [Vr "i8vec2" "i8" 2 false; Vr "i16vec2" "i16" 2 false; Vr "i32vec2" "i32" 2 false; Vr "i64vec2" "i64" 2 false];
    BT "IVec3" [Vr "i8vec3" "i8" 3 false; Vr "i16vec3" "i16" 3 false; Vr "i32vec3" "i32" 3 false; Vr "i64vec3" "i64" 3 false];
    BT "IVec4" [Vr "i8vec4" "i8" 4 false; Vr "i16vec4" "i16" 4 false; Vr "i32vec4" "i32" 4 false; Vr "i64vec4" "i64" 4 false];
    BT "UVec2" [Vr "u8vec2" "u8" 2 false; Vr "u16vec2" "u16" 2 false; Vr "u32vec2" "u32" 2 false; Vr "u64vec2" "u64" 2 false];
    BT "UVec3" [Vr "u8vec3" "u8" 3 false; Vr "u16vec3" "u16" 3 false; Vr "u32vec3" "u32" 3 false; Vr "u64vec3" "u64" 3 false];
    BT "UVec4" [Vr "u8vec4" "u8" 4 false; Vr "u16vec4" "u16" 4 false; Vr "u32vec4" "u32" 4 false; Vr "u64vec4" "u64" 4 false];
    BT "Mat2" [Vr "fmat2" "float" 4 false; Vr "dmat2" "double" 4 false];
    BT "Mat3" [Vr "fmat3" "float" 9 false; Vr "dmat3" "double" 9 false];
    BT "Mat4" [Vr "fmat4" "float" 16 false; Vr "dmat4" "double" 16 false];
    BT "Quat" [Vr "fquat" "float" 4 false; Vr "dquat" "double" 4 false];
    BT "Uuid" [Vr "uuid" "uuid" 1 false; Vr "entity_ref" "uuid" 1 true];
    BT "Hash" [Vr "hash" "hash" 1 false; Vr "package_ref" "hash" 1 true];
    BT "String" [Vr "string" "string" 1 false] ]%N.

(** ** The functions of one type; [type_name] and [array_type_name] are VT_x and VT_Array_x. *)
(** ISD_EntityWriter.py:109-115 *)
Definition w_over_none (implementing_type : string) (item_type : string) : list string :=
  [ "	// " ^^ implementing_type ^^ ": using " ^^ item_type ^^ " to store";
    "	template <> bool EntityWriter::Write<" ^^ implementing_type ^^ ">( const char *key, const u8 key_length, const " ^^ implementing_type ^^ " &src_variable )";
    "		{";
    "		const " ^^ item_type ^^ " tmp_variable = src_variable;";
    "		return this->Write<" ^^ item_type ^^ ">( key, key_length, tmp_variable );";
    "		}";
    "" ].

(** ISD_EntityWriter.py:117-125 *)
Definition w_over_opt (implementing_type : string) (item_type : string) : list string :=
  [ "	// " ^^ implementing_type ^^ ": using optional_value<" ^^ item_type ^^ "> to store";
    "	template <> bool EntityWriter::Write<optional_value<" ^^ implementing_type ^^ ">>( const char *key, const u8 key_length, const optional_value<" ^^ implementing_type ^^ "> &src_variable )";
    "		{";
    "		optional_value<" ^^ item_type ^^ "> tmp_variable;";
    "		if( src_variable.has_value() )";
    "		    tmp_variable.set( src_variable.value() );";
    "		return this->Write<optional_value<" ^^ item_type ^^ ">>( key, key_length, tmp_variable );";
    "		}";
    "" ].

(** ISD_EntityWriter.py:127-135 *)
Definition w_over_vec (implementing_type : string) (item_type : string) : list string :=
  [ "	// " ^^ implementing_type ^^ ": using std::vector<" ^^ item_type ^^ "> to store";
    "	template <> bool EntityWriter::Write<std::vector<" ^^ implementing_type ^^ ">>( const char *key, const u8 key_length, const std::vector<" ^^ implementing_type ^^ "> &src_variable )";
    "		{";
    "		std::vector<" ^^ item_type ^^ "> tmp_variable;";
    "		tmp_variable.reserve( src_variable.size() );";
    "		std::copy( src_variable.begin(), src_variable.end(), std::back_inserter(tmp_variable) );";
    "		return this->Write<std::vector<" ^^ item_type ^^ ">>( key, key_length, tmp_variable );";
    "		}";
    "" ].

(** ISD_EntityWriter.py:137-149 *)
Definition w_over_optvec (implementing_type : string) (item_type : string) : list string :=
  [ "	//  " ^^ implementing_type ^^ ": optional_vector<" ^^ item_type ^^ "> to store";
    "	template <> bool EntityWriter::Write<optional_vector<" ^^ implementing_type ^^ ">>( const char *key, const u8 key_length, const optional_vector<" ^^ implementing_type ^^ "> &src_variable )";
    "		{";
    "		optional_vector<" ^^ item_type ^^ "> tmp_variable;";
    "		if( src_variable.has_value() )";
    "			{";
    "			tmp_variable.set();";
    "			tmp_variable.values().reserve( src_variable.values().size() );";
    "			std::copy( src_variable.values().begin(), src_variable.values().end(), std::back_inserter(tmp_variable.values()) );";
    "			}";
    "		return this->Write<optional_vector<" ^^ item_type ^^ ">>( key, key_length, tmp_variable );";
    "		}";
    "" ].

(** ISD_EntityWriter.py:151-161 *)
Definition w_over_idx (implementing_type : string) (item_type : string) : list string :=
  [ "	// " ^^ implementing_type ^^ ": using idx_vector<" ^^ item_type ^^ "> to store";
    "	template <> bool EntityWriter::Write<idx_vector<" ^^ implementing_type ^^ ">>( const char *key, const u8 key_length, const idx_vector<" ^^ implementing_type ^^ "> &src_variable )";
    "		{";
    "		idx_vector<" ^^ item_type ^^ "> tmp_variable;";
    "		tmp_variable.index().reserve( src_variable.index().size() );";
    "		tmp_variable.values().reserve( src_variable.values().size() );";
    "		std::copy( src_variable.index().begin(), src_variable.index().end(), std::back_inserter(tmp_variable.index()) );";
    "		std::copy( src_variable.values().begin(), src_variable.values().end(), std::back_inserter(tmp_variable.values()) );";
    "		return this->Write<idx_vector<" ^^ item_type ^^ ">>( key, key_length, tmp_variable );";
    "		}";
    "" ].

(** ISD_EntityWriter.py:163-177 *)
Definition w_over_optidx (implementing_type : string) (item_type : string) : list string :=
  [ "	//  " ^^ implementing_type ^^ ": optional_idx_vector<" ^^ item_type ^^ "> to store";
    "	template <> bool EntityWriter::Write<optional_idx_vector<" ^^ implementing_type ^^ ">>( const char *key, const u8 key_length, const optional_idx_vector<" ^^ implementing_type ^^ "> &src_variable )";
    "		{";
    "		optional_idx_vector<" ^^ item_type ^^ "> tmp_variable;";
    "		if( src_variable.has_value() )";
    "			{";
    "			tmp_variable.set();";
    "			tmp_variable.index().reserve( src_variable.index().size() );";
    "			tmp_variable.values().reserve( src_variable.values().size() );";
    "			std::copy( src_variable.index().begin(), src_variable.index().end(), std::back_inserter(tmp_variable.index()) );";
    "			std::copy( src_variable.values().begin(), src_variable.values().end(), std::back_inserter(tmp_variable.values()) );";
    "			}";
    "		return this->Write<optional_idx_vector<" ^^ item_type ^^ ">>( key, key_length, tmp_variable );";
    "		}";
    "" ].

(** ISD_EntityWriter.py:183-188 *)
Definition w_plain_none (type_name : string) (implementing_type : string) : list string :=
  [ "	// " ^^ type_name ^^ ": " ^^ implementing_type;
    "	template <> bool EntityWriter::Write<" ^^ implementing_type ^^ ">( const char *key, const u8 key_length, const " ^^ implementing_type ^^ " &src_variable )";
    "		{";
    "		return write_single_value<ValueType::" ^^ type_name ^^ "," ^^ implementing_type ^^ ">( this->dstream, key, key_length, &src_variable );";
    "		}";
    "" ].

(** ISD_EntityWriter.py:190-196 *)
Definition w_plain_opt (type_name : string) (implementing_type : string) : list string :=
  [ "	// " ^^ type_name ^^ ": optional_value<" ^^ implementing_type ^^ ">";
    "	template <> bool EntityWriter::Write<optional_value<" ^^ implementing_type ^^ ">>( const char *key, const u8 key_length, const optional_value<" ^^ implementing_type ^^ "> &src_variable )";
    "		{";
    "		const " ^^ implementing_type ^^ " *p_src_variable = (src_variable.has_value()) ? &(src_variable.value()) : nullptr;";
    "		return write_single_value<ValueType::" ^^ type_name ^^ "," ^^ implementing_type ^^ ">( this->dstream, key, key_length, p_src_variable );";
    "		}";
    "" ].

(** ISD_EntityWriter.py:198-203 *)
Definition w_plain_vec (array_type_name : string) (implementing_type : string) : list string :=
  [ "	//  " ^^ array_type_name ^^ ": std::vector<" ^^ implementing_type ^^ ">";
    "	template <> bool EntityWriter::Write<std::vector<" ^^ implementing_type ^^ ">>( const char *key, const u8 key_length, const std::vector<" ^^ implementing_type ^^ "> &src_variable )";
    "		{";
    "		return write_array<ValueType::" ^^ array_type_name ^^ "," ^^ implementing_type ^^ ">(this->dstream, key, key_length, &src_variable , nullptr );";
    "		}";
    "" ].

(** ISD_EntityWriter.py:205-211 *)
Definition w_plain_optvec (array_type_name : string) (implementing_type : string) : list string :=
  [ "	//  " ^^ array_type_name ^^ ": optional_vector<" ^^ implementing_type ^^ ">";
    "	template <> bool EntityWriter::Write<optional_vector<" ^^ implementing_type ^^ ">>( const char *key, const u8 key_length, const optional_vector<" ^^ implementing_type ^^ "> &src_variable )";
    "		{";
    "		const std::vector<" ^^ implementing_type ^^ "> *p_src_variable = (src_variable.has_value()) ? &(src_variable.values()) : nullptr;";
    "		return write_array<ValueType::" ^^ array_type_name ^^ "," ^^ implementing_type ^^ ">(this->dstream, key, key_length, p_src_variable , nullptr );";
    "		}";
    "" ].

(** ISD_EntityWriter.py:213-218 *)
Definition w_plain_idx (array_type_name : string) (implementing_type : string) : list string :=
  [ "	//  " ^^ array_type_name ^^ ": idx_vector<" ^^ implementing_type ^^ ">";
    "	template <> bool EntityWriter::Write<idx_vector<" ^^ implementing_type ^^ ">>( const char *key, const u8 key_length, const idx_vector<" ^^ implementing_type ^^ "> &src_variable )";
    "		{";
    "		return write_array<ValueType::" ^^ array_type_name ^^ "," ^^ implementing_type ^^ ">(this->dstream, key, key_length, &(src_variable.values()) , &(src_variable.index()) );";
    "		}";
    "" ].

(** ISD_EntityWriter.py:220-227 *)
Definition w_plain_optidx (array_type_name : string) (implementing_type : string) : list string :=
  [ "	//  " ^^ array_type_name ^^ ": optional_idx_vector<" ^^ implementing_type ^^ ">";
    "	template <> bool EntityWriter::Write<optional_idx_vector<" ^^ implementing_type ^^ ">>( const char *key, const u8 key_length, const optional_idx_vector<" ^^ implementing_type ^^ "> &src_variable )";
    "		{";
    "		const std::vector<" ^^ implementing_type ^^ "> *p_src_values = (src_variable.has_value()) ? &(src_variable.values()) : nullptr;";
    "		const std::vector<i32> *p_src_index = (src_variable.has_value()) ? &(src_variable.index()) : nullptr;";
    "		return write_array<ValueType::" ^^ array_type_name ^^ "," ^^ implementing_type ^^ ">(this->dstream, key, key_length, p_src_values , p_src_index );";
    "		}";
    "" ].

(** ISD_EntityReader.py:118-129 *)
Definition r_over_none (implementing_type : string) (item_type : string) : list string :=
  [ "	// " ^^ implementing_type ^^ ": using " ^^ item_type ^^ " to read";
    "	template <> bool EntityReader::Read<" ^^ implementing_type ^^ ">( const char *key, const u8 key_length, " ^^ implementing_type ^^ " &dest_variable )";
    "		{";
    "		" ^^ item_type ^^ " tmp_variable;";
    "		if( !this->Read<" ^^ item_type ^^ ">( key, key_length , tmp_variable ) )";
    "			return false;";
    "";
    "		dest_variable = " ^^ implementing_type ^^ "( tmp_variable );";
    "";
    "		return true;";
    "		}";
    "" ].

(** ISD_EntityReader.py:131-145 *)
Definition r_over_opt (implementing_type : string) (item_type : string) : list string :=
  [ "	// " ^^ implementing_type ^^ ": using optional_value<" ^^ item_type ^^ "> to read";
    "	template <> bool EntityReader::Read<optional_value<" ^^ implementing_type ^^ ">>( const char *key, const u8 key_length, optional_value<" ^^ implementing_type ^^ "> &dest_variable )";
    "		{";
    "		optional_value<" ^^ item_type ^^ "> tmp_variable;";
    "		if( !this->Read<optional_value<" ^^ item_type ^^ ">>( key, key_length , tmp_variable ) )";
    "			return false;";
    "";
    "		if( tmp_variable.has_value() )";
    "			dest_variable.set( tmp_variable.value() );";
    "		else";
    "			dest_variable.reset();";
    "";
    "		return true;";
    "		}";
    "" ].

(** ISD_EntityReader.py:147-161 *)
Definition r_over_vec (implementing_type : string) (item_type : string) : list string :=
  [ "	// " ^^ implementing_type ^^ ": using std::vector<" ^^ item_type ^^ "> to read";
    "	template <> bool EntityReader::Read<std::vector<" ^^ implementing_type ^^ ">>( const char *key, const u8 key_length, std::vector<" ^^ implementing_type ^^ "> &dest_variable )";
    "		{";
    "		std::vector<" ^^ item_type ^^ "> tmp_variable;";
    "		if( !this->Read<std::vector<" ^^ item_type ^^ ">>( key, key_length , tmp_variable ) )";
    "			return false;";
    "";
    "		// copy values. use explicit ctor and emplace, since some objects have private conversion ctors";
    "		dest_variable.reserve( tmp_variable.size() );";
    "		for( size_t i = 0; i < tmp_variable.size(); ++i )";
    "			dest_variable.emplace_back( " ^^ implementing_type ^^ "(tmp_variable[i]) );";
    "";
    "		return true;";
    "		}";
    "" ].

(** ISD_EntityReader.py:163-186 *)
Definition r_over_optvec (implementing_type : string) (item_type : string) : list string :=
  [ "	//  " ^^ implementing_type ^^ ": optional_vector<" ^^ item_type ^^ "> to read";
    "	template <> bool EntityReader::Read<optional_vector<" ^^ implementing_type ^^ ">>( const char *key, const u8 key_length, optional_vector<" ^^ implementing_type ^^ "> &dest_variable )";
    "		{";
    "		optional_vector<" ^^ item_type ^^ "> tmp_variable;";
    "		if( !this->Read<optional_vector<" ^^ item_type ^^ ">>( key, key_length , tmp_variable ) )";
    "			return false;";
    "";
    "		if( tmp_variable.has_value() )";
    "			{";
    "			dest_variable.set();";
    "";
    "			// copy values. use explicit ctor and emplace, since some objects have private conversion ctors";
    "			dest_variable.values().reserve( tmp_variable.values().size() );";
    "			for( size_t i = 0; i < tmp_variable.values().size(); ++i )";
    "				dest_variable.values().emplace_back( " ^^ implementing_type ^^ "(tmp_variable.values()[i]) );";
    "			}";
    "		else";
    "			{";
    "			dest_variable.reset();";
    "			}";
    "";
    "		return true;";
    "		}";
    "" ].

(** ISD_EntityReader.py:188-205 *)
Definition r_over_idx (implementing_type : string) (item_type : string) : list string :=
  [ "	// " ^^ implementing_type ^^ ": using idx_vector<" ^^ item_type ^^ "> to read";
    "	template <> bool EntityReader::Read<idx_vector<" ^^ implementing_type ^^ ">>( const char *key, const u8 key_length, idx_vector<" ^^ implementing_type ^^ "> &dest_variable )";
    "		{";
    "		idx_vector<" ^^ item_type ^^ "> tmp_variable;";
    "		if( !this->Read<idx_vector<" ^^ item_type ^^ ">>( key, key_length , tmp_variable ) )";
    "			return false;";
    "";
    "		// move index, as no conversion is needed";
    "		dest_variable.index() = std::move( tmp_variable.index() );";
    "";
    "		// copy values. use explicit ctor and emplace, since some objects have private conversion ctors";
    "		dest_variable.values().reserve( tmp_variable.values().size() );";
    "		for( size_t i = 0; i < tmp_variable.values().size(); ++i )";
    "			dest_variable.values().emplace_back( " ^^ implementing_type ^^ "(tmp_variable.values()[i]) );";
    "";
    "		return true;";
    "		}";
    "" ].

(** ISD_EntityReader.py:207-233 *)
Definition r_over_optidx (implementing_type : string) (item_type : string) : list string :=
  [ "	//  " ^^ implementing_type ^^ ": optional_idx_vector<" ^^ item_type ^^ "> to read";
    "	template <> bool EntityReader::Read<optional_idx_vector<" ^^ implementing_type ^^ ">>( const char *key, const u8 key_length, optional_idx_vector<" ^^ implementing_type ^^ "> &dest_variable )";
    "		{";
    "		optional_idx_vector<" ^^ item_type ^^ "> tmp_variable;";
    "		if( !this->Read<optional_idx_vector<" ^^ item_type ^^ ">>( key, key_length , tmp_variable ) )";
    "			return false;";
    "";
    "		if( tmp_variable.has_value() )";
    "			{";
    "			dest_variable.set();";
    "";
    "			// move index, as no conversion is needed";
    "			dest_variable.index() = std::move( tmp_variable.index() );";
    "";
    "			// copy values. use explicit ctor and emplace, since some objects have private conversion ctors";
    "			dest_variable.values().reserve( tmp_variable.values().size() );";
    "			for( size_t i = 0; i < tmp_variable.values().size(); ++i )";
    "				dest_variable.values().emplace_back( " ^^ implementing_type ^^ "(tmp_variable.values()[i]) );";
    "			}";
    "		else";
    "			{";
    "			dest_variable.reset();";
    "			}";
    "";
    "		return true;";
    "		}";
    "" ].

(** ISD_EntityReader.py:236-242 *)
Definition r_plain_none (type_name : string) (implementing_type : string) : list string :=
  [ "	// " ^^ type_name ^^ ": " ^^ implementing_type;
    "	template <> bool EntityReader::Read<" ^^ implementing_type ^^ ">( const char *key, const u8 key_length, " ^^ implementing_type ^^ " &dest_variable )";
    "		{";
    "		reader_status status = read_single_item<ValueType::" ^^ type_name ^^ "," ^^ implementing_type ^^ ">(this->sstream, key, key_length, false, &(dest_variable) );";
    "		return status != reader_status::fail;";
    "		}";
    "" ].

(** ISD_EntityReader.py:244-253 *)
Definition r_plain_opt (type_name : string) (implementing_type : string) : list string :=
  [ "	// " ^^ type_name ^^ ": optional_value<" ^^ implementing_type ^^ ">";
    "	template <> bool EntityReader::Read<optional_value<" ^^ implementing_type ^^ ">>( const char *key, const u8 key_length, optional_value<" ^^ implementing_type ^^ "> &dest_variable )";
    "		{";
    "		dest_variable.set();";
    "		reader_status status = read_single_item<ValueType::" ^^ type_name ^^ "," ^^ implementing_type ^^ ">(this->sstream, key, key_length, true, &(dest_variable.value()) );";
    "		if( status == reader_status::success_empty )";
    "			dest_variable.reset();";
    "		return status != reader_status::fail;";
    "		}";
    "" ].

(** ISD_EntityReader.py:255-261 *)
Definition r_plain_vec (type_name : string) (array_type_name : string) (implementing_type : string) : list string :=
  [ "	// " ^^ type_name ^^ ": std::vector<" ^^ implementing_type ^^ ">";
    "	template <> bool EntityReader::Read<std::vector<" ^^ implementing_type ^^ ">>( const char *key, const u8 key_length, std::vector<" ^^ implementing_type ^^ "> &dest_variable )";
    "		{";
    "		reader_status status = read_array<ValueType::" ^^ array_type_name ^^ "," ^^ implementing_type ^^ ">(this->sstream, key, key_length, false, &(dest_variable), nullptr );";
    "		return status != reader_status::fail;";
    "		}";
    "" ].

(** ISD_EntityReader.py:263-272 *)
Definition r_plain_optvec (type_name : string) (array_type_name : string) (implementing_type : string) : list string :=
  [ "	// " ^^ type_name ^^ ": optional_vector<" ^^ implementing_type ^^ ">";
    "	template <> bool EntityReader::Read<optional_vector<" ^^ implementing_type ^^ ">>( const char *key, const u8 key_length, optional_vector<" ^^ implementing_type ^^ "> &dest_variable )";
    "		{";
    "		dest_variable.set();";
    "		reader_status status = read_array<ValueType::" ^^ array_type_name ^^ "," ^^ implementing_type ^^ ">(this->sstream, key, key_length, true, &(dest_variable.values()), nullptr );";
    "		if( status == reader_status::success_empty )";
    "			dest_variable.reset();";
    "		return status != reader_status::fail;";
    "		}";
    "" ].

(** ISD_EntityReader.py:274-280 *)
Definition r_plain_idx (type_name : string) (array_type_name : string) (implementing_type : string) : list string :=
  [ "	// " ^^ type_name ^^ ": idx_vector<" ^^ implementing_type ^^ ">";
    "	template <> bool EntityReader::Read<idx_vector<" ^^ implementing_type ^^ ">>( const char *key, const u8 key_length, idx_vector<" ^^ implementing_type ^^ "> &dest_variable )";
    "		{";
    "		reader_status status = read_array<ValueType::" ^^ array_type_name ^^ "," ^^ implementing_type ^^ ">(this->sstream, key, key_length, false, &(dest_variable.values()), &(dest_variable.index()) );";
    "		return status != reader_status::fail;";
    "		}";
    "" ].

(** ISD_EntityReader.py:282-291 *)
Definition r_plain_optidx (type_name : string) (array_type_name : string) (implementing_type : string) : list string :=
  [ "	// " ^^ type_name ^^ ": optional_idx_vector<" ^^ implementing_type ^^ ">";
    "	template <> bool EntityReader::Read<optional_idx_vector<" ^^ implementing_type ^^ ">>( const char *key, const u8 key_length, optional_idx_vector<" ^^ implementing_type ^^ "> &dest_variable )";
    "		{";
    "		dest_variable.set();";
    "		reader_status status = read_array<ValueType::" ^^ array_type_name ^^ "," ^^ implementing_type ^^ ">(this->sstream, key, key_length, true, &(dest_variable.values()), &(dest_variable.index()) );";
    "		if( status == reader_status::success_empty )";
    "			dest_variable.reset();";
    "		return status != reader_status::fail;";
    "		}";
    "" ].

(** ISD_EntityWriter.py:103-227 *)
Definition w_variant (b : base_type) (v : variant) : list string :=
  let implementing_type := vr_impl v in
  let item_type := vr_item v in
  if vr_override v then
    w_over_none implementing_type item_type ++ w_over_opt implementing_type item_type ++ w_over_vec implementing_type item_type
    ++ w_over_optvec implementing_type item_type ++ w_over_idx implementing_type item_type ++ w_over_optidx implementing_type item_type
  else
    let type_name := "VT_" ^^ bt_name b in
    let array_type_name := "VT_Array_" ^^ bt_name b in
    w_plain_none type_name implementing_type ++ w_plain_opt type_name implementing_type ++ w_plain_vec array_type_name implementing_type
    ++ w_plain_optvec array_type_name implementing_type ++ w_plain_idx array_type_name implementing_type
    ++ w_plain_optidx array_type_name implementing_type.
(** ISD_EntityReader.py:108-291 *)
Definition r_variant (b : base_type) (v : variant) : list string :=
  let type_name := "VT_" ^^ bt_name b in
  let array_type_name := "VT_Array_" ^^ bt_name b in
  let implementing_type := vr_impl v in
  let item_type := vr_item v in
  if vr_override v then
    r_over_none implementing_type item_type ++ r_over_opt implementing_type item_type ++ r_over_vec implementing_type item_type
    ++ r_over_optvec implementing_type item_type ++ r_over_idx implementing_type item_type ++ r_over_optidx implementing_type item_type
  else
    r_plain_none type_name implementing_type ++ r_plain_opt type_name implementing_type
    ++ r_plain_vec type_name array_type_name implementing_type ++ r_plain_optvec type_name array_type_name implementing_type
    ++ r_plain_idx type_name array_type_name implementing_type ++ r_plain_optidx type_name array_type_name implementing_type.

(** ** The source files *)
(** ISD_EntityWriter.py:83-97 *)
Definition w_source_head : list string :=
  [ "// ISD Copyright (c) 2021 Ulrik Lindahl";
    "// Licensed under the MIT license https://github.com/Cooolrik/ISD/blob/main/LICENSE";
    "";
    "#pragma once";
    "";
    "#include ""ISD_EntityWriter.h""";
    "#include ""ISD_MemoryWriteStream.h""";
    "";
    "#include ""ISD_EntityWriterTemplates.inl""";
    "";
    "namespace ISD";
    "	{";
    "	EntityWriter::EntityWriter( MemoryWriteStream &_dstream ) : dstream( _dstream ) , start_position( _dstream.GetPosition() ) {}";
    "" ].

(** ISD_EntityReader.py:85-105 *)
Definition r_source_head : list string :=
  [ "// ISD Copyright (c) 2021 Ulrik Lindahl";
    "// Licensed under the MIT license https://github.com/Cooolrik/ISD/blob/main/LICENSE";
    "";
    "#pragma once";
    "";
    "#include ""ISD_EntityReader.h""";
    "#include ""ISD_MemoryReadStream.h""";
    "";
    "#include ""ISD_EntityReaderTemplates.inl""";
    "";
    "namespace ISD";
    "	{";
    "	EntityReader::EntityReader( MemoryReadStream &_sstream ) : sstream( _sstream ) , end_position( _sstream.GetSize() )";
    "		{";
    "		}";
    "";
    "	EntityReader::EntityReader( MemoryReadStream &_sstream , const u64 _end_position ) : sstream( _sstream ) , end_position( _end_position )";
    "		{";
    "		}";
    "" ].

(** ISD_EntityWriter.py:82-239 *)
Definition w_source (l : list base_type) : list string :=
  w_source_head ++ flat_map (fun b => flat_map (w_variant b) (bt_variants b)) l ++ [ "	};" ].
(** ISD_EntityReader.py:84-294 *)
Definition r_source (l : list base_type) : list string :=
  r_source_head ++ flat_map (fun b => flat_map (r_variant b) (bt_variants b)) l ++ [ "	};" ].

(** ** The headers *)
(** ISD_EntityWriter.py:7-48 *)
Definition w_header_head : list string :=
  [ "// ISD Copyright (c) 2021 Ulrik Lindahl";
    "// Licensed under the MIT license https://github.com/Cooolrik/ISD/blob/main/LICENSE";
    "";
    "#pragma once";
    "";
    "#include ""ISD_Types.h""";
    "";
    "namespace ISD";
    "    {";
    "    class MemoryWriteStream;";
    "";
    "    class EntityWriter";
    "        {";
    "        private:";
    "            MemoryWriteStream &dstream;";
    "            const u64 start_position;";
    "";
    "            std::unique_ptr<EntityWriter> active_subsection;";
    "";
    "            size_t active_array_size = 0;";
    "            size_t active_array_index = ~0;";
    "            u64 active_array_index_start_position = 0;";
    "";
    "        public:";
    "            EntityWriter( MemoryWriteStream &_dstream );";
    "";
    "            // Build a section. ";
    "            EntityWriter *BeginWriteSection( const char *key, const u8 key_length );";
    "            bool EndWriteSection( const EntityWriter *section_writer );";
    "            bool WriteNullSection( const char *key, const u8 key_length );";
    "";
    "            // Build a sections array. ";
    "            EntityWriter *BeginWriteSectionsArray( const char *key, const u8 key_length, const size_t array_size, const std::vector<i32> *index = nullptr );";
    "            bool BeginWriteSectionInArray( const EntityWriter *sections_array_writer , const size_t section_index );";
    "            bool EndWriteSectionInArray( const EntityWriter *sections_array_writer , const size_t section_index );";
    "            bool EndWriteSectionsArray( const EntityWriter *sections_array_writer );";
    "            bool WriteNullSectionsArray( const char *key, const u8 key_length );";
    "";
    "            // The Write function template, specifically implemented below for all supported value types.";
    "            template <class T> bool Write( const char *key, const u8 key_length, const T &value );";
    "" ].

(** ISD_EntityWriter.py:56-57 *)
Definition w_decl (type_impl_name : string) : list string :=
  [ "            template <> bool Write<" ^^ type_impl_name ^^ ">( const char *key, const u8 key_length, const " ^^ type_impl_name ^^ " &value );";
    "            template <> bool Write<optional_value<" ^^ type_impl_name ^^ ">>( const char *key, const u8 key_length, const optional_value<" ^^ type_impl_name ^^ "> &value );" ].

(** ISD_EntityWriter.py:66-69 *)
Definition w_decl_array (type_impl_name : string) : list string :=
  [ "            template <> bool Write<std::vector<" ^^ type_impl_name ^^ ">>( const char *key, const u8 key_length, const std::vector<" ^^ type_impl_name ^^ "> &value );";
    "            template <> bool Write<optional_vector<" ^^ type_impl_name ^^ ">>( const char *key, const u8 key_length, const optional_vector<" ^^ type_impl_name ^^ "> &value );";
    "            template <> bool Write<idx_vector<" ^^ type_impl_name ^^ ">>( const char *key, const u8 key_length, const idx_vector<" ^^ type_impl_name ^^ "> &value );";
    "            template <> bool Write<optional_idx_vector<" ^^ type_impl_name ^^ ">>( const char *key, const u8 key_length, const optional_idx_vector<" ^^ type_impl_name ^^ "> &value );" ].

(** ISD_EntityWriter.py:72-79 *)
Definition w_header_tail : list string :=
  [ "		};";
    "";
    "	// Write function. Specialized for all supported value types.";
    "	template <class T> bool EntityWriter::Write( const char *key, const u8 key_length, const T &value )";
    "		{";
    "		static_assert(false, ""Error: EntityWriter::Write template: The value type T cannot be serialized."");";
    "		}";
    "	};" ].

(** ISD_EntityReader.py:7-50 *)
Definition r_header_head : list string :=
  [ "// ISD Copyright (c) 2021 Ulrik Lindahl";
    "// Licensed under the MIT license https://github.com/Cooolrik/ISD/blob/main/LICENSE";
    "";
    "#pragma once";
    "";
    "#include ""ISD_Types.h""";
    "";
    "namespace ISD";
    "    {";
    "    class MemoryReadStream;";
    "";
    "    class EntityReader";
    "        {";
    "        private:";
    "            MemoryReadStream &sstream;";
    "            const u64 end_position;";
    "";
    "            std::unique_ptr<EntityReader> active_subsection;";
    "            size_t active_subsection_array_size = 0;";
    "            size_t active_subsection_index = ~0;";
    "            u64 active_subsection_end_pos = 0;";
    "";
    "        public:";
    "            EntityReader( MemoryReadStream &_sstream );";
    "            EntityReader( MemoryReadStream &_sstream , const u64 _end_position );";
    "";
    "            // Read a section. ";
    "            // If the section is null, the section is directly closed, nullptr+success is returned ";
    "            // from BeginReadSection, and EndReadSection shall not be called.";
    "            std::tuple<EntityReader *, bool> BeginReadSection( const char *key, const u8 key_length, const bool null_object_is_allowed );";
    "            bool EndReadSection( const EntityReader *section_reader );";
    "";
    "            // Build a sections array. ";
    "            // If the section is null, the section array is directly closed, nullptr+0+success is returned ";
    "            // from BeginReadSectionsArray, and EndReadSectionsArray shall not be called.";
    "            std::tuple<EntityReader *, size_t, bool> BeginReadSectionsArray( const char *key, const u8 key_length, const bool null_object_is_allowed, std::vector<i32> *dest_index = nullptr );";
    "            bool BeginReadSectionInArray( const EntityReader *sections_array_reader , const size_t section_index, bool *dest_section_has_data = nullptr /* if nullptr, object is not allowed to be empty*/ );";
    "            bool EndReadSectionInArray( const EntityReader *sections_array_reader , const size_t section_index );";
    "            bool EndReadSectionsArray( const EntityReader *sections_array_reader );";
    "";
    "            // The Read function template, specifically implemented below for all supported value types.";
    "            template <class T> bool Read( const char *key, const u8 key_length, T &value );";
    "" ].

(** ISD_EntityReader.py:58-59 *)
Definition r_decl (type_impl_name : string) : list string :=
  [ "            template <> bool Read<" ^^ type_impl_name ^^ ">( const char *key, const u8 key_length, " ^^ type_impl_name ^^ " &value );";
    "            template <> bool Read<optional_value<" ^^ type_impl_name ^^ ">>( const char *key, const u8 key_length, optional_value<" ^^ type_impl_name ^^ "> &value );" ].

(** ISD_EntityReader.py:68-71 *)
Definition r_decl_array (type_impl_name : string) : list string :=
  [ "            template <> bool Read<std::vector<" ^^ type_impl_name ^^ ">>( const char *key, const u8 key_length, std::vector<" ^^ type_impl_name ^^ "> &value );";
    "            template <> bool Read<optional_vector<" ^^ type_impl_name ^^ ">>( const char *key, const u8 key_length, optional_vector<" ^^ type_impl_name ^^ "> &value );";
    "            template <> bool Read<idx_vector<" ^^ type_impl_name ^^ ">>( const char *key, const u8 key_length, idx_vector<" ^^ type_impl_name ^^ "> &value );";
    "            template <> bool Read<optional_idx_vector<" ^^ type_impl_name ^^ ">>( const char *key, const u8 key_length, optional_idx_vector<" ^^ type_impl_name ^^ "> &value );" ].

(** ISD_EntityReader.py:74-81 *)
Definition r_header_tail : list string :=
  [ "		};";
    "";
    "	// Read method. Specialized for all supported value types.";
    "	template <class T> bool EntityReader::Read( const char *key, const u8 key_length, T &value )";
    "		{";
    "		static_assert(false, ""Error: EntityReader::Read template: The value type T cannot be serialized."");";
    "		}";
    "	};" ].

(** ISD_EntityWriter.py:6-80 *)
Definition w_header (l : list base_type) : list string :=
  w_header_head
  ++ flat_map (fun b => let type_name := "VT_" ^^ bt_name b in
                        [ "            // " ^^ type_name ] ++ flat_map (fun v => w_decl (vr_impl v)) (bt_variants b) ++ [ "" ]) l
  ++ flat_map (fun b => let type_name := "VT_Array_" ^^ bt_name b in
                        [ "            // " ^^ type_name ] ++ flat_map (fun v => w_decl_array (vr_impl v)) (bt_variants b) ++ [ "" ]) l
  ++ w_header_tail.
(** ISD_EntityReader.py:6-82 *)
Definition r_header (l : list base_type) : list string :=
  r_header_head
  ++ flat_map (fun b => let type_name := "VT_" ^^ bt_name b in
                        [ "            // " ^^ type_name ] ++ flat_map (fun v => r_decl (vr_impl v)) (bt_variants b) ++ [ "" ]) l
  ++ flat_map (fun b => let type_name := "VT_Array_" ^^ bt_name b in
                        [ "            // " ^^ type_name ] ++ flat_map (fun v => r_decl_array (vr_impl v)) (bt_variants b) ++ [ "" ]) l
  ++ r_header_tail.
