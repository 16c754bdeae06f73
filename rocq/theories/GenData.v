(** * GenData: the text of the generated files ISD_DataTypes.h, ISD_DataTypes.cpp and ISD_DataValuePointers.h. Model of
    CodeGenerator/Generators/ISD_DataTypes.py, line by line, with the inlined files of CodeGenerator/InlinedCode: a file is the list of its
    lines, a Python f-string is a concatenation (the numbers in them are printed in decimal). The enumeration is that of GenDyn.v. What the
    text means is in CppData.v. *)
From Coq Require Import Strings.String Strings.Ascii.
From Verif Require Import Base Bytes Types GenTypes GenText GenRW GenDyn.
Local Open Scope string_scope.
Local Open Scope list_scope.
Local Open Scope nat_scope.

(** The ranges of the loops (ISD_DataTypes.py:6-9). The bit sizes are only printed. *)
Definition int_bit_range : list string := ["8"; "16"; "32"; "64"].
Definition float_type_range : list string := ["float"; "double"].
Definition vector_dimension_range : list nat := [2; 3; 4]%nat.
Definition nonconst_const_range : list string := [""; "const "].
(** A number below 100 in an f-string. *)
Definition digit (n : nat) : string := String (ascii_of_nat (48 + n)) "".
Definition decimal_text (n : nat) : string := (if Nat.ltb n 10 then "" else digit (n / 10)) ^^ digit (n mod 10).
Local Notation for_all := flat_map.

(** CodeGenerator/InlinedCode/uuid_hash_header.inl:1-88, as read by inline_file (CodeGeneratorHelpers.py:130-137). *)
Definition inl_uuid_hash_header : list string :=
  [ "// include GUID stuff from windows";
    "#ifdef _WIN32";
    "#define __INLINE_ISEQUAL_GUID";
    "#include <guiddef.h>";
    "#endif//_WIN32";
    "";
    "// define UUID";
    "#ifndef UUID_DEFINED";
    "#define UUID_DEFINED";
    "typedef GUID UUID;";
    "#ifdef _WIN32";
    "#ifndef uuid_t";
    "#define uuid_t UUID";
    "#endif//uuid_t";
    "#endif//_WIN32";
    "";
    "inline bool operator<( const UUID &Left, const UUID &Right )";
    "	{";
    "	return memcmp( &Left, &Right, sizeof( UUID ) ) < 0;";
    "	};";
    "";
    "std::ostream &operator<<( std::ostream &os, const UUID &_uuid );";
    "";
    "template<>";
    "struct std::hash<UUID>";
    "	{";
    "	std::size_t operator()(UUID const& val) const noexcept";
    "		{";
    "		static_assert(sizeof( std::size_t ) == sizeof( std::uint64_t ), ""Code is assuming 64 bit size_t"" );";
    "";
    "		const std::size_t *ptr = (const std::size_t *)&val;";
    "		return ptr[0] ^ ptr[1];";
    "		}";
    "	};";
    "";
    "#endif//UUID_DEFINED";
    "";
    "// define hash for sha256 message digests";
    "#ifndef HASH_DEFINED";
    "#define HASH_DEFINED";
    "";
    "struct HASH";
    "	{";
    "	union";
    "		{";
    "		std::uint64_t _digest_q[4];";
    "		std::uint8_t digest[32];";
    "		};";
    "	};";
    "";
    "inline bool operator<( const HASH &Left, const HASH &Right )";
    "	{";
    "	return memcmp( &Left, &Right, sizeof( HASH ) ) < 0;";
    "	};";
    "";
    "inline bool operator==( const HASH &Left, const HASH &Right )";
    "	{";
    "	return (Left._digest_q[0] == Right._digest_q[0])";
    "		&& (Left._digest_q[1] == Right._digest_q[1])";
    "		&& (Left._digest_q[2] == Right._digest_q[2])";
    "		&& (Left._digest_q[3] == Right._digest_q[3]);";
    "	};";
    "";
    "inline bool operator!=( const HASH &Left, const HASH &Right )";
    "	{";
    "	return (Left._digest_q[0] != Right._digest_q[0])";
    "		|| (Left._digest_q[1] != Right._digest_q[1])";
    "		|| (Left._digest_q[2] != Right._digest_q[2])";
    "		|| (Left._digest_q[3] != Right._digest_q[3]);";
    "	};";
    "";
    "std::ostream &operator<<( std::ostream &os, const HASH &_hash );";
    "";
    "template<>";
    "struct std::hash<HASH>";
    "	{";
    "	std::size_t operator()(HASH const& val) const noexcept";
    "		{";
    "		static_assert(sizeof( std::size_t ) == sizeof( std::uint64_t ), ""Code is assuming 64 bit size_t"" );";
    "";
    "		return val._digest_q[0]";
    "			 ^ val._digest_q[1]";
    "			 ^ val._digest_q[2]";
    "			 ^ val._digest_q[3];";
    "		}";
    "	};";
    "";
    "#endif//HASH_DEFINED" ].
(** CodeGenerator/InlinedCode/ISD_package_ref.inl:1-38, as read by inline_file (CodeGeneratorHelpers.py:130-137). *)
Definition inl_package_ref : list string :=
  [ "	// Reference to another package.";
    "	class package_ref";
    "		{";
    "		private:";
    "			hash hash_m;";
    "";
    "		public:";
    "			// ctors/dtor";
    "			package_ref() noexcept : hash_m( hash_zero ) {}";
    "			package_ref( const hash &_hash ) noexcept : hash_m( _hash ) {}";
    "			package_ref( const package_ref &other ) noexcept : hash_m( other.hash_m ) {}";
    "			package_ref &operator=( const package_ref &other ) noexcept { this->hash_m = other.hash_m; return *this; }";
    "			package_ref( package_ref &&other ) noexcept : hash_m( other.hash_m ) { other.hash_m = hash_zero; }";
    "			package_ref &operator=( package_ref &&other ) noexcept { this->hash_m = other.hash_m; other.hash_m = hash_zero; return *this; }";
    "			~package_ref() = default;";
    "";
    "			// comparing & sorting";
    "			bool operator==( const package_ref &rval ) const { return this->hash_m == rval.hash_m; }";
    "			bool operator!=( const package_ref &rval ) const { return this->hash_m != rval.hash_m; }";
    "			bool operator<( const package_ref &rval ) const { return this->hash_m < rval.hash_m; }";
    "";
    "			// conversions to boolean (behaves like a pointer, true if non-null)";
    "			operator bool() const { return this->hash_m != hash_zero; }";
    "			operator hash() const { return this->hash_m; }";
    "";
    "			// returns the ""null"" package_ref value";
    "			static const package_ref &null() { static package_ref null_id; return null_id; }";
    "		};";
    "";
    "	inline std::ostream &operator<<( std::ostream &os, const package_ref &ref )";
    "		{";
    "		return os << hash( ref );";
    "		}";
    "";
    "	const package_ref package_ref_zero = package_ref( hash_zero );";
    "	const package_ref package_ref_inf = package_ref( hash_inf );";
    "	const package_ref package_ref_sup = package_ref( hash_sup );";
    "" ].
(** CodeGenerator/InlinedCode/ISD_entity_ref.inl:1-49, as read by inline_file (CodeGeneratorHelpers.py:130-137). *)
Definition inl_entity_ref : list string :=
  [ "	// Reference to an element within the same package. Acts like a memory handle.";
    "	// It can be created, held and copied, but cannot be set to a specific value other than null.";
    "	class entity_ref";
    "		{";
    "		private:";
    "			uuid id_m;";
    "";
    "			// set entity reference, only allow this internally and from EntityReader";
    "			entity_ref( const uuid &id ) : id_m( id ) {};";
    "			friend class EntityReader;";
    "";
    "		public:";
    "			// ctors/dtor";
    "			entity_ref() noexcept : id_m( uuid_zero ) {}";
    "			entity_ref( const entity_ref &other ) noexcept : id_m( other.id_m ) {}";
    "			entity_ref &operator=( const entity_ref &other ) noexcept { this->id_m = other.id_m; return *this; }";
    "			entity_ref( entity_ref &&other ) noexcept : id_m( other.id_m ) { other.id_m = uuid_zero; }";
    "			entity_ref &operator=( entity_ref&& other ) noexcept { this->id_m = other.id_m; other.id_m = uuid_zero; return *this; }";
    "			~entity_ref() = default;";
    "";
    "			// make a new reference with a unique uuid";
    "			static entity_ref make_ref();";
    "";
    "			// comparing & sorting";
    "			bool operator==( const entity_ref &rval ) const { return this->id_m == rval.id_m; }";
    "			bool operator!=( const entity_ref &rval ) const { return this->id_m != rval.id_m; }";
    "			bool operator<( const entity_ref &rval ) const { return this->id_m < rval.id_m; }";
    "";
    "			// conversions to boolean (behaves like a pointer, true if non-null)";
    "			operator bool() const { return this->id_m != uuid_zero; }";
    "			operator uuid() const { return this->id_m; }";
    "";
    "			// returns the ""null"" entity_ref value";
    "			static const entity_ref &null() { static entity_ref null_id; return null_id; }";
    "";
    "			// inf and sup values, for comparing";
    "			static entity_ref &_inf() { static entity_ref inf_id(uuid_inf); return inf_id; }";
    "			static entity_ref &_sup() { static entity_ref sup_id(uuid_sup); return sup_id; }";
    "		};";
    "";
    "	inline std::ostream &operator<<( std::ostream &os, const entity_ref &ref )";
    "		{";
    "		return os << uuid( ref );";
    "		}";
    "";
    "	const entity_ref entity_ref_zero = entity_ref::null();";
    "	const entity_ref entity_ref_inf = entity_ref::_inf();";
    "	const entity_ref entity_ref_sup = entity_ref::_sup();";
    "" ].
(** CodeGenerator/InlinedCode/uuid_hash_source.inl:1-10, as read by inline_file (CodeGeneratorHelpers.py:130-137). *)
Definition inl_uuid_hash_source : list string :=
  [ "";
    "std::ostream &operator<<( std::ostream &os, const UUID &guid )";
    "    {";
    "    return os;";
    "    }";
    "";
    "std::ostream &operator<<( std::ostream &os, const HASH &hsh )";
    "    {";
    "    return os;";
    "    }" ].

(** print_type_information_header (ISD_DataTypes.py:11-26) *)
Definition info_lines (type value : string) (value_count : nat) : list string :=
  [ "	template<> struct data_type_information<" ^^ type ^^ ">";
    "		{";
    "		using value_type = " ^^ value ^^ "; // the value type of " ^^ type ^^ " ( " ^^ value ^^ " )";
    "		static constexpr size_t value_count = " ^^ decimal_text value_count ^^ "; // the number of values in " ^^ type ^^ " ( " ^^ decimal_text value_count ^^ " )";
    "		static constexpr const char * value_name = """ ^^ value ^^ """; // name of the value in " ^^ type ^^ " ( """ ^^ value ^^ """ ) ";
    "		static constexpr const char * type_name = """ ^^ type ^^ """; // name of the type ( """ ^^ type ^^ """ ) ";
    "		static constexpr data_type_index type_index = data_type_index::dt_" ^^ type ^^ "; // the data type index of " ^^ type ^^ " ( dt_" ^^ type ^^ " )";
    "		static const " ^^ type ^^ " zero; // zero value of " ^^ type;
    "		static const " ^^ type ^^ " inf; // limit inferior (minimum possible value) of " ^^ type ]
  ++ (if String.eqb type "string" then [] else [ "		static const " ^^ type ^^ " sup; // limit superior (maximum possible value) of " ^^ type ])
  ++ [ "		};"; "" ].

(** ISD_DataTypes.py:30-44 *)
Definition data_head : list string :=
  [ "// ISD Copyright (c) 2021 Ulrik Lindahl";
    "// Licensed under the MIT license https://github.com/Cooolrik/ISD/blob/main/LICENSE";
    "";
    "#pragma once";
    "";
    "#ifndef ISD_SKIP_UUID_AND_HASH";
    "" ]
  ++ inl_uuid_hash_header ++
  [ "";
    "#endif//ISD_SKIP_UUID_AND_HASH";
    "";
    "#include <glm/fwd.hpp>";
    "";
    "namespace ISD";
    "    {" ].
(** ISD_DataTypes.py:46-56: the scalar types *)
Definition data_scalars : list string :=
  [ "	// scalar types" ]
  ++ for_all (fun b => [ "	typedef std::int" ^^ b ^^ "_t i" ^^ b ^^ ";" ]) int_bit_range
  ++ for_all (fun b => [ "	typedef std::uint" ^^ b ^^ "_t u" ^^ b ^^ ";" ]) int_bit_range
  ++ [ "";
       "	typedef std::string string;";
       "	typedef UUID uuid;";
       "	typedef HASH hash;";
       "" ].
(** ISD_DataTypes.py:58-90: their limits *)
Definition data_limits : list string :=
  [ "	// scalar types, zero value, minimum possible value (""inf"", limit inferior) and maximum possible value (""sup"", limit superior)";
    "	constexpr bool bool_zero = false;";
    "	constexpr bool bool_inf = false;";
    "	constexpr bool bool_sup = true;" ]
  ++ for_all (fun b => [ "	constexpr i" ^^ b ^^ " i" ^^ b ^^ "_zero = 0;";
                         "	constexpr i" ^^ b ^^ " i" ^^ b ^^ "_inf = INT" ^^ b ^^ "_MIN;";
                         "	constexpr i" ^^ b ^^ " i" ^^ b ^^ "_sup = INT" ^^ b ^^ "_MAX;" ]) int_bit_range
  ++ for_all (fun b => [ "	constexpr u" ^^ b ^^ " u" ^^ b ^^ "_zero = 0;";
                         "	constexpr u" ^^ b ^^ " u" ^^ b ^^ "_inf = 0;";
                         "	constexpr u" ^^ b ^^ " u" ^^ b ^^ "_sup = UINT" ^^ b ^^ "_MAX;" ]) int_bit_range
  ++ [ "";
       "	constexpr float float_zero = 0.0f;";
       "	constexpr float float_inf = -FLT_MAX;";
       "	constexpr float float_sup = FLT_MAX;";
       "	constexpr float double_zero = 0.0;";
       "	constexpr double double_inf = -DBL_MAX;";
       "	constexpr double double_sup = DBL_MAX;";
       "";
       "	const string string_zero;";
       "	const string string_inf;";
       "";
       "	constexpr uuid uuid_zero = {0,0,0,{0,0,0,0,0,0,0,0}};";
       "	constexpr uuid uuid_inf = {0,0,0,{0,0,0,0,0,0,0,0}};";
       "	constexpr uuid uuid_sup = {~0Ui32,~0Ui16,~0Ui16,{0xff,0xff,0xff,0xff,0xff,0xff,0xff,0xff}};";
       "";
       "	constexpr hash hash_zero = {0,0,0,0};";
       "	constexpr hash hash_inf = {0,0,0,0};";
       "	constexpr hash hash_sup = {~0Ui64,~0Ui64,~0Ui64,~0Ui64};";
       "" ].
(** ISD_DataTypes.py:92-131: vectors, matrices and quaternions *)
Definition data_vectors : list string :=
  [ "	// vector types" ]
  ++ for_all (fun b => for_all (fun d => [ "	typedef glm::vec<" ^^ decimal_text d ^^ ",glm::i" ^^ b ^^ ",glm::packed_highp> i" ^^ b ^^ "vec" ^^ decimal_text d ^^ ";" ]) vector_dimension_range) int_bit_range
  ++ [ "" ]
  ++ for_all (fun b => for_all (fun d => [ "	typedef glm::vec<" ^^ decimal_text d ^^ ",glm::u" ^^ b ^^ ",glm::packed_highp> u" ^^ b ^^ "vec" ^^ decimal_text d ^^ ";" ]) vector_dimension_range) int_bit_range
  ++ [ "" ]
  ++ for_all (fun d => [ "	typedef glm::vec<" ^^ decimal_text d ^^ ",glm::f32,glm::packed_highp> fvec" ^^ decimal_text d ^^ ";" ]) vector_dimension_range
  ++ for_all (fun d => [ "	typedef glm::vec<" ^^ decimal_text d ^^ ",glm::f64,glm::packed_highp> dvec" ^^ decimal_text d ^^ ";" ]) vector_dimension_range
  ++ [ "" ]
  ++ [ "	// matrix types" ]
  ++ for_all (fun d => [ "	typedef glm::mat<" ^^ decimal_text d ^^ "," ^^ decimal_text d ^^ ",glm::f32,glm::packed_highp> fmat" ^^ decimal_text d ^^ ";" ]) vector_dimension_range
  ++ for_all (fun d => [ "	typedef glm::mat<" ^^ decimal_text d ^^ "," ^^ decimal_text d ^^ ",glm::f64,glm::packed_highp> dmat" ^^ decimal_text d ^^ ";" ]) vector_dimension_range
  ++ [ "" ]
  ++ [ "	// quaternion types";
       "	typedef glm::qua<glm::f32,glm::packed_highp> fquat;";
       "	typedef glm::qua<glm::f64,glm::packed_highp> dquat;";
       "" ]
  ++ for_all (fun d => [ "	typedef glm::ivec" ^^ decimal_text d ^^ " ivec" ^^ decimal_text d ^^ ";" ]) vector_dimension_range
  ++ for_all (fun d => [ "	typedef glm::uvec" ^^ decimal_text d ^^ " uvec" ^^ decimal_text d ^^ ";" ]) vector_dimension_range
  ++ for_all (fun d => [ "	typedef glm::vec" ^^ decimal_text d ^^ " vec" ^^ decimal_text d ^^ ";" ]) vector_dimension_range
  ++ for_all (fun d => [ "	typedef glm::mat" ^^ decimal_text d ^^ " mat" ^^ decimal_text d ^^ ";" ]) vector_dimension_range
  ++ [ "" ].
(** The loops of ISD_DataTypes.py:164-195 and 277-305: the types with their value types and value counts, [f] prints one. *)
Definition for_numbers (f : string -> string -> nat -> list string) : list string :=
  f "bool" "bool" 1
  ++ for_all (fun b => f ("i" ^^ b) ("i" ^^ b) 1) int_bit_range
  ++ for_all (fun b => f ("u" ^^ b) ("u" ^^ b) 1) int_bit_range
  ++ f "float" "float" 1
  ++ f "double" "double" 1
  ++ for_all (fun b => for_all (fun d => f ("i" ^^ b ^^ "vec" ^^ decimal_text d) ("i" ^^ b) d) vector_dimension_range) int_bit_range
  ++ for_all (fun b => for_all (fun d => f ("u" ^^ b ^^ "vec" ^^ decimal_text d) ("u" ^^ b) d) vector_dimension_range) int_bit_range
  ++ for_all (fun d => f ("fvec" ^^ decimal_text d) "float" d) vector_dimension_range
  ++ for_all (fun d => f ("dvec" ^^ decimal_text d) "double" d) vector_dimension_range
  ++ for_all (fun d => f ("fmat" ^^ decimal_text d) "float" (d * d)) vector_dimension_range
  ++ for_all (fun d => f ("dmat" ^^ decimal_text d) "double" (d * d)) vector_dimension_range
  ++ f "fquat" "float" 4
  ++ f "dquat" "double" 4.
(** ISD_DataTypes.py:206-229 *)
Definition data_tail : list string :=
  [ "    };";
    "";
    "// inject hash functions into std";
    "template<>";
    "struct std::hash<ISD::entity_ref>";
    "    {";
    "    std::size_t operator()(ISD::entity_ref const& val) const noexcept";
    "        {";
    "        return std::hash<UUID>{}( UUID( val ) );";
    "        }";
    "    };";
    "";
    "template<>";
    "struct std::hash<ISD::package_ref>";
    "    {";
    "    std::size_t operator()(ISD::package_ref const& val) const noexcept";
    "        {";
    "        return std::hash<HASH>{}( HASH( val ) );";
    "        }";
    "    };" ].
(** ISD_DataTypes_h (ISD_DataTypes.py:28-232), for the base types [l] of the enumeration *)
Definition data_header (l : list base_type) : list string :=
  data_head ++ data_scalars ++ data_limits ++ data_vectors ++ inl_package_ref ++ inl_entity_ref ++ enum_text l
  ++ [ "	// type_information stores information on the standard types in ISD";
       "	template <class T> struct data_type_information;";
       "" ]
  ++ for_numbers info_lines
  ++ info_lines "uuid" "uuid" 1
  ++ info_lines "entity_ref" "entity_ref" 1
  ++ info_lines "hash" "hash" 1
  ++ info_lines "package_ref" "package_ref" 1
  ++ info_lines "string" "string" 1
  ++ data_tail.

(** print_type_information_source (ISD_DataTypes.py:234-252); the loop of lines 238-245 is [repeated] *)
Fixpoint repeated (x : string) (n : nat) : string :=
  match n with 0%nat => "" | 1%nat => x | S m => x ^^ "," ^^ repeated x m end.
Definition static_lines (type value : string) (value_count : nat) : list string :=
  [ "	const " ^^ type ^^ " data_type_information<" ^^ type ^^ ">::zero = " ^^ type ^^ "(" ^^ repeated (value ^^ "_zero") value_count ^^ "); // zero value of " ^^ type;
    "	const " ^^ type ^^ " data_type_information<" ^^ type ^^ ">::inf = " ^^ type ^^ "(" ^^ repeated (value ^^ "_inf") value_count ^^ "); // limit inferior (minimum bound) of " ^^ type ]
  ++ (if String.eqb type "string" then [] else
      [ "	const " ^^ type ^^ " data_type_information<" ^^ type ^^ ">::sup = " ^^ type ^^ "(" ^^ repeated (value ^^ "_sup") value_count ^^ "); // limit superior (maximum bound) of " ^^ type ])
  ++ [ "" ].
(** ISD_DataTypes_cpp (ISD_DataTypes.py:254-313) *)
Definition data_source : list string :=
  [ "// ISD Copyright (c) 2021 Ulrik Lindahl";
    "// Licensed under the MIT license https://github.com/Cooolrik/ISD/blob/main/LICENSE";
    "";
    "#include <glm/glm.hpp>";
    "#include <glm/gtc/type_ptr.hpp>";
    "";
    "#include ""ISD_Types.h""";
    "" ]
  ++ inl_uuid_hash_source ++
  [ "";
    "namespace ISD";
    "    {" ]
  ++ for_numbers static_lines
  ++ for_all (fun t => static_lines t t 1) [ "uuid"; "package_ref"; "hash"; "entity_ref"; "string" ]
  ++ [ "    };" ].

(** A line of ISD_DataTypes.py:332-377: returning the address of the value, or what glm::value_ptr gives. *)
Definition ptr_line (const value type : string) (result : string) : list string :=
  [ "	inline " ^^ const ^^ value ^^ " *value_ptr( " ^^ const ^^ type ^^ " &value ) { return " ^^ result ^^ "; }" ].
(** ISD_DataValuePointers_h (ISD_DataTypes.py:315-380) *)
Definition pointers_header : list string :=
  [ "// ISD Copyright (c) 2021 Ulrik Lindahl";
    "// Licensed under the MIT license https://github.com/Cooolrik/ISD/blob/main/LICENSE";
    "";
    "#pragma once";
    "";
    "#include ""ISD_Types.h""";
    "";
    "#include <glm/gtc/type_ptr.hpp>";
    "";
    "namespace ISD";
    "    {";
    "	// item pointer functions, returns a pointer to the first item of each type";
    "" ]
  ++ for_all (fun b => for_all (fun c => ptr_line c ("i" ^^ b) ("i" ^^ b) "&value") nonconst_const_range) int_bit_range
  ++ [ "" ]
  ++ for_all (fun b => for_all (fun c => ptr_line c ("u" ^^ b) ("u" ^^ b) "&value") nonconst_const_range) int_bit_range
  ++ [ "" ]
  ++ for_all (fun f => for_all (fun c => ptr_line c f f "&value") nonconst_const_range) float_type_range
  ++ [ "" ]
  ++ for_all (fun b => for_all (fun d => for_all (fun c => ptr_line c ("i" ^^ b) ("i" ^^ b ^^ "vec" ^^ decimal_text d) "glm::value_ptr(value)") nonconst_const_range) vector_dimension_range) int_bit_range
  ++ [ "" ]
  ++ for_all (fun b => for_all (fun d => for_all (fun c => ptr_line c ("u" ^^ b) ("u" ^^ b ^^ "vec" ^^ decimal_text d) "glm::value_ptr(value)") nonconst_const_range) vector_dimension_range) int_bit_range
  ++ [ "" ]
  ++ for_all (fun d => for_all (fun c => ptr_line c "float" ("fvec" ^^ decimal_text d) "glm::value_ptr(value)") nonconst_const_range) vector_dimension_range
  ++ for_all (fun d => for_all (fun c => ptr_line c "double" ("dvec" ^^ decimal_text d) "glm::value_ptr(value)") nonconst_const_range) vector_dimension_range
  ++ [ "" ]
  ++ for_all (fun d => for_all (fun c => ptr_line c "float" ("fmat" ^^ decimal_text d) "glm::value_ptr(value)") nonconst_const_range) vector_dimension_range
  ++ for_all (fun d => for_all (fun c => ptr_line c "double" ("dmat" ^^ decimal_text d) "glm::value_ptr(value)") nonconst_const_range) vector_dimension_range
  ++ [ "" ]
  ++ for_all (fun c => ptr_line c "float" "fquat" "glm::value_ptr(value)") nonconst_const_range
  ++ for_all (fun c => ptr_line c "double" "dquat" "glm::value_ptr(value)") nonconst_const_range
  ++ [ "" ]
  ++ for_all (fun t => for_all (fun c => ptr_line c t t "&value") nonconst_const_range) [ "uuid"; "hash"; "string" ]
  ++ [ "    };" ].
