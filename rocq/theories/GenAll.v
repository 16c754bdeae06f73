(** * GenAll: a whole run of the code generator. Model of CodeGenerator/CodeGenerator.py and of the run() functions of
    CodeGenerator/Generators: which files are written with which lines, in which order. The lines are those of GenText.v (entities),
    GenRW.v (writer and reader), GenData.v (data types), GenDyn.v (combined and dynamic types) and, here, the generated tests; how lines
    get into a file is in GenFiles.v. A path is the text the generator passes to open(). Simplified: the inlined files
    (CodeGenerator/InlinedCode) are constants of GenData.v; paths that differ in case are different files. *)
From Coq Require Import Strings.String.
From Verif Require Import Base Types GenText GenRW GenTypes GenDyn GenData GenFiles.
Local Open Scope string_scope.
Local Open Scope list_scope.

(** The beginning of the generated tests (ISD_DynamicTypes.py:234-260) *)
Definition tests_head : list string :=
  [ "// ISD Copyright (c) 2021 Ulrik Lindahl";
    "// Licensed under the MIT license https://github.com/Cooolrik/ISD/blob/main/LICENSE";
    "";
    "";
    "#include ""pch.h""";
    "#include ""CppUnitTest.h""";
    "";
    "using namespace Microsoft::VisualStudio::CppUnitTestFramework;";
    "";
    "#include ""..\ISD\ISD_DynamicTypes.h""";
    "#include <glm/glm.hpp>";
    "#include <glm/ext.hpp>";
    "";
    "namespace TypeTests";
    "    {";
    "    TEST_CLASS(DynamicTypesTests)";
    "        {";
    "        STANDARD_TEST_INIT()";
    "";
    "        template<class _Ty> void DynamicValueTester()";
    "            {";
    "            constexpr ISD::data_type_index type_index = ISD::data_type_information<_Ty>::type_index;";
    "            void *dataA = {};";
    "            void *dataB = {};";
    "            bool ret = {};";
    "" ].
(** What is tested of one container (ISD_DynamicTypes.py:263-297) *)
Definition tests_container (c : ctype) : list string :=
  let n := ct_name c in
  [ "            // test container type: " ^^ n ^^ " ";
    "            constexpr ISD::container_type_index ct_" ^^ n ^^ " = container_type_index::ct_" ^^ n ^^ ";";
    "";
    "            // create objects of the type, one dynamically typed in the heap and one statically typed on the stack";
    "            std::tie(dataA,ret) = ISD::dynamic_types::new_type( type_index , ct_" ^^ n ^^ " );";
    "            Assert::IsTrue( ret );" ]
  ++ (if is_template c then ["            ISD::" ^^ n ^^ "<_Ty> ct_" ^^ n ^^ "_valueB;"]
      else ["            _Ty ct_" ^^ n ^^ "_valueB = ISD::data_type_information<_Ty>::zero;"])
  ++
  [ "            dataB = &ct_" ^^ n ^^ "_valueB;";
    "";
    "            // clear A, make sure they match";
    "            Assert::IsTrue( ISD::dynamic_types::clear( type_index , ct_" ^^ n ^^ " , dataA ) );";
    "            Assert::IsTrue( ISD::dynamic_types::equals( type_index , ct_" ^^ n ^^ " , dataA, dataB ) );";
    "";
    "            // give A a random non-zero value" ]
  ++ (if is_template c then ["            random_nonzero_" ^^ n ^^ "<_Ty>( *((" ^^ n ^^ "<_Ty>*)dataA) );"]
      else ["            random_nonzero_value<_Ty>( *((_Ty*)dataA) );"])
  ++
  [ "";
    "            // try comparing, clearing and copying";
    "            Assert::IsFalse( ISD::dynamic_types::equals( type_index , ct_" ^^ n ^^ " , dataA, dataB ) );";
    "            Assert::IsTrue( ISD::dynamic_types::copy( type_index , ct_" ^^ n ^^ " , dataB, dataA ) );";
    "            Assert::IsTrue( ISD::dynamic_types::equals( type_index , ct_" ^^ n ^^ " , dataA, dataB ) );";
    "            Assert::IsTrue( ISD::dynamic_types::clear( type_index , ct_" ^^ n ^^ " , dataA ) );";
    "            Assert::IsFalse( ISD::dynamic_types::equals( type_index , ct_" ^^ n ^^ " , dataA, dataB ) );";
    "            Assert::IsTrue( ISD::dynamic_types::copy( type_index , ct_" ^^ n ^^ " , dataB, dataA ) );";
    "            Assert::IsTrue( ISD::dynamic_types::equals( type_index , ct_" ^^ n ^^ " , dataA, dataB ) );";
    "";
    "            // delete the heap allocated data";
    "            Assert::IsTrue( ISD::dynamic_types::delete_type( type_index , ct_" ^^ n ^^ " , dataA ) );";
    "" ].
(** DynamicTypesTests_cpp (ISD_DynamicTypes.py:232-317) *)
Definition tests_lines (l : list base_type) : list string :=
  tests_head ++ flat_map (fun k => tests_container (snd k)) containers
  ++
  [ "            }";
    "        TEST_METHOD( DynamicTypes )";
    "            {";
    "            setup_random_seed();";
    "            for( uint pass_index=0; pass_index<(2*global_number_of_passes); ++pass_index )";
    "                {" ]
  ++ flat_map (fun b => map (fun v => let T := vr_impl v in "            DynamicValueTester<" ^^ T ^^ ">();") (bt_variants b)) l
  ++
  [ "                }";
    "            }";
    "        };";
    "    };" ].

(** Where the files of the library are (the arguments of write_lines_to_file). *)
Definition isd_path (name extension : string) : string := "../ISD/ISD_" ^^ name ^^ extension.
Definition tests_path : string := "../Tests/DynamicTypesTests.cpp".
(** The files of an entity (EntityGenerator.py:123, 403, 406-409) *)
Definition entity_targets (e : entity) : list (string * list string) :=
  [ (isd_path (e_name e) ".h", header_lines e); (isd_path (e_name e) ".cpp", source_lines e) ].
(** All files, in the order they are written (CodeGenerator.py:7-12 and the run() functions: ISD_EntityWriter.py:241-243,
    ISD_EntityReader.py:296-298, ISD_DataTypes.py:381-384, ISD_CombinedTypes.py:75-77, ISD_DynamicTypes.py:319-321). [dyn]: the lines of
    ISD_DynamicTypes.cpp. *)
Definition targets (l : list base_type) (dyn : list string) (ents : list entity) : list (string * list string) :=
  [ (isd_path "EntityWriter" ".h", w_header l); (isd_path "EntityWriter" ".cpp", w_source l);
    (isd_path "EntityReader" ".h", r_header l); (isd_path "EntityReader" ".cpp", r_source l);
    (isd_path "DataTypes" ".h", data_header l); (isd_path "DataTypes" ".cpp", data_source); (isd_path "DataValuePointers" ".h", pointers_header);
    (isd_path "CombinedTypes" ".h", comb_header l); (isd_path "CombinedTypes" ".cpp", comb_source l);
    (isd_path "DynamicTypes" ".cpp", dyn); (tests_path, tests_lines l) ]
  ++ flat_map entity_targets ents.
(** Paths and lines as bytes. *)
Definition as_bytes (t : string * list string) : list byte * list (list byte) :=
  (list_byte_of_string (fst t), map list_byte_of_string (snd t)).
(** A run (CodeGenerator.py:7-12), stopped after [k] effects on the files or finished; None: the step budget [n] for the table of the
    dynamic types was used up (ISD_DynamicTypes.py:11-20). *)
Definition run_generator (pl : platform) (chunk : list byte -> list (list byte)) (n : nat) (l : list base_type) (ents : list entity) (k : nat) (fs : files) :
  option (bool * files) :=
  match dyn_source n l with
  | None => None
  | Some dyn => Some (generate pl chunk (map as_bytes (targets l dyn ents)) k fs)
  end.
