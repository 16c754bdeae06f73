# Formal model of Cooolrik/ISD in Coq 8.16

(The plan was written before the proofs; this version describes what was built. Per-property status is in
MANIFEST.json, wrong-program experiments in seeded/LOG.jsonl.)

## Approach

* The code is modelled function by function as total Gallina functions.  C++ objects
  are modelled by their memory image on the only supported target (x86-64, little endian, MSVC):
  an `fvec3` is a list of 12 bytes, a `u32` the number it denotes or its 4 little-endian bytes.
* `u64`/`size_t` arithmetic is done in `N` and wrapped `mod 2^64` explicitly wherever the code
  can wrap (positions, block sizes, counts).
* Outcomes: `Done x` (the call returned x), `Throw` (a C++ exception: bad_alloc, length_error,
  runtime check), `Undef` (undefined behaviour: out-of-bounds copy, null dereference, dangling
  handle).  Undefined behaviour is therefore never assumed away.
* The release build is modelled: `ISDSanityCheck*DebugMacro` are no-ops. `Debug.v` models the debug build of the
  reader, the writer and the graph validation, `DebugClasses.v` that of the classes; C50 and C57 prove how far they agree with the release build.
* Indeterminate stack bytes are an oracle (`e_junk`, `junk`), allocation failure is an oracle (limits).
* External calls (OS file calls, SHA-256 library, locale conversion, mutex) are parameters of the
  functions that use them; the theorems quantify over them.
* Each topic has four kinds of files: the model (`X.v`, definitions citing /repo file:lines), the
  specification (`XSpec.v`, independent of the model's helpers), the lemmas (`XFacts.v`, ...), and
  `Properties_X.v` with only the property theorems, their `Print Assumptions` and concrete witnesses.

## Properties, model, and proof method

| id | model | specification | theorems | proof |
|----|-------|---------------|----------|-------|
| C01-C04 | `Bytes.v` `Values.v` `Streams.v` | `FileSpec.v` `ReadSpec.v` | `Properties_Streams.v` | refinement to an abstract byte file, induction over call histories; invariant for reading |
| C05-C10, C13, C35 | `Types.v` `EntityWriter.v` `EntityReader.v` | `Format.v` `Accept.v` `Damage.v` `Items.v` `ItemSpec.v` | `Properties_Entity.v` | append/consume lemmas for each template, then per type and container, induction over item lists; `_refuted` witnesses |
| C08, C11, C12 | `Sections.v` `Protocol.v` (writer/reader object chains with handles) | `Documents.v` `DocSpec.v` `ProtocolSpec.v` | `Properties_Sections.v` | induction over document trees; step invariants |
| C14 | `Containers.v` | `ContainerSpec.v` | `Properties_Containers.v` | programs over container variables against a mathematical value |
| C15-C18 | `StdSet.v` `Graph.v` | `GraphSpec.v` | `Properties_Graph.v` | DFS/BFS invariants against a path specification; codec lemmas |
| C19-C21 | `Table.v` `IndexedVector.v` `Classes.v` | `TableSpec.v` `IndexedVectorSpec.v` | `Properties_Table.v` | histories against a finite map, for every unordered_map implementation |
| C22 | `DynTypes.v` | (list of registered ids) | `Properties_Varying.v` | 577-slot table computed, sweep over registered ids and a probing invariant for all others |
| C23, C24 | `Varying.v`, `VaryingIO.v` | `VaryingSpec.v`, `VaryingIOSpec.v` | `Properties_Varying.v`, `Properties_VaryingIO.v` | object/heap state machine with lifetimes; codec lemmas |
| C25 | `ThreadMap.v` | `ThreadMapSpec.v` | `Properties_Threads.v` | interleaving semantics with a lock; linearization by the order of the calls' effects |
| C26 | `Hex.v` | `HexSpec.v` | `Properties_Hex.v` | injectivity by decoding |
| C27, C28, C36 | `Sha256.v` `Loader.v` | `Sha256Spec.v` `ShaSpec.v` `LoaderSpec.v` | `Properties_Loader.v` | decision logic over all OS behaviours, induction over read loops |
| C29 | `Packet.v` | `PacketSpec.v` | `Properties_Packet.v` | step by step over every header; totality over every byte string |
| C37 | (all of the above readers) | `TruncSpec.v` | `Properties_Truncation.v` | every reader fails on a proper prefix; composition lemma `cuts_seq`, induction over documents and entity definitions |
| C38 | (all class readers, sections) | `ReadAnySpec.v` | `Properties_ReadAny.v` | weakest preconditions with three outcomes; invariant: the reader object exists in the chain and child ids are fresh; induction over class definitions (`ReadAny.v`), with the calls a class makes (`s_asks`) and the place of the damage carried along; `ReadValid.v`: reads keep the destination an object of its type |
| C39 | `Loader.v`, `Sha256.v`, class writers and readers | `LoaderSpec.v`, `EntitySpec.v` | `Properties_Store.v` | composition of C27, C28 and C32 (`StoreFacts.v`); an intact file has one content; collision exhibited by decidable equality |
| C40 | class writers and readers | `CanonSpec.v`, `EntitySpec.v` | `Properties_Store.v` | Read is a function: two written forms with a common stream are read to the same object (`CanonFacts.v`); induction over class definitions; sums over permuted tables (`SizeFacts.v`) |
| C41 | `Objects.v` (constructors, assignments and moves of every class; what the library leaves in moved-from objects is a parameter) | `ObjectSpec.v` | `Properties_Objects.v` | mutual induction over entity definitions for self-assignment and moves, then induction over programs (`ObjectFacts.v`) |
| C42 | `TableHeap.v` (tables, references and a heap of entities with addresses) | `TableHeapSpec.v` (finite maps; references are names of entries) | `Properties_TableHeap.v` | simulation relation `represents` (unique owners, no leak, freshness), one lemma per kind of change (`TableHeapFacts.v`), step lemmas and induction over programs (`TableHeapProofs.v`) |
| C43 | `Sections.v`, `Protocol.v` | `SectionEndSpec.v` (further calls; what an end call may do) | `Properties_SectionEnd.v` | one lemma on what a call may do to the chain of open readers (`SectionEndFacts.v`), then induction over the calls |
| C44 | `Refs.v` (entity_ref, package_ref, make_ref as programs over objects) | `RefSpec.v` (abstract handles: null, made by the n-th call, given) | `Properties_Refs.v` | simulation between objects and handles, induction over programs, any replies of ::UuidCreate |
| C45 | `Sections.v`, `Protocol.v` | `WriterEndSpec.v` (`sized`: eight bytes replaced by the number of bytes behind them; `same_between`) | `Properties_WriterEnd.v` | partial correctness of every writing template (`WriterAppend.v`), an invariant on where the open size fields are (`WriterEndFacts.v`), induction over the calls |
| C46 | `GenFiles.v` (write_lines_to_file effect by effect, a run with a crash point, inline_file) | `GenFilesSpec.v` (`updated`, `halfway`, `runs`, `lines_of`) | `Properties_GenFiles.v` | one file by cases, then induction over the targets and over the runs |
| C47 | `Packet.v`, `EntityGen.v`, `Classes.v` | `PacketSpec.v`, `EntitySpec.v` | `Properties_PacketObject.v` | composition of C29's header lemma with the class round trip at any stream position |
| C48 | `GenTypes.v` (numbering loops, insertion and emitted lookup, for any list of types) | `GenTypesSpec.v` | `Properties_GenTypes.v` | invariant of linear probing (no empty slot between a type's hash and its place), induction over the list; the project's list as an instance equal to `DynTypes.v` |
| C49 | `Parts.v` (programs of writer/reader calls and class functions) | `PartsSpec.v`, `PartsAnySpec.v` | `Properties_Parts.v` | induction over programs from the class round trips (C32), sections (C11) and cuts (C37); any content: induction over programs with the weakest preconditions of C38 (`PartsAny.v`) |
| C50 | `Debug.v` (the functions with their debug checks) | `DebugSpec.v` | `Properties_Debug.v` | each check holds by the stream and header lemmas (C05, C07, C13), programs by induction |
| C51 | the class functions of `EntityGen.v` with two definitions | `EvolveSpec.v` (changes, and when an object says what another says) | `Properties_Evolve.v` | induction over the change: each read function either delivers the related value and stops behind the data, or no related value exists and it fails (`decides`); blocks of other types and names are rejected (C07) |
| C52 | `GenText.v` (the Python functions that put the text together, string by string), `CppText.v` (a lexer and parser), `CppSem.v` (which files compile and what their functions do) | `GenTextSpec.v` (sensible definitions, the class a definition stands for, what it is that a text means it) | `Properties_GenText.v` | lexing and parsing of the text for arbitrary names (`GenLex.v`, `GenParse.v`, `GenDecls.v`, `GenHeader.v`), typing of the syntax trees (`GenCheck.v`), execution by induction over the variables (`GenRun.v`) |
| C53 | `GenRW.v` (the text of ISD_EntityWriter.py and ISD_EntityReader.py for any list of types), `CppFun.v` (a parser for the specialisations and an evaluator for their statements), `GenRWHost.v` (what the files are compiled against) | `GenRWSpec.v` (proper lists, which functions there must be, what they must do) | `Properties_GenRW.v` | every function is parsed once with symbolic names (`GenRWAst.v`, `GenRWParse.v`), files by composition (`GenRWFile.v`), evaluation for arbitrary objects with an invariant for the conversion loops (`GenRWEval.v`, `GenRWTheorems.v`), the project's list by a sweep over its 54 entries (`GenRWProject.v`) |
| C54 | `GenDyn.v` (the text of ISD_DynamicTypes.py, ISD_CombinedTypes.py and of the enumeration in ISD_DataTypes.py for any list of types), `CppDyn.v` (a parser, a checker and an evaluator for the C++ of these files), `GenTypes.v` (the table) | `GenDynSpec.v` (proper lists, which ids stand for which type, what the calls must do) | `Properties_GenDyn.v` | parsing with symbolic names (`GenDynAst.v`, `GenDynParse.v`, `GenDynFile.v`), the checks of the compiler by injectivity of the generated names (`GenDynCheck.v`), the lookup loop by induction against the probe of C48 (`GenDynFind.v`), member functions and functions symbolically (`GenDynRun.v`, `GenDynCalls.v`, `GenDynTheorems.v`), the project's list against C22 and C53 (`GenDynProject.v`) |
| C55 | `GenData.v` (the text of ISD_DataTypes.py with the inlined files, line by line), `CppData.v` (a parser and an evaluator for the C++ of these files, with the types and macros of the libraries they use), `Keys.v`, `Refs.v` | `GenDataSpec.v` (names, components, the numbers in an object incl. IEEE 754, orders) | `Properties_GenData.v` | the project's text is compiled by computation in the kernel (`GenDataFacts.v`); for all values: bounds of numerals by arithmetic, order of bytes by induction; operators and hash functions by symbolic evaluation with one lemma per construct (`GenDataOps.v`) |
| C56 | `GenAll.v` (CodeGenerator.py and the run() functions: all files with their lines in the order they are written, and the text of the generated tests), on top of `GenFiles.v`, `GenText.v`, `GenRW.v`, `GenData.v`, `GenDyn.v` | `GenAllSpec.v` (`seen`: a file as a compiler reads it; `project_says`: the conclusions of C52-C55 about the files seen; `generable`, `generated`) | `Properties_GenAll.v` | no generated line has a line feed or carriage return and all paths differ (induction over lists, entities, the table), so C46 gives the lines back from the disk; then C52-C55 |
| C57 | `DebugClasses.v` (Write, Read and Validate of all classes on top of `Debug.v`, with the checks in the class functions) | `DebugClassesSpec.v` (`s_short`, `s_nodes`, `cut_array`), `ReadAnySpec.v` | `Properties_DebugClasses.v` | Write and Validate: equality, by induction on the class; Read: simulation along the positions `ReadAny.v` establishes, one call differing only as C50 says |
| C58 | `TestThreads.v`, `TestSections.v`, `TestFuzz.v`, `TestGraphs.v`, `TestGraphsIO.v`, `TestValues.v`, `TestStream.v`, `TestDict.v`, `TestTypes.v`, `TestDyn.v` (the tests as programs, rand() arbitrary) | `TestSectionsSpec.v` (`doc`, `obj_ok`, `depth`, `no_nan`), `ThreadMapSpec.v`, `Damage.v`, `TestGraphsSpec.v` (`tree_nodes`, `tree_edges`), `TestGraphsIOSpec.v`, `TestValuesSpec.v`, `TestStreamSpec.v`, `TestDictSpec.v`, `TestDynSpec.v` | `Properties_Tests.v`, `Properties_TestDict.v`, `Properties_TestTypes.v`, `Properties_TestDyn.v` | graphs: the edges of a tree go forward in preorder (no cycle), its root is the only source and reaches all; then the log part by part (C15, C16), and C18 at any point of the stream; threads: keys carry the thread number, so C25_private_keys; sections: simulation of Write and Read by the calls of documents (C11); fuzz: C13 along the positions |
| C59 | `TestSections.v` (`read` with a bound on the calls inside each other; running out of it is Undef, a stack overflow) | `TestSectionsAnySpec.v` (`obj_least`, `name_damaged`, `array_cut`, `too_many`), `TestSectionsSpec.v` (`obj_ok`, `depth`), `Damage.v` | `Properties_TestSectionsAny.v` | any bytes: induction on the stack with the calls on arbitrary bytes of C38 and C49; every call uses up at least `obj_least` bytes before it calls itself. Deep: the simulation of C58 up to the first object that is too deep |
| C60 | `EntityReader.v`, `Sections.v`, `Documents.v`, `EntityGen.v` | `WrongOrderSpec.v` (`swapped`, `plain_nodes`, `below_4g`), `WrongOrderClassSpec.v` (`order_blind`, `swapped_object`), `Format.v` | `Properties_WrongOrder.v` | the reversed size field of a large block is at least 2^32 and does not wrap; a small block of one order is the block of the reversed value in the other, so it is read by the round trip of C05; induction over the document and the variables; all 324 type numbers of Varying by computation |
| C61 | `StreamHeap.v` (areas with addresses, `wobj` and `robj` with pointers, `m_run`) | `StreamHeapSpec.v` (`swriter`, `sview`, `sees`, `s_run`), `FileSpec.v`, `ReadSpec.v` | `Properties_StreamHeap.v` | `StreamHeapFacts.v`: each function on memory simulates the one of `Streams.v`, and its effect on the areas (`tr`); `StreamHeapProps.v`: an invariant (ownership, no leak, which views are valid) kept by every step, induction over the program. Addresses are not used again; copying a write stream is modelled (`SCopy`) and refuted, not specified |
| C30 | `Validator.v` | `ValidatorSpec.v` | `Properties_Validator.v` | operation sequences; refuted clause |
| C31-C33 | `EntityGen.v` (what the generator emits, for every entity definition) | `EntitySpec.v` `FullSpec.v` `ValueEqSpec.v` | `Properties_Generated.v` | mutual induction over entity definitions |
| C34 | `Keys.v` | `KeySpec.v` | `Properties_Keys.v` | total-order proofs on memory images |

Not expressible: timing/performance, the real memory layout of MSVC containers, OS behaviour beyond
the oracles, the log text written on failures.

## What is modelled, simplified, or left out

Modelled (source -> files): `ISD_MemoryWriteStream.h`, `ISD_MemoryReadStream.h` -> Streams; `ISD_Types.h/.cpp`
-> Bytes, Values, Types, Hex, Loader, Refs (with `InlinedCode/ISD_entity_ref.inl`, `ISD_package_ref.inl`); `ISD_EntityWriterTemplates.inl`, `ISD_EntityReaderTemplates.inl` and the
EntityWriter/EntityReader code that `CodeGenerator/Generators` and `CodeGenerator/InlinedCode` emit -> EntityWriter,
EntityReader, Sections, Protocol; `ISD_EntityValidator.h` -> Validator; `ISD_DirectedGraph.h` -> Graph;
`ISD_EntityTable.h` -> Table; `ISD_IndexedVector.h` -> IndexedVector; `ISD_Varying.h/.cpp`, `ISD_DynamicTypes.h` ->
Varying, DynTypes; `ISD_optional_value.h`, `ISD_optional_vector.h`, `ISD_idx_vector.h`, `ISD_optional_idx_vector.h` ->
Containers; `ISD_thread_safe_map.h` -> ThreadMap; `ISD_SHA256.h/.cpp` -> Sha256; `ISD_EntityLoader.h/.cpp` -> Loader;
`ISD_PacketSerializer.cpp` -> Packet; `CodeGeneratorHelpers.py` -> GenFiles, GenTypes; `EntityGenerator.py`, `Entities/__init__.py` -> GenText (the text itself) and EntityGen (the
classes); `ISD_EntityWriter.py`, `ISD_EntityReader.py` -> GenRW (the text) and EntityWriter, EntityReader; `ISD_DynamicTypes.py`, `ISD_CombinedTypes.py` -> GenDyn (the text), GenTypes and DynTypes; `ISD_DataTypes.py`, `InlinedCode/uuid_hash_*.inl`, `InlinedCode/ISD_*_ref.inl` -> GenData (the text), Types, Keys, Refs, ValueEq. (`ISD_EntityLoader.cpp` and `ISD_TestNode.h` are not part of ISD.vcxproj: dead code.)

Simplifications (each is repeated in the comment of the definition concerned):
* writer, reader and Varying handles are unique numbers; an address is never reused;
* `std::vector` is a list, `std::set`/`std::map` a sorted list, `std::unordered_map` a list in iteration order together
  with an arbitrary implementation of insertion and erasure (`umap_impl`), about which the theorems quantify;
* `unique_ptr` ownership in tables is modelled as a value in Table.v; TableHeap.v models it with addresses and a heap and
  C42 proves that the values are right; Varyings are modelled both as values and with a heap, allocation by allocation;
* in the thread model a mutex is an owner field, any interleaving of steps is allowed, and the effect of a map
  operation takes place at the end of the call; data races are tracked;
* glm `==`/`!=` is component-wise IEEE comparison (Flocq is not used; the comparison of bit patterns is defined
  in ValueEq.v); conversions of `size_t` ids are exact;
* librock_sha256 is a missing submodule: the theorems quantify over every library that computes FIPS 180-4 SHA-256
  (`computes_sha256`), which Sha256Spec.v defines and for which a witness library is given;
* OS calls are a parameter record; `mbstowcs_s` is a parameter; `new` fails only where said so;
* searches of the graph and read loops take a step budget; the theorems hold for every budget above a stated bound, and
  state that the result is then the one of the code;
* a thrown exception carries no state except for the write stream (C01);
* C52: the C++ the generated files are written in is the part of the language CppText.v parses; CppSem.v gives it a
  checker and an evaluator. These are the trusted reading of C++ there: names in scope, which calls are well typed,
  what a statement does; the class templates of the library are as in EntityGen.v. A class may be used in a typedef if it
  is declared (included or forward declared) in the header. Template arguments are nested at most 4 deep and a template
  has at most 16 arguments and flags (the parser's recursion is bounded by a constant).

* C53: only the explicit specialisations in the four files are given a meaning (the rest must have matching braces); they
  are evaluated by CppFun.v, a trusted reading of C++: `reserve` does nothing, a moved-from index vector is empty, an
  uninitialised local variable holds anything of its size, `values()`/`index()` of an empty optional container is
  undefined, objects passed by reference are passed back as they are at the end of the call, and EntityReader may use the
  private constructors of the references. Names the functions use themselves are not data types (`rw_names`).

* C54: the evaluator CppDyn.v is a trusted reading of C++ for these files: pointers are addresses of objects with a type
  and a container, used as another type they are undefined; a loop that needs more rounds than it is given has no meaning (the theorem
  gives more than the table has places); what is sent to the log is skipped; `>=` is two tokens; the specialisations of
  clear_combined_type are linked by name (C++ wants them declared before they are used, which the generated header does not
  do); enumerators stand for their values; `data_type_information<T>::zero` is a parameter, for the project it is the
  value-initialised object (that the text says so is part of C55). Names that the files use themselves are not data types (`dyn_names`).

* C56: a path is the text passed to open(); paths that differ in case are different files (on Windows they are not, so
  entities whose names differ in case only are not covered); the inlined files are constants; ISD_Types.h with the enumeration of the containers is
  hand-written and taken from the repository. The text of the tests in DynamicTypesTests.cpp is not given a meaning (what they do is modelled for C58).
* C55: the evaluator CppData.v is a trusted reading of C++ for these files: preprocessor lines are skipped and all
  conditional parts are taken; names are looked up without regard to namespaces; functions on streams are skipped; a
  conversion to an integer type is modulo its size, also in braces; static local variables have their first value (Refs.v
  has their changes); memcmp gives -1, 0 or 1; `==` of GUIDs is that of guiddef.h; glm objects are their components, one
  after the other, quaternions are constructed from w, x, y, z and store x, y, z, w; 0.0 and 0.0f are the only literals
  with a point; macros of <cstdint> and <cfloat> as in the standards. Only the project's list of types is compiled: the
  generator of this file has the types written out.

Not modelled: `ISD_TestNode.h`, the test programs except those of C58 (and of these the key types float and double of the table tests, the literal cases of `Tests/TypeTests.cpp`), `TestHelpers` except what those use; `ISD_Log.h` text; the text of the
generated tests; performance.

## Trusted base

* Coq's kernel (8.16.1), including `vm_compute` conversion.
* `Print Assumptions` stands below every property theorem and prints "Closed under the global context" for each: no
  axiom is used. (vcheck also lists the `Coq.ssr.ssrunder` module-type axioms of the standard library; those are only
  loaded by a library file, no theorem depends on them.)
* The reading of the C++/Python source recorded in the comments, and the simplifications above.

## Theorem naming

`Cxx_...` proves the property or a clause of it; `..._refuted` is a proved counterexample to a clause the English
statement or a user might expect (a finding about the code); `..._partial` proves only part of the property.
