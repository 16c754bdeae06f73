{"id": "C01", "title": "Write stream behaves as a growable byte file", "statement": "Any sequence of Write / SetPosition / SetFlipByteOrder calls on a MemoryWriteStream, as long as no allocation fails, leaves GetData()/GetSize()/GetPosition() exactly as the same sequence would leave a plain byte file: a write at position p overwrites bytes p..p+n-1, extends the size only when it passes the end, keeps every other byte, moving past the end fills with zero bytes, and the re-allocations in between never lose or alter a byte.", "quantifier": "every initial allocation size, every finite sequence of operations with any arguments, in both byte orders", "why_tests_cant": "tests write a few dozen values into a 64MB buffer and never cross a reallocation; the claim ranges over all histories and every point at which the buffer may be re-allocated", "anchors": ["ISD/ISD_MemoryWriteStream.h: ReserveForSize, Resize, WriteRawData, WriteValues, SetPosition"]}
{"id": "C02", "title": "Stream values round trip, both byte orders", "statement": "Values of any of the scalar kinds (8/16/32/64 bit integers, float and double bit patterns, uuid, hash) written one after another through MemoryWriteStream are returned bit-identically and in order by the corresponding sequence of MemoryReadStream reads when both streams have the same FlipByteOrder setting, and the reader ends exactly where the writer ended.", "quantifier": "every sequence of kinds and values, both settings of the byte order flag", "why_tests_cant": "2^64 values per kind and unboundedly many sequences", "anchors": ["ISD/ISD_MemoryWriteStream.h: Write", "ISD/ISD_MemoryReadStream.h: Read", "ISD/ISD_Types.h: swap_byte_order"]}
{"id": "C03", "title": "Wire format is byte-order exact", "statement": "With FlipByteOrder off an n-byte integer v is stored least significant byte first, with it on most significant byte first; uuids are stored in the big-endian (printing) order and hashes as raw bytes regardless of the setting; hence a stream written with one setting and read with the other yields byte-reversed integers but unchanged uuids and hashes, and value_from_bigendian/bigendian_from_value/swap_byte_order are mutually inverse.", "quantifier": "every value of every width", "why_tests_cant": "cross-machine compatibility is a claim about all values; tests sample", "anchors": ["ISD/ISD_Types.h: value_from_bigendian, bigendian_from_value, swap_byte_order", "ISD/ISD_MemoryWriteStream.h: Write(uuid)", "ISD/ISD_MemoryReadStream.h: Read(uuid)"]}
{"id": "C04", "title": "Read stream stays inside its buffer", "statement": "A MemoryReadStream never reads outside its buffer, its position never exceeds its size, a short read returns exactly the number of complete items available and SetPosition accepts exactly the positions up to the size, for every sequence of calls whose requested byte counts do not wrap the 64-bit position. (Without that side condition the claim is false: a count near 2^64 wraps the end position and is not capped.)", "quantifier": "every buffer, every sequence of reads and seeks", "why_tests_cant": "memory safety over all call sequences and counts", "anchors": ["ISD/ISD_MemoryReadStream.h: ReadRawData, ReadValues, SetPosition, Peek, IsEOF"]}
{"id": "C05", "title": "Single values round trip through the entity writer and reader", "statement": "For every one of the 54 supported data types, EntityWriter::Write(key,value) followed by EntityReader::Read of the same type and key returns true and yields the identical value; optional_value additionally preserves the absence of a value; exactly the bytes written are consumed.", "quantifier": "every type, every value (all bit patterns, all strings), every key of at most 40 bytes, both byte orders, any surrounding stream contents", "why_tests_cant": "value spaces are infinite (strings) or 2^1024 (dmat4)", "anchors": ["ISD/ISD_EntityWriterTemplates.inl: write_single_value", "ISD/ISD_EntityReaderTemplates.inl: read_single_item", "CodeGenerator/Generators/ISD_EntityWriter.py", "CodeGenerator/Generators/ISD_EntityReader.py"]}
{"id": "C06", "title": "Arrays and indexed arrays round trip", "statement": "For every supported data type, vector, optional_vector, idx_vector and optional_idx_vector written under a key and read back into an (empty) destination of the same type under the same key give true and the same items, the same 32-bit indices and the same present/absent state, and consume exactly the bytes written.", "quantifier": "every type, every length including 0, every item and index value, both byte orders", "why_tests_cant": "unbounded lengths; bool packing has 8 phase cases per length", "anchors": ["ISD/ISD_EntityWriterTemplates.inl: write_array, write_array_metadata_and_index", "ISD/ISD_EntityReaderTemplates.inl: read_array, read_array_metadata_and_index"]}
{"id": "C07", "title": "Null, empty and default are never confused", "statement": "An absent optional value/array, a present empty string or array, and a present value are read back as three distinguishable states; reading an absent value into a non-optional destination fails.", "quantifier": "every type and container, every value", "why_tests_cant": "needs every value (no value's encoding may collide with the null encoding)", "anchors": ["ISD/ISD_EntityReaderTemplates.inl: read_single_item, end_read_empty_large_block", "CodeGenerator/Generators/ISD_EntityReader.py"]}
{"id": "C08", "title": "Every written block is self-delimiting", "statement": "Every value, array and section written occupies exactly the number of bytes stated in its own header (u8 size for value types below 0x40, u64 size for the others), so that a reader that knows only the type byte and size can skip it and land on the next block.", "quantifier": "every value, array, section and nesting", "why_tests_cant": "all values and nesting depths", "anchors": ["ISD/ISD_EntityWriterTemplates.inl: begin_write_large_block, end_write_large_block, write_single_value", "ISD/ISD_Types.h: ValueType comments"]}
{"id": "C09", "title": "Reads of the wrong type or key are rejected", "statement": "If the next block in the stream was written by the entity writer, and EntityReader::Read under a key of 1 to 40 bytes returns true, then the block has the value type asked for; it has the key asked for if it is a string or an array, or if both keys have the same length; and if it holds a value, it has the number and size of components and the presence of an index asked for. So other types, and other keys in these cases, are rejected. (Without the condition on the key lengths the claim is false for small blocks, whose header does not separate value and key: refuted theorems.)", "quantifier": "every pair of written and requested type/key", "why_tests_cant": "quadratic in types, exponential in keys", "anchors": ["ISD/ISD_EntityReaderTemplates.inl: begin_read_large_block, read_single_item"]}
{"id": "C10", "title": "A sequence of written items reads back in order", "statement": "Any list of (key,type,value) items written with one EntityWriter is read back completely and in order by an EntityReader issuing the same list of typed reads, ending at the end of the written range.", "quantifier": "every finite list of items", "why_tests_cant": "unbounded sequences; composition of all kinds", "anchors": ["CodeGenerator/Generators/ISD_EntityWriter.py", "CodeGenerator/Generators/ISD_EntityReader.py"]}
{"id": "C11", "title": "Nested sections and section arrays round trip", "statement": "Any tree of values, sections, null sections, section arrays (with or without an index) and null section arrays written through the Begin/End calls reads back as the same tree through the mirrored Begin/End calls, every call returning success, provided every section that is to be read back as non-null contains at least one item.", "quantifier": "every tree of any depth and width", "why_tests_cant": "unbounded nesting", "anchors": ["ISD/ISD_EntityWriterTemplates.inl: BeginWriteSection..EndWriteSectionsArray", "ISD/ISD_EntityReaderTemplates.inl: BeginReadSection..EndReadSectionsArray"]}
{"id": "C12", "title": "Section array protocol is enforced", "statement": "Begin(Read|Write)SectionInArray succeeds only for the successor of the last begun index and below the array size; End*SectionInArray only for the section begun last; End*SectionsArray only after all sections were begun; no second section or array can be opened beside an open one; calls with another writer/reader than the active one are rejected without any change. For the reader this holds on any bytes as long as no BeginReadSectionsArray failed. (Not detected, shown by refuted theorems: ending with a null writer when nothing is open, ending a section with an open inner one, ending an array with EndWriteSection, leaving out EndWriteSectionInArray, index ~0 before the first section; after a failed BeginReadSectionsArray its count stays in force, and a refused element is counted.)", "quantifier": "every history of protocol calls and every index argument", "why_tests_cant": "ranges over all call histories", "anchors": ["ISD/ISD_EntityWriterTemplates.inl: BeginWriteSectionInArray, EndWriteSectionsArray", "ISD/ISD_EntityReaderTemplates.inl: BeginReadSectionInArray, EndReadSectionsArray"]}
{"id": "C13", "title": "Reader is robust against corrupt input", "statement": "For every byte string and position, every EntityReader::Read call under a key of 1 to 40 bytes terminates; if it returns, the read position has moved forward inside the stream, and if it returns true the value is the decoding of exactly the bytes passed. It touches no memory outside the stream and the destination, and it asks for no allocation larger than four times the stream, unless the block it meets is damaged in one of these ways: (a) the length field of a string, or the fixed fields of an array, or the length field of a further string of a string array, go beyond the end of the block; (b) the item count of an array of bools is within 7 of 2^64; (c) the item count of an array of vectors, matrices or quaternions is not a multiple of the component count (only this can lead to out-of-bounds access). Each of these cases does lead to a huge allocation or an out-of-bounds access: see the refuted theorems.", "quantifier": "every byte string, every type and key", "why_tests_cant": "the fuzz test samples random strings, which practically never pass the type and key checks", "anchors": ["ISD/ISD_EntityReaderTemplates.inl", "Tests/EntityReaderRandomTests.cpp"]}
{"id": "C14", "title": "Optional and indexed container laws", "statement": "optional_value, optional_vector, optional_idx_vector and idx_vector: copies compare equal to their source and leave it unchanged, moves transfer the content and leave the source without value, reset removes the value, set gives a value, == is an equivalence when the item == is one, != is its negation, and two containers are equal iff both lack a value or both hold equal content.", "quantifier": "every content, every sequence of operations", "why_tests_cant": "all contents and histories", "anchors": ["ISD/ISD_optional_value.h", "ISD/ISD_optional_vector.h", "ISD/ISD_optional_idx_vector.h", "ISD/ISD_idx_vector.h"]}
{"id": "C15", "title": "DirectedGraph acyclicity validation is exact", "statement": "DirectedGraph::MF::Validate on a graph flagged acyclic reports a cycle error iff the edge set contains a directed cycle (of any length, including self loops), and always terminates.", "quantifier": "every finite edge set over the key type", "why_tests_cant": "exponentially many graphs; termination is not testable", "anchors": ["ISD/ISD_DirectedGraph.h: ValidateNoCycles"]}
{"id": "C16", "title": "DirectedGraph rootedness validation is exact", "statement": "Validate reports no error iff, as far as flagged: no directed cycle; no root has an incoming edge, every source is a root and every node of an edge is reachable from a root; there is exactly one source (and one root). Each error id is reported exactly for its defect. (The stronger reading, that the roots are exactly the sources, is refuted: a root without any edge is accepted.)", "quantifier": "every edge set and root set", "why_tests_cant": "exponentially many graphs", "anchors": ["ISD/ISD_DirectedGraph.h: ValidateRooted, Validate"]}
{"id": "C17", "title": "DirectedGraph is a set of edges", "statement": "After any history of InsertEdge, Roots().insert, erase and Clear, Edges and Roots are sets that hold exactly what was inserted and not removed since; HasEdge finds exactly the edges; Equals compares exactly the root and edge sets; DeepCopy produces an equal graph; GetSuccessors(k) returns exactly the edges (k,n) with n below the largest key value (an edge to the largest value is missed, shown by a counterexample to the unrestricted claim).", "quantifier": "every sequence of insertions, every key", "why_tests_cant": "all histories and keys", "anchors": ["ISD/ISD_DirectedGraph.h: InsertEdge, GetSuccessors, Equals, DeepCopy"]}
{"id": "C18", "title": "DirectedGraph serialization round trips", "statement": "Write then Read of a DirectedGraph gives a graph with the same roots and edges, for any destination content.", "quantifier": "every graph", "why_tests_cant": "unbounded graphs", "anchors": ["ISD/ISD_DirectedGraph.h: Write, Read"]}
{"id": "C19", "title": "EntityTable behaves as a map from key to owned entity", "statement": "Insert, Entries().erase, Clear, copy and Equals of an EntityTable behave as a finite map, after any history of calls that are legal (operator[] only for keys with an entity, Insert not for keys with a null entity, no assignment to itself; the refuted theorems show what happens otherwise): Equals is true iff both tables have the same keys and equal entities (null equal only to null); copies are independent of the original; DeepCopy yields an Equal table.", "quantifier": "every table and history", "why_tests_cant": "all histories and contents", "anchors": ["ISD/ISD_EntityTable.h: Insert, DeepCopy, Equals, Clear"]}
{"id": "C20", "title": "EntityTable serialization round trips", "statement": "Write then Read of an EntityTable returns a table with the same keys and equal entities, null entities staying null, whenever no entity serializes to zero bytes.", "quantifier": "every table over every entity type whose own Write/Read round trips", "why_tests_cant": "unbounded tables; generic in the entity", "anchors": ["ISD/ISD_EntityTable.h: Write, Read"]}
{"id": "C21", "title": "Table and indexed vector validation is exact", "statement": "EntityTable::Validate reports an error iff a forbidden zero key or null entity is present or a contained entity is invalid; IndexedVector::Validate reports an error iff some index does not refer to an existing value or there are more than 2^31-1 values.", "quantifier": "every table / vector", "why_tests_cant": "all contents", "anchors": ["ISD/ISD_EntityTable.h: Validate", "ISD/ISD_IndexedVector.h: Validate"]}
{"id": "C22", "title": "Dynamic type lookup is exact", "statement": "For every (data type id, container id) pair the dynamic type table finds the type class iff the pair is one of the 324 registered combinations, and then exactly that combination; new_type, delete_type, clear, write, read, copy and equals fail (return null/false) for every other pair, and the probing always terminates.", "quantifier": "every pair of 16-bit (and any) ids", "why_tests_cant": "the hash table's probe sequence must be right for all ids, not only the registered ones", "anchors": ["CodeGenerator/Generators/ISD_DynamicTypes.py"]}
{"id": "C23", "title": "Varying is type safe and copies deeply", "statement": "A Varying gives access to its data only under the exact type and container it was initialized with (otherwise it throws); copy construction/assignment from another object gives an Equal Varying whose data is independent; moves transfer the data; no operation sequence double-frees. (Self assignment destroys the data and move assignment leaks the old data: refuted parts.)", "quantifier": "every sequence of operations over every type", "why_tests_cant": "all histories", "anchors": ["ISD/ISD_Varying.h", "ISD/ISD_Varying.cpp"]}
{"id": "C24", "title": "Varying serialization round trips", "statement": "Write then Read of an initialized Varying returns true and a Varying of the same type, container and value, whatever the destination held before.", "quantifier": "every registered type/container and value", "why_tests_cant": "324 types x infinite values", "anchors": ["ISD/ISD_Varying.cpp: Write, Read"]}
{"id": "C25", "title": "thread_safe_map is linearizable", "statement": "For any number of threads performing any sequences of find, insert and erase on a thread_safe_map, every concurrent execution gives results equal to those of some sequential order of the operations consistent with real time on a plain map (insert does not overwrite; find returns the stored value or reports absence; erase reports the number erased). In particular a thread whose keys no other thread uses gets exactly the results of running alone.", "quantifier": "every number of threads, programs and schedules", "why_tests_cant": "schedules cannot be enumerated by tests", "anchors": ["ISD/ISD_thread_safe_map.h", "SystemTests/safe_thread_map_test.cpp"]}
{"id": "C26", "title": "Hex strings identify their value", "statement": "value_to_hex_string prints fixed-width lower case hex, most significant digit first (8-4-4-4-12 groups for uuids); two different values of the same type never give the same string.", "quantifier": "every value of every width, every uuid, every hash", "why_tests_cant": "2^256 values", "anchors": ["ISD/ISD_Types.cpp: bytes_to_hex_string, value_to_hex_string"]}
{"id": "C27", "title": "Entity files are accepted iff intact", "statement": "Loading an entity file succeeds only when the file has at least 32 bytes and its last 32 bytes are the SHA-256 of all bytes before them, and then delivers exactly those bytes; every single read error, short file or hash mismatch gives the documented status; large files are re-assembled exactly from reads of at most 2^32-1 bytes.", "quantifier": "every file content and every behaviour of the OS read calls", "why_tests_cant": "all file contents and all OS chunkings", "anchors": ["ISD/ISD.cpp: LoadThreadProcedure", "ISD/ISD_EntityLoader.cpp", "ISD/ISD_SHA256.cpp: Update"]}
{"id": "C28", "title": "SHA-256 update is insensitive to chunking", "statement": "SHA256::Update of a buffer of any size feeds the digest exactly the bytes of the buffer in order, although it is split into pieces no larger than INT_MAX.", "quantifier": "every buffer length", "why_tests_cant": "buffers over 2GB are not tested", "anchors": ["ISD/ISD_SHA256.cpp: Update, CalculateHash"]}
{"id": "C29", "title": "Packet header checks", "statement": "For every stream that still holds a whole header and is set to the machine's byte order, a packet is accepted iff its magic is correct and its declared data size, read in the packet's byte order, fits in the rest of the stream (position + size below 2^64); the stream's byte order is flipped iff the packet says it was written in the other one. For every byte string whatsoever the call reads only inside the stream, moves only forward and leaves the bytes unchanged. (Refuted without the side conditions: sizes that wrap, streams shorter than a header, a stream already flipped.)", "quantifier": "every byte string", "why_tests_cant": "all headers", "anchors": ["ISD/ISD_PacketSerializer.cpp"]}
{"id": "C30", "title": "Validator bookkeeping", "statement": "An EntityValidator's error count equals the number of errors reported since the last ClearErrorCount (modulo 2^32), and its error ids are exactly the union of all ids ever reported. (That the ids are also restricted to the last clear is refuted.)", "quantifier": "every sequence of reports and clears", "why_tests_cant": "all histories", "anchors": ["ISD/ISD_EntityValidator.h"]}
{"id": "C31", "title": "Generated entities: equality, copy, clear", "statement": "For every entity definition, MF::Equals is symmetric and transitive and compares every field; an object is Equal to an identical one iff no float in it is NaN and every Varying in it holds a value; MF::DeepCopy makes the destination identical to the source (Equal, if the source is Equal to itself) and leaves the source unchanged; MF::Clear makes the entity identical to a default-constructed one, except that Varying variables keep their type (then a default value of it).", "quantifier": "every entity schema and every entity value", "why_tests_cant": "every schema the generator accepts, all values", "anchors": ["CodeGenerator/Generators/EntityGenerator.py: ImplementClearCall, ImplementDeepCopyCall, ImplementEqualsCall"]}
{"id": "C32", "title": "Generated entities: serialization round trips", "statement": "For every entity definition the generated code compiles for, MF::Write then MF::Read yields an identical entity (so an Equal one, if it holds no NaN), for every value that fits and any previous content of the destination (except non-empty vectors of references, which are appended to), in both byte orders, provided that no class in it (other than the outermost one) is written as zero bytes. The refuted theorems show both exceptions.", "quantifier": "every entity schema and value", "why_tests_cant": "every schema and value", "anchors": ["CodeGenerator/Generators/EntityGenerator.py: ImplementWriterCall, ImplementReaderCall"]}
{"id": "C33", "title": "Generated entities: validation covers every field", "statement": "MF::Validate of an entity reports an error iff some contained table, graph, vector or sub-entity does.", "quantifier": "every entity schema and value", "why_tests_cant": "every schema and value", "anchors": ["CodeGenerator/Generators/EntityGenerator.py: ImplementValidatorCall"]}
{"id": "C34", "title": "Ordering and identity of keys", "statement": "The < on uuid and hash is a strict total order consistent with ==, so std::map/std::set keyed by entity_ref/package_ref hold each reference at most once; equal keys hash equally.", "quantifier": "every pair/triple of keys", "why_tests_cant": "2^256 keys", "anchors": ["CodeGenerator/InlinedCode/uuid_hash_header.inl", "CodeGenerator/InlinedCode/ISD_entity_ref.inl", "CodeGenerator/InlinedCode/ISD_package_ref.inl"]}
{"id": "C35", "title": "Data type ids are unique and stable", "statement": "Every supported data type has its own 16-bit id and container id, so a serialized Varying type never denotes two types.", "quantifier": "every pair of supported types", "why_tests_cant": "finite but decided here once for all by the kernel rather than sampled", "anchors": ["CodeGenerator/Generators/ISD_DataTypes.py", "CodeGenerator/CodeGeneratorHelpers.py", "ISD/ISD_Types.h: container_type_index"]}
{"id": "C36", "title": "EntityLoader accepts one existing directory, once", "statement": "EntityLoader::Initialize succeeds only on a loader that has no path yet and only for a path that exists and is a directory; it then stores the absolute path. On any failure the loader is unchanged, and a loader that has a path refuses every later Initialize.", "quantifier": "every path, every loader state and every answer of the file system", "why_tests_cant": "the outcome depends on the answers of the operating system and of the locale conversion, for every path", "anchors": ["ISD/ISD_EntityLoader.cpp: EntityLoader::Initialize", "ISD/ISD_EntityLoader.h", "ISD/ISD_Types.cpp: full_path, widen"]}
{"id": "C37", "title": "Data whose end was lost is never read as complete", "statement": "If the bytes written for a list of items, for a document of nested sections, or for an object of any entity class are cut off at any point (a strict prefix is left, e.g. after a crash while storing or a partial transfer), reading them back returns false: it never reports success, never throws and touches no memory outside its buffers. This needs non-empty keys: with an empty key an optional value cut off inside its block header is read as absent.", "quantifier": "every item list, document and object, both byte orders, every cut point, every destination, every content before the data in the stream", "why_tests_cant": "every cut point of every possible serialized value", "anchors": ["ISD/ISD_EntityReader.cpp: EntityReader::Read, BeginReadSection, BeginReadSectionsArray", "ISD/ISD_EntityReaderTemplates.inl: begin_read_large_block, read_single_value, read_array", "ISD/ISD_MemoryReadStream.h", "CodeGenerator/Generators/EntityGenerator.py: generated MF::Read"]}
{"id": "C38", "title": "Reading an object from arbitrary bytes is safe and leaves a valid object", "statement": "For every entity class, graph, table, indexed vector and Varying, MF::Read on a stream with any content whatsoever, at any position and in both byte orders, returns true or false or throws an allocation exception (possible only if the class has strings or arrays, and then either less than four times the stream size could be allocated or the stream holds a block of the name of one of them with damaged sizes), never reads or writes outside its buffers, and leaves the destination, even on failure, a valid object of its class (ordered sets, unique keys, values of their types); the stream is unchanged and its position stays inside. An object that was read successfully, from whatever bytes, can be written and read back identical. Not protected: arrays of vectors/matrices/quaternions (a block of that name with a wrong item count writes out of bounds, and nothing else does; Mesh) and Varyings, which can hold such arrays. The generated readers ignore EndReadSection, so data whose section nesting is wrong can be accepted.", "quantifier": "every class definition, every object of it as destination, every stream content, position and byte order, every memory limit, every iteration order of unordered_map", "why_tests_cant": "the inputs are all byte strings and the classes all entity definitions", "anchors": ["CodeGenerator/Generators/EntityGenerator.py: generated MF::Read (lines 231-267)", "ISD/ISD_EntityTable.h: MF::Read", "ISD/ISD_DirectedGraph.h: MF::Read", "ISD/ISD_IndexedVector.h: MF::Read", "ISD/ISD_Varying.cpp: Varying::MF::Read", "ISD/ISD_EntityReaderTemplates.inl: BeginReadSection, EndReadSection, BeginReadSectionsArray"]}
{"id": "C39", "title": "An object stored in an entity file and loaded again is the same object", "statement": "Take any object of any class whose definition and size allow it to be written. The bytes written for it, followed by their SHA-256, form an entity file. However the operating system splits the reads, loading that file succeeds unless a read fails, and Read from the stream the loader delivers gives an identical object and consumes all the data. Conversely, whatever bytes the operating system delivers, if the load is Ok and the digest at the end of the file is the one of the written data, then Read gives an identical object, or a SHA-256 collision is known. The byte order is not recorded in the file: data written with swapped bytes can load and read without an error as a different value.", "quantifier": "all classes, objects, ways of splitting the file reads, hash libraries that compute SHA-256, destinations and memory limits; all behaviours of the operating system for the converse", "why_tests_cant": "tests cover a few objects and one way of reading the file; the property composes writer, hash, loader and reader for every object and every split of the reads", "anchors": ["ISD/ISD.cpp:LoadThreadProcedure", "ISD/ISD_SHA256.cpp:SHA256", "ISD/ISD_EntityReader.h:EntityReader", "ISD/ISD_EntityWriter.h:EntityWriter", "CodeGenerator/Generators/EntityGenerator.py: ImplementWriterCall, ImplementReaderCall"]}
{"id": "C40", "title": "The written bytes identify the object", "statement": "Two objects of a class that are written as the same bytes are identical, and no written form is a proper prefix of another one. For classes without tables the converse holds as well: identical objects (an object and its copy, an object and what was read back) are written as the same bytes and so have the same digest. With tables, identical objects have written forms of the same length, but not always the same bytes: the copy of an object can be written differently (the order of std::unordered_map), and Equal objects that are not identical (0 and -0) are written differently.", "quantifier": "all classes, pairs of objects, both byte orders, all implementations of std::unordered_map, any data behind the objects", "why_tests_cant": "it speaks about all pairs of objects; a test compares a few pairs", "anchors": ["CodeGenerator/Generators/EntityGenerator.py: ImplementWriterCall, ImplementReaderCall", "ISD/ISD_EntityTable.h:Write", "ISD/ISD_DirectedGraph.h:Write", "ISD/ISD_EntityWriter.h:EntityWriter"]}
{"id": "C41", "title": "Objects of every class are values: copying, moving and assigning them never aliases, leaks or corrupts", "statement": "In every program that default-constructs, copies, moves, assigns, changes, clears, compares and destroys variables of a class (any entity definition, or a graph, table, indexed vector or Varying), in any order and also with source and destination the same variable, no operation throws or has undefined behaviour. A copy is identical to its source, which is unchanged, as are all other variables; a move transfers the object exactly and leaves a valid object in the source (Varyings empty, optional objects absent, numbers unchanged); Equals tells exactly whether the objects are equal; all variables always hold valid objects. x = x keeps the object if the class holds no tables, indexed vectors, Varyings or optional objects; otherwise those parts lose their content (finding: scene layer = itself loses its nodes but keeps the graph that names them).", "quantifier": "all classes, all legal programs of any length over any number of variables, all valid objects the standard library can leave in moved-from values, all implementations of std::unordered_map", "why_tests_cant": "it ranges over all sequences of special member calls, including self-assignment and reuse of moved-from objects, for every entity definition", "anchors": ["CodeGenerator/Generators/EntityGenerator.py: constructors, ImplementDeepCopyCall", "ISD/ISD_EntityTable.h:DeepCopy", "ISD/ISD_DirectedGraph.h:DeepCopy", "ISD/ISD_IndexedVector.h:DeepCopy", "ISD/ISD_Varying.cpp", "ISD/ISD_optional_value.h"]}
{"id": "C42", "title": "EntityTable owns its entities: references stay valid exactly as long as their entry, nothing is leaked, shared or deleted twice", "statement": "In programs with any number of EntityTables and references to their entities (from Insert, operator[] or Entries().find), the entity of an entry lives at one address from its insertion until the entry is erased or replaced, or its table is cleared, copy-assigned, move-assigned or destroyed. Until then every reference to it reads and writes exactly the entry it was made for, whatever is inserted, erased or copied elsewhere, and also if the table is moved into another table (then it refers to the entry there). Tables never share entities, so a change through one table or reference is not seen in a copy. Every allocated object belongs to exactly one entry; when all tables are gone, so are all objects; nothing is deleted twice. Uses of references after these events, operator[] of a key without entity, and Insert of a key whose entity is null have undefined behaviour, and nothing else has.", "quantifier": "all programs of any length over any number of tables, keys and references; all key and entity classes; all implementations of std::unordered_map", "why_tests_cant": "lifetime and aliasing bugs depend on the history of operations; a test sees few of them and undefined behaviour may stay unnoticed", "anchors": ["ISD/ISD_EntityTable.h:Insert, operator[], Entries", "ISD/ISD_EntityTable.h:MF::DeepCopy, MF::Clear, MF::Equals"]}
{"id": "C43", "title": "A section that was not read exactly to its end cannot be closed", "statement": "After BeginReadSection, BeginReadSectionsArray or BeginReadSectionInArray succeeded at some position, the matching end call reports success only when the stream stands exactly behind the number of bytes the section's size field states, whatever was called on the reader and its sub-readers in between; otherwise it returns false and changes nothing. EndReadSection at the right position closes the section; EndReadSectionInArray succeeds exactly for the right array, the number begun last and the right position.", "quantifier": "all streams (intact or corrupt) below 2^62 bytes, all histories of calls before and between, all keys of 1 to 40 bytes", "why_tests_cant": "ranges over all contents, all amounts read too little or too much, and all interleavings with nested sections", "anchors": ["ISD/ISD_EntityReaderTemplates.inl: BeginReadSection, EndReadSection, BeginReadSectionsArray, EndReadSectionsArray, BeginReadSectionInArray, EndReadSectionInArray, end_read_large_block"]}
{"id": "C44", "title": "References are unforgeable handles", "statement": "make_ref never returns a null reference and throws exactly when the operating system fails to create an id or creates the null id; a failed make_ref changes nothing. Through any sequence of construction, copy, move, assignment, make_ref and destruction every entity_ref and package_ref is null, a handle an earlier make_ref created, or an id it was given; copies compare equal exactly when they stem from the same handle, a moved-from reference is null, and the bool conversion is true exactly for non-null references.", "quantifier": "all programs over references, all sequences of answers of the operating system", "why_tests_cant": "ranges over all programs and all behaviours of the uuid generator, including failures", "anchors": ["ISD/ISD_Types.cpp: entity_ref::make_ref", "CodeGenerator/InlinedCode/ISD_entity_ref.inl", "CodeGenerator/InlinedCode/ISD_package_ref.inl"]}
{"id": "C45", "title": "Calls on a writer never damage what was written before", "statement": "Whatever sequence of Write, Begin... and End... calls is made on an EntityWriter and on the section writers it returns, and whatever they return: the stream position stays at the end of the stream; a call that writes or begins something only appends; a call that ends something changes nothing or replaces exactly the eight bytes of a size field by the number of bytes behind it, and never fails for lack of memory. A section or array that is still open can be ended after any calls, which sets its own size field; once ended, no later call changes any of its bytes.", "quantifier": "all sequences of calls with all arguments on a writer and its section writers, all memory limits, both byte orders", "why_tests_cant": "ranges over all call histories and all points where memory runs out", "anchors": ["ISD/ISD_EntityWriterTemplates.inl: BeginWriteSection, EndWriteSection, BeginWriteSectionsArray, BeginWriteSectionInArray, EndWriteSectionInArray, EndWriteSectionsArray, end_write_large_block", "ISD/ISD_MemoryWriteStream.inl: SetPosition, Write"]}
{"id": "C46", "title": "The code generator's output files survive interruptions", "statement": "A run of the code generator that finishes leaves every output file showing exactly the generated text: untouched if it showed it already, otherwise a read-only file of exactly the bytes of the text; no other file is touched, and running again touches nothing. If a run is interrupted anywhere, at most one file is halfway (old bytes, missing, or a beginning of the new bytes); after any number of interrupted or finished runs a run that is not interrupted finishes with every file right. Inlined files keep their lines except for trailing white space. (Not promised: atomic replacement, and read-only after an interruption.)", "quantifier": "all file systems, all targets and texts without carriage returns, all interruption points, all sequences of runs, all ways the output is flushed", "why_tests_cant": "ranges over every crash point and every history of interrupted runs", "anchors": ["CodeGenerator/CodeGeneratorHelpers.py: write_lines_to_file, inline_file, run_module", "CodeGenerator/CodeGenerator.py"]}
{"id": "C47", "title": "Objects in packets keep their values whatever the byte order of the packet", "statement": "Take any object of any class, written in either byte order, and put it into a packet: behind a header that names this byte order and the size, and the two ids. Wherever the packet stands in a stream and whatever follows it, the packet is accepted, the stream then stands at the object and is switched to its byte order, and Read, into any object, gives an identical object and uses exactly its bytes. (A wrong byte order flag is not noticed.)", "quantifier": "all classes, objects, both byte orders, all positions, surrounding bytes and header paddings", "why_tests_cant": "ranges over all objects, headers and surrounding data", "anchors": ["ISD/ISD_PacketSerializer.cpp: FromMemoryStream", "ISD/ISD_MemoryReadStream.h: SetFlipByteOrder", "CodeGenerator/Generators/EntityGenerator.py: MF::Write, MF::Read"]}
{"id": "C48", "title": "The generated type table is right for every list of types", "statement": "For whatever list of base types and container types the code generator is given: it numbers variant j of base type i with 16(i+1)+j+1, numbers are unique as long as no base type (but the last) has more than 16 variants, appending types or variants never renumbers existing ones, and as long as the table has a free slot the generator ends and the lookup it emits ends for every pair of ids and finds exactly the type that has them.", "quantifier": "every list of base types with their variants, every list of containers, every table size and pair of hash multipliers, every pair of ids looked up", "why_tests_cant": "the generated tests run only on the list of types the project has today; the guarantee concerns every later list", "anchors": ["CodeGenerator/Generators/ISD_DynamicTypes.py: AllocatorHashTable, _findTypeClass", "CodeGenerator/Generators/ISD_DataTypes.py: data_type_index", "CodeGenerator/CodeGeneratorHelpers.py: base_types, container_types"]}
{"id": "C49", "title": "Streams with several objects, values and sections", "statement": "A program that writes values, objects of any classes and (nested) sections and arrays of sections of these one after another with one EntityWriter produces the concatenation of their documented layouts; the corresponding reading program, whatever its objects held before and whatever follows in the stream, gets the same values and identical objects in order and ends exactly behind them; on a stream that lost bytes at its end it reports failure. On a stream with any content whatsoever, a reading program returns values of the types and objects of the classes it asked for, or false, or throws an allocation exception for a reason that can be named (too little memory, or damaged sizes of a block that it asked for), and leaves the stream unchanged; only a block with a wrong item count that it asks for as an array of vectors, matrices or quaternions makes it write out of bounds.", "quantifier": "every program, every class definition, every value, both byte orders, every cut, every stream content", "why_tests_cant": "programs, classes and values are unbounded; tests write one object per stream", "anchors": ["ISD/ISD_EntityWriterTemplates.inl", "ISD/ISD_EntityReaderTemplates.inl", "CodeGenerator/Generators/EntityGenerator.py: MF::Write, MF::Read", "Tests/SectionHierarchyReadWriteTests.cpp"]}
{"id": "C50", "title": "The debug build agrees with the release build", "statement": "The checks that only the debug build contains (and that throw when they fail) never change what a correct program does: a writing program whose keys have at most 40 characters has the same results, bytes and exceptions in both builds, whatever the state of streams and memory; a reading program with keys of 1 to 40 characters, on any bytes, differs only where an indexed array block ends before its own flags and count do, and there the debug build throws; everything read successfully as a value is read identically; validating a graph never fails a check; with a key of 41 to 255 characters the debug build throws instead of overrunning the reader's key buffer.", "quantifier": "all programs of writing and reading calls, all states and byte sequences, all node types, graphs and flags", "why_tests_cant": "the test suite is run in one build at a time and compares no states between builds; inputs and programs are unbounded", "anchors": ["ISD/ISD_Types.h: ISDSanityCheckDebugMacro, ISDSanityCheckCoreDebugMacro, ISDKeyMacro", "ISD/ISD_EntityWriterTemplates.inl", "ISD/ISD_EntityReaderTemplates.inl", "ISD/ISD_DirectedGraph.h: ValidateNoCycles, ValidateRooted", "ISD/ISD_EntityTable.h: MF::Read"]}
{"id": "C51", "title": "Class definitions can be changed while data of the old definition exists", "statement": "An object written with one definition of its class and read with another one (types, containers or optionality of values, definitions or optionality of nested objects, definitions of table entries, flags changed, or other variables from some variable on) is read successfully exactly when an object of the new definition exists that says the same, and then this object, unique up to identity, is what Read gives; otherwise Read returns false without an exception. Making values and objects optional, and exchanging references and ids, keep every object readable. Dropping the last variables of the outermost object keeps the rest readable; data without added last variables is rejected at the end of the stream. In nested objects this does not hold: variables are taken from or lost to the surrounding object.", "quantifier": "every pair of definitions related by the changes, every object of the old one, every destination, both byte orders, any surrounding bytes", "why_tests_cant": "definitions, changes and objects are unbounded; the tests read with the definition they wrote with", "anchors": ["CodeGenerator/Generators/EntityGenerator.py: MF::Read", "ISD/ISD_EntityReaderTemplates.inl: read_single_item, read_array, begin_read_large_block, BeginReadSection, EndReadSection", "ISD/ISD_EntityTable.h: MF::Read"]}
{"id": "C52", "title": "The generator's C++ text means the class that was defined", "statement": "For every entity definition with proper C++ names, the header and the source file the generator writes are C++ text in which the class is declared once with all its functions; the files compile exactly if every template definition names a class that is visible and every variable is of a data type (in any container) or a plain object of one of these classes; and then the default constructor, Clear, DeepCopy, Equals, Write, Read, Validate, the copy constructor, assignment, == and != of the text do on all objects, streams and documents what the functions of the defined class do (variables in the order of the definition, with the names of the definition as keys up to 255 characters), and the accessors refer to their variables. This holds for whole projects of definitions that build on each other. Optional variables and vectors of class types, variables whose type is directly another entity, and entity tables with flags are accepted by the generator, but the files do not compile.", "quantifier": "all entity definitions and projects of them, all objects, streams and documents, all implementations of unordered_map", "why_tests_cant": "the generator is a program that writes programs: a test compiles the files of a few entities, but the text must be right for every definition, and its functions for every object", "anchors": ["CodeGenerator/Generators/EntityGenerator.py: CreateEntityHeader, CreateEntitySource, Implement...Call", "CodeGenerator/Entities/__init__.py: Entity, Template, Variable", "CodeGenerator/Entities/*", "ISD/ISD_Types.h: ISDKeyMacro"]}
{"id": "C53", "title": "The text of the generated Write<T> and Read<T> does what a type of the list needs", "statement": "For every list of data types given to the code generator (proper C++ names, no type twice, a converted type converted to one stored as it is), the generated files ISD_EntityWriter.h/.cpp and ISD_EntityReader.h/.cpp declare and define exactly one Write and one Read for every type of the list in each of the six containers. Write of a type stored as it is calls the library's writing template once, for the value type of its base type, with the value, the vector and the index there are; Read sets optional objects first, reads with empties allowed for optionals only, and resets them on an empty value; a type stored by converting it is converted item by item, written and read as the stored type, the items read replace the object (but are appended to a vector), and a failed read leaves the object as it was. For the project's list the functions in the text are, for all 54 types, keys, objects and streams, the Write and Read all the document properties are about, whatever uninitialised variables hold.", "quantifier": "all lists of data types, all objects, streams, keys and libraries the files are compiled against; for the project's list all 54 types in 6 containers", "why_tests_cant": "tests compile the text for the present list and try some objects; the generator must be right for every list (types get added), and the functions for every object and stream state", "anchors": ["CodeGenerator/Generators/ISD_EntityWriter.py", "CodeGenerator/Generators/ISD_EntityReader.py", "CodeGenerator/CodeGeneratorHelpers.py: base_types", "ISD/ISD_EntityWriterTemplates.inl: write_single_value, write_array", "ISD/ISD_EntityReaderTemplates.inl: read_single_item, read_array", "ISD/ISD_Types.h: ValueType"]}
{"id": "C54", "title": "The text of the generated dynamic types finds every type of the list and works on it", "statement": "For every list of data types given to the code generator (proper C++ names, no type and no number twice, fewer combinations with the six containers than the table has places), the generator ends and the generated ISD_DynamicTypes.cpp, ISD_CombinedTypes.h/.cpp and the enumeration of data types are C++ text that compiles. For all ids, those of listed types and all others, the functions new_type, delete_type, clear, write, read, copy and equals of ISD::dynamic_types in the text end; with the ids of a type in a container they do what the name says on objects of that type and nothing else; with other ids or null pointers they return false (new_type: a null pointer and false) and change nothing. For the project's list the functions of the text, calling the Write and Read of the generated text, are the ones the dynamic type properties are about.", "quantifier": "all lists of data types, all ids, all calls, all objects in memory, writers and readers", "why_tests_cant": "the table and the classes are generated: tests see the present list, but the text must be right for every list (types get added), the lookup must end for every one of 2^64 pairs of ids, and the calls must be right for every object", "anchors": ["CodeGenerator/Generators/ISD_DynamicTypes.py", "CodeGenerator/Generators/ISD_CombinedTypes.py", "CodeGenerator/Generators/ISD_DataTypes.py: enum class data_type_index", "ISD/ISD_DynamicTypes.h", "ISD/ISD_Types.h: container_type_index"]}
{"id": "C55", "title": "The text of the generated data types has the right names, limits, pointers and operators for every type and value", "statement": "The generated ISD_DataTypes.h, ISD_DataTypes.cpp and ISD_DataValuePointers.h are C++ text that compiles. For every data type T, data_type_information<T> gives the component type and the number of components (which together make up the object), the names, and the data type's id; zero is the value of T with all components zero; no value of T is below inf or above sup in any component that is a number (references, uuids and hashes: in the order of bytes; strings have no sup). value_ptr gives a pointer to the first component, constant just if the variable is. For all uuids, hashes, entity_refs and package_refs: < is the order of the bytes, == and != compare all bytes, std::hash is the exclusive or of the 64 bit words and so agrees with ==; default, copy, move and assignment of references keep or clear the identifier as they must, the conversion to bool tells whether it is null, and no public constructor makes an entity_ref of a uuid.", "quantifier": "all data types, all values of them, all pairs of identifiers and references", "why_tests_cant": "limits and orders are claims about all values of a type (up to 2^256 hashes), and 54 types with many text fragments put together by the generator must each be right", "anchors": ["CodeGenerator/Generators/ISD_DataTypes.py", "CodeGenerator/InlinedCode/uuid_hash_header.inl", "CodeGenerator/InlinedCode/uuid_hash_source.inl", "CodeGenerator/InlinedCode/ISD_entity_ref.inl", "CodeGenerator/InlinedCode/ISD_package_ref.inl"]}
{"id": "C56", "title": "After a finished run of the code generator the files on disk are the programs the definitions stand for", "statement": "For every list of data types and every list of entity definitions the generator can be used with, on Windows and Posix, from any state of the files: when a run of CodeGenerator.py has finished, the files on disk, read back as a compiler reads them, compile and mean what C52-C55 say (Write<T>/Read<T>, dynamic types, data types, every entity class); every data type is tested; no other file was touched. A run that is not interrupted finishes if the files are readable; on Windows it also does so after any history of interrupted runs of any version; a second run changes nothing. An entity named like a hand-written header replaces it, and one named like a generated file replaces that one in the same run.", "quantifier": "all lists of data types, entity definitions, platforms, flushings, states of the files, histories of interrupted runs", "why_tests_cant": "unboundedly many definitions, file states and crash points; the meaning of text quantifies over all objects and calls", "anchors": ["CodeGenerator/CodeGenerator.py", "CodeGenerator/CodeGeneratorHelpers.py:write_lines_to_file", "CodeGenerator/Generators/*.py:run", "CodeGenerator/Generators/ISD_DynamicTypes.py:DynamicTypesTests_cpp"]}
{"id": "C57", "title": "Objects behave the same in the debug and the release build", "statement": "For every class (graphs, tables, indexed vectors, varyings, generated entities, nested to any depth): Write gives the same result, bytes and exceptions in the debug build (ISD_DEBUG) as in the release build when all variable names have at most 40 bytes, and throws for a longer name; Validate reports the same errors; Read of any bytes gives the same result, except that the debug build may throw where the release build does not succeed either, and then the stream contains a truncated block of an indexed array of the class. So an object written by one build is read back identical by the other.", "quantifier": "all classes, objects, writers, streams and stream contents, positions, byte orders, memory limits", "why_tests_cant": "unboundedly many classes, objects and damaged files; a test runs one build at a time", "anchors": ["ISD/ISD_Types.h:24-30", "ISD/ISD_DirectedGraph.h:MF::Write (198), MF::Validate", "ISD/ISD_EntityTable.h:MF::Write (188), MF::Read (214)", "ISD/ISD_IndexedVector.h:MF::Read", "ISD/ISD_Varying.cpp:MF::Read, MF::Write", "ISD/ISD_EntityReader.cpp", "ISD/ISD_EntityWriter.cpp", "CodeGenerator/Generators/EntityGenerator.py"]}
{"id": "C58", "title": "The project's own tests succeed for every outcome of the random generator and every schedule", "statement": "The system test of thread_safe_map (up to 2^16 threads inserting, finding and erasing random keys tagged with the thread's number): under every schedule and for every result of rand(), every find returns the text of its key, and when all threads are finished the map is empty. The section hierarchy test: for every object of the recursive class section_object (optional name, matrix, nullable child, vector and optional indexed vector of nullable children, any depth), in both byte orders, Write succeeds with the documented layout and Read delivers the same object, so the counts agree and Compare succeeds if no matrix holds a NaN. The fuzz test of EntityReader: for every file there is no undefined behaviour, and an exception is possible only for a block with damaged sizes (there is such a file, contrary to the test's name). The tests of DirectedGraph: for every node type and every random tree or forest (any shape, all nodes different), the tests with flags 0 and the acyclic, single-root, rooted and scene-graph tests have all their assertions true, error counts and error ids included, provided the nodes added later are new (they fail if, for example, the two new roots are the same node, and the theorem says so). The serialization test: for any forests of any node types, one after another on one writer, each graph is read back equal from the position where it was written. The test of EntityWriter and EntityReader: for every value type, every random value and every key, in both byte orders, what is written is read back, and all assertions are true exactly if no NaN is drawn where values are compared with ==; the index vectors of the test are always empty, whatever rand() returns (the test fills a copy), so the indexed-vector reads are tested only for that case. The test of MemoryWriteStream and MemoryReadStream: the test passes exactly if no float written is a NaN. The tests of EntityTable, for every integer, uuid, entity_ref, hash, package_ref or string key type: the validation blocks hold for all keys drawn; the copy and move block passes exactly if no entity of the copy is at an address where an entity of the original was at any time (so always if no key is drawn twice; if one is, a free store that reuses the place makes it fail); random tables of several key types on one writer, in both byte orders, are valid, written in the documented layout and read back with the same keys and names. The test of entities passes exactly if the first random name is not empty and the second pair of random name and text differs from the first. The tests of the types: the reference tests pass for every uuid and hash drawn except zero (for a zero uuid make_ref throws); the tests of the vector containers pass in both builds for any number of values; the test of optional_value passes for all two numbers of which the first is neither zero nor the second; the test of the key functors passes exactly if no key is drawn twice and the keys with the same hash that are == are the same, so with the library's key types exactly if no key is drawn twice. The generated test of the dynamic types, over all data types with all containers and any number of passes, always ends with a result and passes exactly if no object it is made with holds a NaN (always, for types without floats); the indexed vectors it uses have an empty index whatever rand() returns.", "quantifier": "all results of rand(), all schedules, all objects of any depth, all files", "why_tests_cant": "the tests run a few random cases and schedules; the claim is that none could fail", "anchors": ["SystemTests/safe_thread_map_test.cpp", "Tests/SectionHierarchyReadWriteTests.cpp", "Tests/EntityReaderRandomTests.cpp", "ISD/ISD_thread_safe_map.h", "ISD/ISD_EntityReader.h", "ISD/ISD_EntityWriter.h", "Tests/DirectedGraphTests.cpp", "TestHelpers/structure_generation.h", "ISD/ISD_DirectedGraph.h", "Tests/EntityReadWriteTests.cpp", "Tests/ReadWriteTests.cpp", "Tests/DictionaryTests.cpp", "Tests/EntityTests.cpp", "Tests/TypeTests.cpp", "CodeGenerator/Generators/ISD_DynamicTypes.py", "TestHelpers/random_vals.h"]}
{"id": "C59", "title": "A class whose objects contain objects of the same class can be read from any bytes, given a stack proportional to the data", "statement": "A user class whose Read calls itself for nested objects through BeginReadSection, BeginReadSectionsArray and BeginReadSectionInArray (as section_object: nullable child, vector and optional indexed vector of nullable children): for every content of the stream, every position and both byte orders, Read with a stack of one call per 103 bytes (167 with double components) has no undefined behaviour; it returns success or failure with an object of valid values, the stream unchanged and a position inside it, or throws because of memory for a named reason (memory less than four times the data, a damaged name block, an array cut inside its counts, an element count that does not fit into memory). An object that was written needs exactly a stack of its depth: one call less overflows. Hence no fixed stack is enough for all files: for every n a file of 156 (n + 1) bytes (220 with double components), as Write makes it, overflows a stack of n calls and is read with n + 1.", "quantifier": "all byte strings shorter than 2^62, all positions, both byte orders, all memory limits below 2^60, all objects of any depth and shape, all stack depths", "why_tests_cant": "The test of the repository reads only what it has just written, a tree of a few levels; robustness must hold for every byte string, and the depth of the recursion is unbounded.", "anchors": ["Tests/SectionHierarchyReadWriteTests.cpp: section_object::Read, section_object::Write", "ISD/ISD_EntityReaderTemplates.inl: BeginReadSection, BeginReadSectionsArray, BeginReadSectionInArray, read_array_metadata_and_index"]}
{"id": "C60", "title": "Data read with the wrong byte order is refused, except for plain numbers, which are silently reversed", "statement": "The format does not say in which byte order it was written; the reader's SetFlipByteOrder must be set as the writer's was. If it is set the other way (streams below 4 GiB): at any string, array, section or array of sections, present or absent, every reading call of every type, name and container reports failure, without an exception, an allocation or undefined behaviour. A document, or an object of any class, that consists only of single and optional values of base types other than string is read without any error and every number has its bytes reversed (bools, uuids, hashes and references are unchanged, since they have no byte order). Any other document or object is refused, with one exception: a Varying that holds a float matrix with four rows and columns, whose type numbers 0x0101 and 0x0000 read the same in both orders, is read without error, with reversed numbers.", "quantifier": "all documents, all reading programs that mirror them, all classes and objects, both directions, all stream contents after the data, all memory limits of four times the data", "why_tests_cant": "The tests always use one byte order for writing and reading, and only a few values; whether a mismatch is detected depends on every size field, type number and type.", "anchors": ["ISD/ISD_EntityReaderTemplates.inl: begin_read_large_block, read_single_item, read_array", "ISD/ISD_MemoryReadStream.h: SetFlipByteOrder, ReadValues", "ISD/ISD_Varying.cpp: Varying::MF::Read", "CodeGenerator/Generators/ISD_DynamicTypes.py"]}
{"id": "C61", "title": "Read streams are windows onto the memory of write streams", "statement": "In a program with any number of write streams and of read streams made from GetData() and GetSize() of a write stream, each write stream is a byte file of its own that no call on another stream changes; a read stream sees the bytes the file has now, up to the size it had when the read stream was made, for as long as the write stream lives and has not grown out of its room (its initial size at least); reading through it after that is undefined behaviour. An exception is thrown only when a stream has to move and the memory does not suffice, so a stream that stays within its initial size never throws and its views stay valid as long as it lives. Growing and destroying release the memory, nothing is leaked or released twice, as long as no write stream is copied; the class can be copied, and then both destructors release the same memory.", "quantifier": "all programs of constructions, destructions, writes, seeks, byte-order switches, observations, constructions of read streams and calls on them, in any interleaving, with any number of streams, any initial sizes and any allocator limit up to 2^62", "why_tests_cant": "The tests make read streams only after the last write and with a room of 64 MB; whether a pointer dangles depends on the whole history of growth, and reading released memory usually goes unnoticed in a test.", "anchors": ["ISD/ISD_MemoryWriteStream.h: MemoryWriteStream::ReserveForSize, FreeAllocation, Resize, WriteRawData, WriteValues, SetPosition, GetData", "ISD/ISD_MemoryReadStream.h: MemoryReadStream::MemoryReadStream, ReadRawData, Peek, Read"]}
