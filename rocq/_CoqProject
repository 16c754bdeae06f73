-Q theories Verif
theories/Base.v
theories/Bytes.v
theories/BytesFacts.v
theories/Values.v
theories/FileSpec.v
theories/Streams.v
theories/StreamFacts.v
theories/ReadSpec.v
theories/StreamProps.v
theories/Properties_Streams.v
theories/Types.v
theories/EntityWriter.v
theories/EntityReader.v
theories/Format.v
theories/EntityWriterFacts.v
theories/PackFacts.v
theories/ArrayWriterFacts.v
theories/EntityReaderFacts.v
theories/Accept.v
theories/EntitySafety.v
theories/ArraySafety.v
theories/ReadTotal.v
theories/Items.v
theories/ItemSpec.v
theories/EntityProps.v
theories/EntityKeys.v
theories/EntityTheorems.v
theories/Damage.v
theories/DamageFacts.v
theories/Properties_Entity.v
theories/Sections.v
theories/Documents.v
theories/DocSpec.v
theories/SectionFacts.v
theories/SectionReadFacts.v
theories/SectionTheorems.v
theories/Protocol.v
theories/ProtocolSpec.v
theories/ProtocolFacts.v
theories/ProtocolProofs.v
theories/Properties_Sections.v
theories/Containers.v
theories/ContainerSpec.v
theories/ContainerFacts.v
theories/OptionalValueFacts.v
theories/EqualityFacts.v
theories/Properties_Containers.v
theories/Keys.v
theories/KeySpec.v
theories/KeyFacts.v
theories/Properties_Keys.v
theories/Validator.v
theories/ValidatorSpec.v
theories/ValidatorFacts.v
theories/Properties_Validator.v
theories/StdSet.v
theories/Graph.v
theories/StdSetFacts.v
theories/GraphSpec.v
theories/GraphFacts.v
theories/GraphProps.v
theories/CodecFacts.v
theories/GraphSets.v
theories/Properties_Graph.v
theories/Classes.v
theories/Table.v
theories/TableSpec.v
theories/TableFacts.v
theories/TableCodec.v
theories/ValueEq.v
theories/ValueEqSpec.v
theories/ValueEqFacts.v
theories/IndexedVector.v
theories/IndexedVectorSpec.v
theories/IndexedVectorFacts.v
theories/DynTypes.v
theories/DynTypesFacts.v
theories/Varying.v
theories/VaryingSpec.v
theories/VaryingFacts.v
theories/VaryingCodec.v
theories/Properties_Varying.v
theories/EntityGen.v
theories/EntitySpec.v
theories/EntityFacts.v
theories/EntityCodec.v
theories/Properties_Table.v
theories/FullSpec.v
theories/FullFacts.v
theories/Properties_Generated.v
theories/ThreadMap.v
theories/ThreadMapSpec.v
theories/ThreadMapFacts.v
theories/ThreadOwn.v
theories/Properties_Threads.v
theories/Hex.v
theories/HexSpec.v
theories/HexFacts.v
theories/Properties_Hex.v
theories/Sha256Spec.v
theories/Sha256.v
theories/ShaSpec.v
theories/ShaFacts.v
theories/Loader.v
theories/LoaderSpec.v
theories/LoaderFacts.v
theories/Properties_Loader.v
theories/Packet.v
theories/PacketSpec.v
theories/PacketFacts.v
theories/Properties_Packet.v
theories/TruncSpec.v
theories/Truncation.v
theories/EntityTrunc.v
theories/Properties_Truncation.v
theories/ReadValid.v
theories/ReadAnySpec.v
theories/ReadAny.v
theories/Properties_ReadAny.v
theories/CanonSpec.v
theories/CanonFacts.v
theories/SizeFacts.v
theories/StoreFacts.v
theories/Properties_Store.v
theories/Objects.v
theories/ObjectSpec.v
theories/ObjectFacts.v
theories/Properties_Objects.v
theories/TableHeap.v
theories/TableHeapSpec.v
theories/TableHeapFacts.v
theories/TableHeapProofs.v
theories/Properties_TableHeap.v
theories/SectionEndSpec.v
theories/SectionEndFacts.v
theories/Properties_SectionEnd.v
theories/Refs.v
theories/RefSpec.v
theories/RefFacts.v
theories/Properties_Refs.v
theories/WriterAppend.v
theories/WriterEndSpec.v
theories/WriterEndFacts.v
theories/WriterEndProofs.v
theories/Properties_WriterEnd.v
theories/GenFiles.v
theories/GenFilesSpec.v
theories/GenFilesFacts.v
theories/Properties_GenFiles.v
theories/PacketObjectFacts.v
theories/Properties_PacketObject.v
theories/GenTypes.v
theories/GenTypesSpec.v
theories/GenTypesFacts.v
theories/Properties_GenTypes.v
theories/VaryingIO.v
theories/VaryingIOSpec.v
theories/VaryingIOFacts.v
theories/Properties_VaryingIO.v
theories/Parts.v
theories/PartsSpec.v
theories/PartsFacts.v
theories/PartsAnySpec.v
theories/PartsAny.v
theories/Properties_Parts.v
theories/Debug.v
theories/DebugSpec.v
theories/DebugFacts.v
theories/DebugRunFacts.v
theories/DebugGraphFacts.v
theories/Properties_Debug.v
theories/EvolveSpec.v
theories/EvolveItem.v
theories/EvolveFacts.v
theories/EvolveTable.v
theories/EvolveProofs.v
theories/EvolveTheorems.v
theories/Properties_Evolve.v
theories/GenText.v
theories/CppText.v
theories/CppSem.v
theories/GenTextSpec.v
theories/GenLex.v
theories/GenParse.v
theories/GenDecls.v
theories/GenHeader.v
theories/GenCheck.v
theories/GenRun.v
theories/GenTextTheorems.v
theories/Properties_GenText.v
theories/GenRW.v
theories/CppFun.v
theories/GenRWSpec.v
theories/GenRWAst.v
theories/GenRWParse.v
theories/GenRWFile.v
theories/GenRWEval.v
theories/GenRWTheorems.v
theories/GenRWHost.v
theories/GenRWProject.v
theories/Properties_GenRW.v
theories/GenDyn.v
theories/CppDyn.v
theories/GenDynSpec.v
theories/GenDynAst.v
theories/GenDynParse.v
theories/GenDynFile.v
theories/GenDynCheck.v
theories/GenDynRun.v
theories/GenDynFind.v
theories/GenDynCalls.v
theories/GenDynTheorems.v
theories/GenDynProject.v
theories/Properties_GenDyn.v
theories/GenData.v
theories/CppData.v
theories/GenDataSpec.v
theories/GenDataFacts.v
theories/GenDataOps.v
theories/Properties_GenData.v
theories/GenAll.v
theories/GenAllSpec.v
theories/GenAllFacts.v
theories/GenAllTheorems.v
theories/Properties_GenAll.v
theories/DebugClasses.v
theories/DebugClassesSpec.v
theories/DebugClassesFacts.v
theories/Properties_DebugClasses.v
theories/TestThreads.v
theories/TestThreadsFacts.v
theories/TestSections.v
theories/TestSectionsSpec.v
theories/TestSectionsFacts.v
theories/TestFuzz.v
theories/TestFuzzFacts.v
theories/TestGraphs.v
theories/TestGraphsSpec.v
theories/TestGraphsFacts.v
theories/TestGraphsProofs.v
theories/TestGraphsIO.v
theories/TestGraphsIOSpec.v
theories/TestGraphsIOFacts.v
theories/TestValues.v
theories/TestValuesSpec.v
theories/TestValuesFacts.v
theories/TestStream.v
theories/TestStreamSpec.v
theories/TestStreamFacts.v
theories/TestDict.v
theories/TestDictSpec.v
theories/TestDictFacts.v
theories/Properties_Tests.v
theories/Properties_TestDict.v
theories/TestTypes.v
theories/TestTypesFacts.v
theories/Properties_TestTypes.v
theories/TestDyn.v
theories/TestDynSpec.v
theories/TestDynFacts.v
theories/Properties_TestDyn.v
theories/TestSectionsAnySpec.v
theories/TestSectionsAny.v
theories/TestSectionsDeep.v
theories/Properties_TestSectionsAny.v
theories/WrongOrderSpec.v
theories/WrongOrder.v
theories/WrongOrderClassSpec.v
theories/WrongOrderClass.v
theories/Properties_WrongOrder.v
theories/StreamHeap.v
theories/StreamHeapSpec.v
theories/StreamHeapFacts.v
theories/StreamHeapProps.v
theories/Properties_StreamHeap.v
