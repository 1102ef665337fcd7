-Q theories Verif
theories/Asf/AttributeProofs.v
theories/Asf/CodecProofs.v
theories/Asf/DetailProofs.v
theories/Asf/DocProofs.v
theories/Asf/EndProofs.v
theories/Asf/Model.v
theories/Asf/ObjectProofs.v
theories/Asf/Proofs.v
theories/Asf/Properties.v
theories/Asf/Properties2.v
theories/Asf/PropertyLemmas.v
theories/Asf/PropertyLemmas2.v
theories/Asf/Published.v
theories/Asf/Spec.v
theories/Asf/Statements.v
theories/Asf/Tables.v
theories/Common/EndProofs.v
theories/Common/EscapeProofs.v
theories/Common/FieldProofs.v
theories/Common/Fields.v
theories/Common/Model.v
theories/Common/Properties.v
theories/Common/Properties2.v
theories/Common/PropertyLemmas.v
theories/Common/ReadProofs.v
theories/Common/Spec.v
theories/Common/StringProofs.v
theories/Common/TimeProofs.v
theories/Common/UnitTests.v
theories/Common/Utf8.v
theories/Common/Utf8Proofs.v
theories/Detect/EndlessProofs.v
theories/Detect/LinuxEnd.v
theories/Detect/LinuxOutput.v
theories/Detect/LinuxProofs.v
theories/Detect/Model.v
theories/Detect/MoreProofs.v
theories/Detect/Output.v
theories/Detect/OutputProofs.v
theories/Detect/Proofs.v
theories/Detect/Properties.v
theories/Detect/PropertyLemmas.v
theories/Detect/Samples.v
theories/Detect/Spec.v
theories/Detect/Statements.v
theories/Detect/TreeProofs.v
theories/Detect/TreeSpec.v
theories/Detect/WalkEnd.v
theories/Docs/Model.v
theories/Docs/Proofs.v
theories/Docs/Properties.v
theories/Docs/PropertyLemmas.v
theories/Docs/Spec.v
theories/Docs/Statements.v
theories/Excel/CellProofs.v
theories/Excel/DocProofs.v
theories/Excel/DocStatements.v
theories/Excel/DocXml.v
theories/Excel/Engine.v
theories/Excel/EngineProofs.v
theories/Excel/FieldProofs.v
theories/Excel/FieldSpec.v
theories/Excel/FieldStatements.v
theories/Excel/FineProofs.v
theories/Excel/FormulaProofs.v
theories/Excel/FormulaSpec.v
theories/Excel/FormulaSpec2.v
theories/Excel/FormulaStatements.v
theories/Excel/FormulaStatements2.v
theories/Excel/FunctionSpec.v
theories/Excel/HistoryProofs.v
theories/Excel/LinkProofs.v
theories/Excel/LoopProofs.v
theories/Excel/MisreadProofs.v
theories/Excel/Model.v
theories/Excel/Number.v
theories/Excel/NumberProofs.v
theories/Excel/NumberSpec.v
theories/Excel/OutputProofs.v
theories/Excel/OutputSafety.v
theories/Excel/PageSpec.v
theories/Excel/PassProofs.v
theories/Excel/PlainProofs.v
theories/Excel/Properties.v
theories/Excel/Properties2.v
theories/Excel/Properties3.v
theories/Excel/Properties4.v
theories/Excel/Properties5.v
theories/Excel/Properties6.v
theories/Excel/Properties7.v
theories/Excel/PropertyLemmas.v
theories/Excel/PropertyLemmas2.v
theories/Excel/PropertyLemmas3.v
theories/Excel/PropertyLemmas4.v
theories/Excel/PropertyLemmas5.v
theories/Excel/PropertyLemmas6.v
theories/Excel/PropertyLemmas7.v
theories/Excel/RecordProofs.v
theories/Excel/RecordSpec.v
theories/Excel/Records.v
theories/Excel/RenderEnd.v
theories/Excel/Samples.v
theories/Excel/SheetList.v
theories/Excel/SheetProofs.v
theories/Excel/Spec.v
theories/Excel/SstProofs.v
theories/Excel/Statements.v
theories/Excel/StringSpec.v
theories/Excel/Tables.v
theories/Excel/TextStatements.v
theories/Excel/TokenProofs.v
theories/Exe/Model.v
theories/Exe/Proofs.v
theories/Exe/Properties.v
theories/Exe/Properties2.v
theories/Exe/Properties3.v
theories/Exe/PropertyLemmas.v
theories/Exe/PropertyLemmas2.v
theories/Exe/PropertyLemmas3.v
theories/Exe/Published.v
theories/Exe/Published2.v
theories/Exe/Spec.v
theories/Exe/Tables.v
theories/Gen/Coverage.v
theories/Gen/ExtensionProofs.v
theories/Gen/ExtensionSamples.v
theories/Gen/Extensions.v
theories/Gen/Header.v
theories/Gen/Model.v
theories/Gen/Proofs.v
theories/Gen/Properties.v
theories/Gen/Properties2.v
theories/Gen/Properties3.v
theories/Gen/PropertyLemmas.v
theories/Gen/PropertyLemmas2.v
theories/Gen/PropertyLemmas3.v
theories/Gen/Published.v
theories/Gen/Source.v
theories/Gen/Spec.v
theories/Hidden/Colour.v
theories/Hidden/ColourProofs.v
theories/Hidden/Model.v
theories/Hidden/Proofs.v
theories/Hidden/Properties.v
theories/Hidden/Properties2.v
theories/Hidden/PropertyLemmas.v
theories/Hidden/PropertyLemmas2.v
theories/Hidden/Statements.v
theories/Lib/Bytes.v
theories/Lib/BytesFacts.v
theories/Lib/NumFacts.v
theories/Lib/NumSpec.v
theories/Lib/Res.v
theories/Lib/Text.v
theories/Magic/DocBase.v
theories/Magic/DocProofs.v
theories/Magic/DocUnique.v
theories/Magic/GuessProofs.v
theories/Magic/Model.v
theories/Magic/Properties.v
theories/Magic/PropertyLemmas.v
theories/Magic/Spec.v
theories/Magic/Statements.v
theories/Magic/Table.v
theories/Media/BrandSpec.v
theories/Media/Model.v
theories/Media/Proofs.v
theories/Media/Properties.v
theories/Media/Properties2.v
theories/Media/PropertyLemmas.v
theories/Media/PropertyLemmas2.v
theories/Media/Spec.v
theories/Media/WordPerfect.v
theories/Ole/ChainProofs.v
theories/Ole/DirProofs.v
theories/Ole/ExactProofs.v
theories/Ole/LoadProofs.v
theories/Ole/MemProofs.v
theories/Ole/Model.v
theories/Ole/OutcomeProofs.v
theories/Ole/PartProofs.v
theories/Ole/PathSamples.v
theories/Ole/Properties.v
theories/Ole/PropertyLemmas.v
theories/Ole/SafetyProofs.v
theories/Ole/Samples.v
theories/Ole/Spec.v
theories/Ole/Statements.v
theories/Ole/StreamProofs.v
theories/Ole/TreeProofs.v
theories/Program/ArchiveProofs.v
theories/Program/AsfProofs.v
theories/Program/BothProofs.v
theories/Program/CompoundProofs.v
theories/Program/DocProofs.v
theories/Program/EndProofs.v
theories/Program/EndStatements.v
theories/Program/KindProofs.v
theories/Program/KindStatements.v
theories/Program/LinuxProofs.v
theories/Program/MachProofs.v
theories/Program/Model.v
theories/Program/PartDocs.v
theories/Program/PartProgram.v
theories/Program/PartProofs.v
theories/Program/PartSamples.v
theories/Program/PartStatements.v
theories/Program/PrefixProofs.v
theories/Program/Properties.v
theories/Program/Properties10.v
theories/Program/Properties2.v
theories/Program/Properties3.v
theories/Program/Properties4.v
theories/Program/Properties5.v
theories/Program/Properties6.v
theories/Program/Properties7.v
theories/Program/Properties8.v
theories/Program/Properties9.v
theories/Program/PropertyLemmas.v
theories/Program/PropertyLemmas10.v
theories/Program/PropertyLemmas2.v
theories/Program/PropertyLemmas3.v
theories/Program/PropertyLemmas4.v
theories/Program/PropertyLemmas5.v
theories/Program/PropertyLemmas6.v
theories/Program/PropertyLemmas7.v
theories/Program/PropertyLemmas8.v
theories/Program/PropertyLemmas9.v
theories/Program/RestProofs.v
theories/Program/RestStatements.v
theories/Program/RowProofs.v
theories/Program/RowStatements.v
theories/Program/SafetyProofs.v
theories/Program/Samples.v
theories/Program/ScanProofs.v
theories/Program/Statements.v
theories/Program/WorkbookProofs.v
theories/Program/ZipProofs.v
theories/Propset/DocProofs.v
theories/Propset/MemoryProofs.v
theories/Propset/Model.v
theories/Propset/NumberProofs.v
theories/Propset/Output.v
theories/Propset/Properties.v
theories/Propset/PropertyLemmas.v
theories/Propset/Samples.v
theories/Propset/Spec.v
theories/Propset/Statements.v
theories/Propset/StreamProofs.v
theories/Propset/ValueProofs.v
theories/Propset/WideProofs.v
theories/Vba/Analyze.v
theories/Vba/DirProofs.v
theories/Vba/DirSafety.v
theories/Vba/DirSpec.v
theories/Vba/EndProofs.v
theories/Vba/FileProofs.v
theories/Vba/FileSpec.v
theories/Vba/Model.v
theories/Vba/Output.v
theories/Vba/OutputProofs.v
theories/Vba/ProjectLemmas.v
theories/Vba/Proofs.v
theories/Vba/Properties.v
theories/Vba/PropertiesProject.v
theories/Vba/PropertyLemmas.v
theories/Vba/SafetyProofs.v
theories/Vba/Samples.v
theories/Vba/ShapeProofs.v
theories/Vba/Spec.v
theories/Vba/Statements.v
theories/Zip/DocProofs.v
theories/Zip/KindProofs.v
theories/Zip/Model.v
theories/Zip/Proofs.v
theories/Zip/Properties.v
theories/Zip/PropertyLemmas.v
theories/Zip/Spec.v
theories/Zip/Statements.v
theories/Zip/Tables.v
