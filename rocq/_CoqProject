-Q theories Verif
theories/Base.v
theories/Bits/Model.v
theories/Bits/Spec.v
theories/Bits/Proofs.v
theories/Bits/StringProofs.v
theories/Bits/Properties.v
theories/Varcode/Model.v
theories/Varcode/Proofs.v
theories/Varcode/Properties.v
theories/Num/Float.v
theories/Num/FloatProofs.v
theories/Varinfo/Model.v
theories/Varinfo/Proofs.v
theories/Varinfo/RangeProofs.v
theories/Varinfo/Properties.v
theories/Var/Model.v
theories/Var/Spec.v
theories/Var/Proofs.v
theories/Var/TextProofs.v
theories/Var/AttrProofs.v
theories/Var/CodecProofs.v
theories/Var/Properties.v
theories/Var/Memory.v
theories/Var/MemorySpec.v
theories/Var/MemoryProofs.v
theories/Var/MemoryWorld.v
theories/Var/MemoryProperties.v
theories/Tables/Model.v
theories/Tables/Spec.v
theories/Tables/Proofs.v
theories/Tables/AlterProofs.v
theories/Tables/DtableProofs.v
theories/Tables/LineProofs.v
theories/Tables/LoadProofs.v
theories/Tables/Properties.v
theories/Interp/Model.v
theories/Interp/Sim.v
theories/Interp/Example.v
theories/Interp/Spec.v
theories/Interp/ExpandProofs.v
theories/Interp/Holds.v
theories/Interp/Appears.v
theories/Interp/SureProofs.v
theories/Interp/Hom.v
theories/Interp/BitmapProofs.v
theories/Interp/EventProofs.v
theories/Interp/FuelProofs.v
theories/Interp/InlineProofs.v
theories/Interp/Follow.v
theories/Interp/Properties.v
theories/Codec/Model.v
theories/Codec/Spec.v
theories/Codec/ValueProofs.v
theories/Codec/Proofs.v
theories/Codec/TransferProofs.v
theories/Codec/Properties.v
theories/Codec/Compressed.v
theories/Codec/CompressedSpec.v
theories/Codec/ColumnProofs.v
theories/Codec/CompressedProofs.v
theories/Codec/CompressedProperties.v
theories/Codec/EndProofs.v
theories/Codec/Checked.v
theories/Codec/CheckedComp.v
theories/Codec/CheckedProofs.v
theories/Codec/StepProofs.v
theories/Codec/CheckedSafe.v
theories/Codec/CheckedCompSafe.v
theories/Codec/CheckedEnc.v
theories/Codec/CheckedEncProofs.v
theories/Codec/Again.v
theories/Codec/AgainCheck.v
theories/Codec/AgainValue.v
theories/Codec/AgainProofs.v
theories/Codec/AgainSteps.v
theories/Codec/AgainPlain.v
theories/Codec/AgainProperties.v
theories/Codec/Sound.v
theories/Codec/SoundProofs.v
theories/Codec/SoundRuns.v
theories/Message/Model.v
theories/Message/Spec.v
theories/Message/Proofs.v
theories/Message/LayoutProofs.v
theories/Message/ReadProofs.v
theories/Message/StreamProofs.v
theories/Message/SafeProofs.v
theories/Message/RoundProofs.v
theories/Message/Properties.v
theories/Subset/Model.v
theories/Subset/Spec.v
theories/Subset/Proofs.v
theories/Subset/Properties.v
theories/Message/Diff.v
theories/Message/DiffProperties.v
theories/Validator/Model.v
theories/Validator/Spec.v
theories/Validator/Proofs.v
theories/Validator/CompleteProofs.v
theories/Validator/Properties.v
theories/Crex/Model.v
theories/Crex/Spec.v
theories/Crex/ValueProofs.v
theories/Crex/Proofs.v
theories/Crex/MessageProofs.v
theories/Crex/StreamProofs.v
theories/Crex/SafeProofs.v
theories/Crex/UbProofs.v
theories/Crex/Properties.v
theories/Crex/Again.v
theories/Crex/AgainProofs.v
theories/Crex/AgainProperties.v
theories/Select/Model.v
theories/Select/Spec.v
theories/Select/Proofs.v
theories/Select/Properties.v
theories/Conv/Model.v
theories/Conv/Spec.v
theories/Conv/Proofs.v
theories/Conv/Properties.v
theories/Shipped/Text.v
theories/Shipped/Check.v
theories/Shipped/BLines.v
theories/Shipped/DLines.v
theories/Shipped/BTables.v
theories/Shipped/DTables.v
theories/Shipped/Depths.v
theories/Shipped/Catalog.v
theories/Shipped/Spec.v
theories/Shipped/BChecked.v
theories/Shipped/CChecked.v
theories/Shipped/DChecked.v
theories/Shipped/WChecked.v
theories/Shipped/SChecked.v
theories/Shipped/Proofs.v
theories/Shipped/Model.v
theories/Shipped/ChoiceProofs.v
theories/Shipped/LoadProofs.v
theories/Shipped/EndProofs.v
theories/Shipped/Properties.v
theories/Message/Checked.v
theories/Message/BytesProperties.v
theories/Message/CheckedEnc.v
theories/Message/EncodeProperties.v
theories/Crex/CheckedEnc.v
theories/Crex/CheckedEncProofs.v
theories/Crex/OperatorProperties.v
theories/Crex/EncodeProperties.v
theories/Crex/SoundProperties.v
theories/Listing/Model.v
theories/Listing/Spec.v
theories/Listing/Proofs.v
theories/Listing/ListProofs.v
theories/Listing/GoesProofs.v
theories/Listing/WhenProofs.v
theories/Listing/FaithfulProofs.v
theories/Listing/Properties.v
theories/Structured/Model.v
theories/Structured/Spec.v
theories/Structured/Proofs.v
theories/Structured/FollowProofs.v
theories/Structured/DecodedProofs.v
theories/Structured/Properties.v
theories/Python/Model.v
theories/Python/Utf8Proofs.v
theories/Python/Properties.v
theories/Message/Again.v
theories/Message/AgainProperties.v
theories/Shipped/BytesProperties.v
theories/Shipped/AgainProperties.v
theories/Shipped/SoundProperties.v
theories/Shipped/EncodeProperties.v
theories/Var/Format.v
theories/Var/FormatSpec.v
theories/Var/FormatProofs.v
theories/Var/FormatProperties.v
theories/Shipped/FormatProperties.v
theories/Shipped/CrexProperties.v
theories/Threads/Model.v
theories/Threads/Spec.v
theories/Threads/Proofs.v
theories/Threads/Properties.v
theories/Threads/Options.v
theories/Threads/OptionsProperties.v
theories/Validator/CrexSpec.v
theories/Validator/CrexProofs.v
theories/Validator/CrexProperties.v
theories/Wrep/Model.v
theories/Wrep/Spec.v
theories/Wrep/Proofs.v
theories/Wrep/Properties.v
theories/Wrep/FileProperties.v
theories/Print/Model.v
theories/Print/Spec.v
theories/Print/Proofs.v
theories/Print/Properties.v
theories/Codec/AgainComp.v
theories/Codec/AgainCompValue.v
theories/Codec/AgainCompSteps.v
theories/Codec/AgainCompProperties.v
theories/Message/AgainCompProperties.v
theories/Codec/AgainCompPlain.v
theories/Shipped/AgainCompProperties.v
theories/Interp/PlainRun.v
theories/Print/DecodedProperties.v
theories/Wrep/Dump.v
theories/Wrep/DumpProperties.v
theories/Strings/Model.v
theories/Strings/Spec.v
theories/Strings/Proofs.v
theories/Strings/TextProofs.v
theories/Strings/SplitProofs.v
theories/Strings/PathProofs.v
theories/Strings/Properties.v
theories/Print/DecodedCrexProperties.v
theories/Var/DiffProofs.v
theories/Message/Compare.v
theories/Message/CompareProperties.v
theories/Shipped/CompareProperties.v
theories/Var/CopyProperties.v
theories/Select/Explain.v
theories/Select/ExplainProperties.v
theories/Wrep/Template.v
theories/Wrep/TemplateProperties.v
theories/Wrep/Structure.v
theories/Wrep/StructureProperties.v
theories/Verbose/Model.v
theories/Verbose/Proofs.v
theories/Verbose/Runs.v
theories/Verbose/Spec.v
theories/Verbose/SameProofs.v
theories/Verbose/TextProofs.v
theories/Verbose/TextRuns.v
theories/Verbose/Properties.v
theories/Tables/CountProperties.v
theories/Var/MoveProperties.v
theories/Verbose/UniqueProofs.v
theories/Verbose/MoreProperties.v
theories/Python/Info.v
theories/Python/InfoProperties.v
theories/Conv/FlagProperties.v
theories/Python/NumberProperties.v
theories/Conv/CloudProperties.v
theories/Message/WireProperties.v
theories/Crex/WireProperties.v
theories/Message/ExpandedWireProperties.v
theories/Crex/ExpandedWireProperties.v
theories/Message/WireReadProperties.v
theories/Crex/WireReadProperties.v
theories/Message/OperatorWireProperties.v
theories/Bits/SkipProperties.v
theories/Bits/LeftProperties.v
theories/Strings/CaseProperties.v
theories/Crex/WriteProperties.v
theories/Subset/StoreProperties.v
theories/Python/FormatProperties.v
theories/Subset/Copy.v
theories/Subset/CopyProperties.v
