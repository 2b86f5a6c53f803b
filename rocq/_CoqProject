-Q theories Verif
theories/Base/Cpp.v
theories/Model/Sort.v
theories/Spec/SortSpec.v
theories/Proofs/SortLemmas.v
theories/Proofs/InsertionSort.v
theories/Proofs/MergeSort.v
theories/Proofs/HeapSort.v
theories/Proofs/QuickSort.v
theories/Proofs/TimSort.v
theories/Properties/Sorting.v
theories/Base/Mem.v
theories/Model/Cyclic.v
theories/Spec/QueueSpec.v
theories/Proofs/MemLemmas.v
theories/Proofs/VcbProofs.v
theories/Proofs/VcqProofs.v
theories/Properties/Cyclic.v
theories/Model/Vector.v
theories/Spec/VectorSpec.v
theories/Proofs/VectorProofs.v
theories/Properties/Vector.v
theories/Model/Sequence.v
theories/Spec/SequenceSpec.v
theories/Proofs/SequenceProofs.v
theories/Properties/Sequence.v
theories/Model/Str.v
theories/Model/Prelude.v
theories/Spec/StrSpec.v
theories/Spec/PreludeSpec.v
theories/Proofs/StrProofs.v
theories/Properties/Strings.v
theories/Proofs/PreludeProofs.v
theories/Proofs/PreludeSeqProofs.v
theories/Proofs/PreludeViewProofs.v
theories/Properties/Prelude.v
theories/Model/Enum.v
theories/Model/Maybe.v
theories/Spec/EnumSpec.v
theories/Proofs/EnumProofs.v
theories/Proofs/MaybeProofs.v
theories/Properties/Enum.v
theories/Model/Numeric.v
theories/Model/Scientific.v
theories/Spec/NumericSpec.v
theories/Spec/ScientificSpec.v
theories/Proofs/NumericProofs.v
theories/Proofs/ScientificProofs.v
theories/Properties/Numeric.v
theories/Properties/Scientific.v
theories/Spec/ConcurrencySpec.v
theories/Model/Concurrency.v
theories/Proofs/ConcurrencyProofs.v
theories/Properties/Concurrency.v
theories/Spec/FileSpec.v
theories/Model/File.v
theories/Proofs/FileProofs.v
theories/Properties/File.v
theories/Model/FuncPtr.v
theories/Properties/FuncPtr.v
theories/Model/FmtInt.v
theories/Model/Utf8.v
theories/Model/Escape.v
theories/Spec/FormatSpec.v
theories/Spec/Utf8Spec.v
theories/Spec/EscapeSpec.v
theories/Spec/FieldSpec.v
theories/Proofs/FmtIntProofs.v
theories/Proofs/Utf8Decode.v
theories/Proofs/Utf8Proofs.v
theories/Proofs/EscapeProofs.v
theories/Proofs/FormatWrite.v
theories/Proofs/GroupingProofs.v
theories/Proofs/FormatValue.v
theories/Properties/Text.v
theories/Spec/TemplateSpec.v
theories/Proofs/FormatScan.v
theories/Proofs/FormatSafe.v
theories/Proofs/FormatParse.v
theories/Proofs/TemplateProofs.v
theories/Proofs/FloatFormat.v
theories/Proofs/ShowsUnique.v
theories/Properties/Format.v
theories/Model/Dragonbox.v
theories/Spec/FloatSpec.v
theories/Proofs/FloatSpecProofs.v
theories/Proofs/Farey.v
theories/Proofs/DragonboxCore.v
theories/Proofs/DragonboxArith.v
theories/Proofs/DragonboxRegular.v
theories/Proofs/DragonboxCerts.v
theories/Proofs/DragonboxTables.v
theories/Proofs/DragonboxProofs.v
theories/Properties/Float.v
theories/Model/FloatLayout.v
theories/Spec/FloatText.v
theories/Proofs/FloatLayoutProofs.v
theories/Proofs/FloatTextProofs.v
theories/Properties/FloatText.v
theories/Model/Bigint.v
theories/Model/FloatDigits.v
theories/Model/FormatSpecs.v
theories/Model/Format.v
theories/Spec/FloatRound.v
theories/Proofs/SegmentProofs.v
theories/Proofs/DigitsCerts.v
theories/Proofs/DigitsTables.v
theories/Proofs/FirstSegment.v
theories/Proofs/BigintProofs.v
theories/Proofs/BigintDivision.v
theories/Proofs/DragonProofs.v
theories/Proofs/FloatDigitsProofs.v
theories/Spec/FloatField.v
theories/Proofs/FloatPrecisionProofs.v
theories/Proofs/FloatFieldProofs.v
theories/Proofs/HexFloatProofs.v
theories/Proofs/FloatWriteProofs.v
theories/Proofs/FloatRoundTrip.v
theories/Proofs/FloatLocal.v
theories/Properties/FloatPrecision.v
theories/Proofs/TemplateConverse.v
theories/Properties/FloatTemplate.v
theories/Properties/Grammar.v
theories/Model/FormatCheck.v
theories/Spec/CheckSpec.v
theories/Proofs/CheckProofs.v
theories/Proofs/CheckAgree.v
theories/Properties/FormatCheck.v
theories/Model/FmtBuffer.v
theories/Spec/BufferSpec.v
theories/Proofs/FmtBufferProofs.v
theories/Proofs/FmtBufferWorld.v
theories/Proofs/FmtBufferEnds.v
theories/Properties/FmtBuffer.v
theories/Model/Print.v
theories/Properties/Print.v
theories/Model/Ieee.v
theories/Spec/IeeeSpec.v
theories/Proofs/IeeeProofs.v
theories/Proofs/IeeeOrder.v
theories/Proofs/IeeeError.v
theories/Proofs/IeeeStats.v
theories/Proofs/IeeeSpread.v
theories/Properties/Ieee.v
theories/Properties/Pointers.v
theories/Model/FormatInt.v
theories/Proofs/FormatInt.v
theories/Properties/FormatInt.v
theories/Model/ErrorCode.v
theories/Proofs/FmtBufferInPlace.v
theories/Proofs/ErrorCode.v
theories/Properties/ErrorCode.v
theories/Model/Utf16.v
theories/Spec/Utf16Spec.v
theories/Proofs/Utf16Proofs.v
theories/Properties/Utf16.v
