-Q theories Verif

theories/Base.v
theories/WidthModel.v
theories/WidthProofs.v
theories/Properties_Width.v
theories/DestModel.v
theories/DestProofs.v
theories/Properties_Dest.v
theories/LifeModel.v
theories/LifeProofs.v
theories/LifeCount.v
theories/Properties_Life.v
theories/FmtModel.v
theories/FmtProofs.v
theories/Properties_Fmt.v
theories/UtfSpec.v
theories/UtfModel.v
theories/UtfBits.v
theories/UtfDecode.v
theories/UtfLoop.v
theories/UtfSizeModel.v
theories/UtfSizeProofs.v
theories/UtfUnsafeProofs.v
theories/UtfForms.v
theories/UtfTheorems.v
theories/UtfLax.v
theories/UtfExact.v
theories/Properties_Utf.v
theories/GroupModel.v
theories/GroupSpec.v
theories/GroupProofs.v
theories/GroupDist.v
theories/DigitsModel.v
theories/DigitsSpec.v
theories/DigitsCount.v
theories/DigitsProofs.v
theories/CharsetModel.v
theories/IntSpec.v
theories/IntModel.v
theories/IntProofs.v
theories/Properties_Int.v
theories/GcbTable.v
theories/GcbTree.v
theories/GcbSpec.v
theories/WCalcModel.v
theories/GcbCheck.v
theories/WCalcProofs.v
theories/Properties_WCalc.v
theories/Properties_Assert.v
theories/SbcsTables.v
theories/SbcsSpec.v
theories/TransSpec.v
theories/SbcsModel.v
theories/SbcsProofs.v
theories/SbcsExact.v
theories/SbcsSignedModel.v
theories/SbcsSignedProofs.v
theories/Properties_Sbcs.v
theories/PivotModel.v
theories/PivotProofs.v
theories/PivotExact.v
theories/CsetModel.v
theories/CsetProofs.v
theories/Properties_Pivot.v
theories/PrintModel.v
theories/StringModel.v
theories/ToModel.v
theories/RoomProofs.v
theories/RoomCset.v
theories/PrintSpec.v
theories/PrintProofs.v
theories/StringSpec.v
theories/SegProofs.v
theories/SyntaxModel.v
theories/SyntaxSpec.v
theories/SyntaxProofs.v
theories/Properties_Syntax.v
theories/IterModel.v
theories/IterProofs.v
theories/Properties_Iter.v
theories/PunctModel.v
theories/PunctProofs.v
theories/Properties_Punct.v
theories/FreeModel.v
theories/FreeProofs.v
theories/Properties_Free.v
theories/UnsafeProofs.v
theories/StringProofs.v
theories/RoomInt.v
theories/RoomModest.v
theories/CharProofs.v
theories/JoinProofs.v
theories/ToProofs.v
theories/Properties_Print.v
theories/Properties_Join.v
theories/RangeModel.v
theories/RangeSpec.v
theories/RangeProofs.v
theories/Properties_Range.v
theories/TrSpec.v
theories/TrModel.v
theories/TrProofs.v
theories/Properties_Tr.v
theories/PackSpec.v
theories/PackModel.v
theories/PackProofs.v
theories/Properties_Pack.v
theories/FloatSpec.v
theories/FloatModel.v
theories/RoomFloat.v
theories/FloatArith.v
theories/FloatText.v
theories/FloatNum.v
theories/FloatInit.v
theories/FloatInit2.v
theories/FloatHex.v
theories/FloatProofs.v
theories/FloatFast.v
theories/FloatRead.v
theories/FloatArgs.v
theories/Properties_Float.v
theories/FloatSafe.v
theories/FloatHexCarry.v
theories/TextClosed.v
theories/FloatAlways.v
theories/HexSpec.v
theories/FloatHexRead.v
theories/Properties_FloatSafe.v
theories/DragonTables.v
theories/DragonCerts.v
theories/DragonModel.v
theories/DragonBest.v
theories/DragonArith.v
theories/DragonCheckDefs.v
theories/DragonCheck.v
theories/DragonAlg.v
theories/DragonNormal.v
theories/ShortestSpec.v
theories/DragonShorter.v
theories/DragonBridge.v
theories/DragonFloats.v
theories/DragonShortest.v
theories/DragonFormats.v
theories/FloatBits.v
theories/PrecisionSpec.v
theories/PrecisionProofs.v
theories/Properties_Shortest.v
theories/LocaleModel.v
theories/LocaleSpec.v
theories/LocaleProofs.v
theories/Properties_Locale.v
theories/Properties_Unsafe.v
theories/DynModel.v
theories/DynProofs.v
theories/Properties_Dyn.v
theories/Properties_Args.v
theories/Properties_Room.v
theories/Properties_Hex.v
theories/IntReadSpec.v
theories/IntRead.v
theories/Properties_IntRead.v
theories/FloatFmtRead.v
theories/Properties_FloatRead.v
theories/IntOverflow.v
theories/Properties_IntOverflow.v
theories/TextRead.v
theories/Properties_Text.v
theories/IntChars.v
theories/Properties_IntChars.v
theories/FloatChars.v
theories/Properties_FloatChars.v
theories/WellSpec.v
theories/WellProofs.v
theories/NoteSpec.v
theories/NoteModel.v
theories/NoteProofs.v
theories/Properties_Note.v
theories/Properties_Well.v
