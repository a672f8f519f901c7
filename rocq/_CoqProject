-Q theories Verif
theories/Base.v
theories/Spec.v
theories/Str.v
theories/Dec.v
theories/Aes.v
theories/AesProofs.v
theories/Crypto.v
theories/CryptoProofs.v
theories/Utf8.v
theories/Utf8Proofs.v
theories/Flt.v
theories/FltProofs.v
theories/Json.v
theories/M_Raw.v
theories/RawProofs.v
theories/P_Crypto.v
theories/JsonProofs.v
theories/M_Color.v
theories/ColorProofs.v
theories/Recs.v
theories/RecsProofs.v
theories/LinesProofs.v
theories/M_File.v
theories/M_Library.v
theories/M_Resource.v
theories/FileProofs.v
theories/P_Color.v
theories/ResFilesProofs.v
theories/LibraryProofs.v
theories/P_Files.v
theories/M_Date.v
theories/DateProofs.v
theories/M_Project.v
theories/ProjectProofs.v
theories/P_Project.v
theories/M_View.v
theories/FltQ.v
theories/FltGapData.v
theories/FltGap.v
theories/FltF32.v
theories/JsonF32.v
theories/ViewProofs.v
theories/ViewFileProofs.v
theories/P_View.v
theories/M_Logic.v
theories/LogicProofs.v
theories/LogicFileProofs.v
theories/LogicMapProofs.v
theories/LogicCutProofs.v
theories/P_Logic.v
theories/P_Records.v
theories/P_Panic.v
theories/M_Util.v
theories/A_Block.v
theories/P_Content.v
theories/SpecBlock.v
theories/FltCanon.v
theories/BlockContentProofs.v
theories/BlockProofs.v
theories/BlockReadProofs.v
theories/BlockFailProofs.v
theories/BlockWriteProofs.v
theories/BlockTripProofs.v
theories/P_Block.v
theories/A_View.v
theories/SpecView.v
theories/ViewTreeProofs.v
theories/ViewFlatProofs.v
theories/P_ApiView.v
theories/A_Screen.v
theories/M_Parsed.v
theories/A_Project.v
theories/T_Repo.v
theories/SpecScreen.v
theories/ScreenProofs.v
theories/P_Screen.v
theories/P_Resources.v
theories/SpecProject.v
theories/ApiProjectProofs.v
theories/P_ApiProject.v
theories/P_Parsed.v
theories/SpecLoad.v
theories/LoadProofs.v
theories/P_Loading.v
theories/SpecLines.v
theories/SpecReading.v
theories/ReadingProofs.v
theories/LogicReadingProofs.v
theories/StorableProofs.v
theories/ProjectReadingProofs.v
theories/P_Reading.v
theories/SpecJson.v
theories/JsonGrammar.v
theories/SpecNumber.v
theories/NumberProofs.v
theories/NumberTextProofs.v
theories/NumberShortProofs.v
theories/NumberStdProofs.v
theories/ShortestProofs.v
theories/UniqueProofs.v
theories/SpecRecord.v
theories/RecordProofs.v
theories/SpecDate.v
theories/DateTextProofs.v
theories/DateBackProofs.v
theories/ProjectCrashProofs.v
theories/P_Json.v
theories/P_Number.v
theories/E_Examples.v
theories/SpecTools.v
theories/ToolProofs.v
theories/P_Tools.v
theories/M_Message.v
theories/SpecMessage.v
theories/P_Message.v
theories/P_BlockError.v
theories/P_LoadMessage.v
theories/SpecSave.v
theories/SaveProofs.v
theories/RemainProofs.v
theories/IconProofs.v
theories/SpecStrings.v
theories/StringsProofs.v
theories/StringsApiProofs.v
theories/StringsReadProofs.v
theories/StringsLoadProofs.v
theories/P_Save.v
theories/P_Strings.v
theories/SpecInto.v
theories/IntoProofs.v
theories/P_Into.v
theories/SpecWrite.v
theories/WriteProofs.v
theories/P_Write.v
theories/SpecAes.v
theories/AesSpecProofs.v
theories/P_Cipher.v
theories/SpecText.v
theories/P_Text.v
theories/P_False.v
theories/SpecBack.v
theories/BackProofs.v
theories/P_Back.v
theories/SpecSettle.v
theories/SettleProofs.v
theories/SettleSaveProofs.v
theories/P_Settle.v
theories/SpecResave.v
theories/CleanProofs.v
theories/ResaveProofs.v
theories/P_Resave.v
theories/SpecSpread.v
theories/SpreadProofs.v
theories/P_Spread.v
theories/SpecSaid.v
theories/SaidProofs.v
theories/P_Said.v
theories/SpecTwice.v
theories/TwiceProofs.v
theories/P_Twice.v
theories/SpecFill.v
theories/FillProofs.v
theories/P_Fill.v
theories/M_Iter.v
theories/SpecIter.v
theories/IterProofs.v
theories/P_Iter.v
theories/A_Equal.v
theories/SpecEqual.v
theories/EqualProofs.v
theories/EqualLoadProofs.v
theories/EqualTripProofs.v
theories/P_Equal.v
theories/SpecPath.v
theories/PathProofs.v
theories/P_Path.v
theories/SpecMenu.v
theories/MenuProofs.v
theories/MenuSaidProofs.v
theories/P_Menu.v
theories/SpecAnyCode.v
theories/AnyCodeProofs.v
theories/AnySaveProofs.v
theories/P_AnyCode.v
theories/SpecCalm.v
theories/CalmProofs.v
theories/P_Calm.v
theories/SpecRefs.v
theories/RefsProofs.v
theories/P_Refs.v
theories/RereadProofs.v
theories/SpecReread.v
theories/LogicRereadProofs.v
theories/P_Reread.v
theories/P_Reopen.v
theories/SpecTidy.v
theories/LoadedProofs.v
theories/P_Loaded.v
theories/BlankProofs.v
theories/P_Blank.v
