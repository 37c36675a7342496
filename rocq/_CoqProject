-Q theories Verif

theories/Base.v
theories/Num.v
theories/Json.v
theories/Types.v
theories/Errors.v
theories/B64.v
theories/Uuid.v
theories/Ext.v
theories/Decode.v
theories/ZeroReset.v
theories/Utf8.v
theories/Writer.v
theories/Encode.v
theories/Grammar.v
theories/Parser.v
theories/Lemmas.v
theories/Wf.v
theories/Api.v
theories/ProofParser.v
theories/ProofSound.v
theories/ProofStruct.v
theories/Denote.v
theories/ProofNum.v
theories/ProofDenote.v
theories/Blame.v
theories/ProofBlame.v
theories/ProofParts.v
theories/Spec.v
theories/Samples.v
theories/ProofOrder.v
theories/ProofDecode.v
theories/ProofReport.v
theories/Props_Decode.v
theories/Update.v
theories/ProofUpdate.v
theories/Lenient.v
theories/ProofLenient.v
theories/ProofReport2.v
theories/Props_Decode2.v
theories/Codec.v
theories/ProofCodec.v
theories/Represent.v
theories/ProofZero.v
theories/ProofEncode.v
theories/RoundTrip.v
theories/ProofRound.v
theories/ProofReport3.v
theories/Props_Codec.v
theories/Crash.v
theories/EncSpec.v
theories/ProofTotal.v
theories/ProofReport4.v
theories/ZeroTrip.v
theories/ProofZeroTrip.v
theories/SamplesEnc.v
theories/ProofReport5.v
theories/MapOrder.v
theories/ProofMapOrder.v
theories/Props_Encode.v
theories/Reuse.v
theories/ProofReset.v
theories/ProofReport6.v
theories/Props_Reset.v
theories/ProofNamed.v
theories/Props_Named.v
theories/Pool.v
theories/ProofPool.v
theories/ProofDeep.v
theories/Props_Deep.v
theories/Props_Pool.v
theories/Gen.v
theories/GenSpec.v
theories/ProofGen.v
theories/ProofFlat.v
theories/SamplesGen.v
theories/ProofReport7.v
theories/Props_Gen.v
theories/GoAst.v
theories/Templ.v
theories/TemplEnc.v
theories/GoSem.v
theories/PrintGo.v
theories/GoldenSrc.v
theories/Golden.v
theories/GoldenEnc.v
theories/Elab.v
theories/ProofSem.v
theories/ProofStep.v
theories/ProofTBasic.v
theories/ProofElab.v
theories/ProofTFld.v
theories/ProofTElt.v
theories/ProofTSlice.v
theories/ProofTArr.v
theories/ProofTMap.v
theories/ProofTMap2.v
theories/ProofTNamed.v
theories/ProofTMeth.v
theories/ProofTVal.v
theories/ProofTShape.v
theories/ProofTPos.v
theories/ProofTField.v
theories/ProofTStruct.v
theories/Program.v
theories/ProofTDecl.v
theories/ProofProgram.v
theories/Elaborate.v
theories/ProofElaborate.v
theories/TemplSpec.v
theories/SamplesTempl.v
theories/ProofTempl.v
theories/Props_Templ.v
theories/GoEnc.v
theories/ElabEnc.v
theories/ProgramEnc.v
theories/ProofESem.v
theories/ProofEZero.v
theories/ProofEZero2.v
theories/ProofEZeroProg.v
theories/ProofEElem.v
theories/ProofEField.v
theories/ProofEField2.v
theories/ProofEDecl.v
theories/ProofEProg.v
theories/ElaborateEnc.v
theories/ProofElabEnc.v
theories/Props_EncTempl.v
theories/GoReset.v
theories/ElabRes.v
theories/ProofRVar.v
theories/ProofRDecl.v
theories/ProofRProg.v
theories/ProofElabRes.v
theories/Props_ResTempl.v
theories/Packages.v
theories/PackagesSpec.v
theories/ProofPackages.v
theories/SamplesPackages.v
theories/ProofPackagesRef.v
theories/MeaningSpec.v
theories/ProofMeaning.v
theories/SamplesMeaning.v
theories/ProofMeaningRef.v
theories/Props_Packages.v
theories/GoType.v
theories/ElabType.v
theories/ProofType.v
theories/ProofTypeTac.v
theories/ProofTypeFld.v
theories/ProofTypeElt.v
theories/ProofTypeStruct.v
theories/ProofTypeBody.v
theories/ProofTypeDecl.v
theories/ProofTypeTable.v
theories/ProofTypeZero.v
theories/ProofTypeReset.v
theories/ProofTypeMarsh.v
theories/ProofTypeMarshDecl.v
theories/ProofTypeTableEnc.v
theories/SamplesType.v
theories/Props_Type.v
theories/Props_TypeEnc.v
theories/BlockSpec.v
theories/Block.v
theories/ProofBlock.v
theories/SamplesBlock.v
theories/ProofBlock2.v
theories/Props_Block.v
theories/Wrap.v
theories/WrapSpec.v
theories/WrapType.v
theories/WrapProg.v
theories/GoldenWrap.v
theories/ProofWrap.v
theories/ProofWrap2.v
theories/ProofWrap3.v
theories/Props_Wrap.v
theories/Files.v
theories/FilesSpec.v
theories/FilesPar.v
theories/ProofFiles.v
theories/ProofFiles2.v
theories/ProofFilesPar.v
theories/ProofRegen.v
theories/Props_Files.v
theories/Message.v
theories/MessageSpec.v
theories/ProofMessage.v
theories/Props_Message.v
theories/FloatSpec.v
theories/ProofFloat.v
theories/ProofFloat2.v
theories/Props_Float.v
theories/ProofNames.v
theories/Props_Names.v
theories/ProofDistinct.v
theories/Props_Distinct.v
theories/StableSpec.v
theories/ProofStable.v
theories/Props_Stable.v
