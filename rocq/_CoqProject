-Q theories Verif
theories/AdviceModel.v
theories/AdviceMore.v
theories/AdviceProofs.v
theories/AdviceSpec.v
theories/ArithModel.v
theories/AtonSpec.v
theories/AttrMore.v
theories/AttrProofs.v
theories/AttrSpec.v
theories/Base.v
theories/BaseModel.v
theories/BaseProofs.v
theories/BaseSerde.v
theories/BaseSpec.v
theories/BooleanModel.v
theories/BooleanProofs.v
theories/CallModel.v
theories/CodecModel.v
theories/CodecProofs.v
theories/CodecSpec.v
theories/CollModel.v
theories/CollsModel.v
theories/ConformDoc.v
theories/ConformNet.v
theories/ConformValue.v
theories/ConstModel.v
theories/CrashModel.v
theories/CrashProofs.v
theories/CrashSpec.v
theories/DeModel.v
theories/DescrModel.v
theories/DisplayModel.v
theories/DomainModel.v
theories/DomainProofs.v
theories/DomainSpec.v
theories/EmailDomain.v
theories/EmailMain.v
theories/EmailModel.v
theories/EmailParts.v
theories/EmailProofs.v
theories/EmailRound.v
theories/EmailSpec.v
theories/EntryFacts.v
theories/ExpectModel.v
theories/FeatureModel.v
theories/FloatModel.v
theories/FloatNear.v
theories/FloatRound.v
theories/FloatSpec.v
theories/FloatText.v
theories/FloatUnique.v
theories/FloatWrites.v
theories/HostModel.v
theories/HostProofs.v
theories/HostSpec.v
theories/HttpModel.v
theories/HttpProofs.v
theories/HttpSpec.v
theories/HygieneModel.v
theories/IanaProofs.v
theories/IanaSpec.v
theories/IdnaDigits.v
theories/IdnaFrag.v
theories/IntModel.v
theories/IntProofs.v
theories/IntSpec.v
theories/IntStr.v
theories/IntStrProofs.v
theories/IpModel.v
theories/IpProofs.v
theories/IpSpec.v
theories/JsonModel.v
theories/KeyModel.v
theories/LengthModel.v
theories/LengthProofs.v
theories/LibModel.v
theories/LineModel.v
theories/LineProofs.v
theories/LineSpec.v
theories/LocalProofs.v
theories/MacModel.v
theories/MacProofs.v
theories/MacSerde.v
theories/MacSpec.v
theories/MacroModel.v
theories/MacroProofs.v
theories/MacroSpec.v
theories/MessageModel.v
theories/MetaModel.v
theories/MetaMore.v
theories/MetaProofs.v
theories/MetaSpec.v
theories/MetaTables.v
theories/NetModel.v
theories/NetProofs.v
theories/NetSpec.v
theories/NumberCast.v
theories/NumberModel.v
theories/NumberProofs.v
theories/NumberRound.v
theories/NumberSpec.v
theories/PhoneModel.v
theories/PhoneProofs.v
theories/PropAddr.v
theories/PropAdvice.v
theories/PropArith.v
theories/PropAttr.v
theories/PropBase.v
theories/PropBoolean.v
theories/PropBuild.v
theories/PropCall.v
theories/PropCase.v
theories/PropColl.v
theories/PropColls.v
theories/PropCompact.v
theories/PropConst.v
theories/PropCrash.v
theories/PropDefault.v
theories/PropDescr.v
theories/PropDisplay.v
theories/PropDomain.v
theories/PropEmail.v
theories/PropEmailLen.v
theories/PropErrSet.v
theories/PropErrSetB.v
theories/PropErrors.v
theories/PropErrorsB.v
theories/PropErrorsC.v
theories/PropExpect.v
theories/PropFeature.v
theories/PropFile.v
theories/PropFirst.v
theories/PropFirstErr.v
theories/PropFirstErrB.v
theories/PropFirstErrC.v
theories/PropFirstErrD.v
theories/PropFloat.v
theories/PropGuar.v
theories/PropGuarB.v
theories/PropGuarC.v
theories/PropGuarD.v
theories/PropHost.v
theories/PropHttp.v
theories/PropHygiene.v
theories/PropIndep.v
theories/PropInject.v
theories/PropInt.v
theories/PropIp.v
theories/PropJoin.v
theories/PropJson.v
theories/PropKey.v
theories/PropLib.v
theories/PropLine.v
theories/PropLines.v
theories/PropLocal.v
theories/PropLoose.v
theories/PropMac.v
theories/PropMacPrint.v
theories/PropMacro.v
theories/PropMade.v
theories/PropMadeB.v
theories/PropMailbox.v
theories/PropMessage.v
theories/PropMessageB.v
theories/PropMessageC.v
theories/PropMeta.v
theories/PropNames.v
theories/PropNumber.v
theories/PropOnce.v
theories/PropOpt.v
theories/PropOrder.v
theories/PropPanic.v
theories/PropPanicDe.v
theories/PropPhone.v
theories/PropPolicy.v
theories/PropPrefix.v
theories/PropQuery.v
theories/PropReach.v
theories/PropRead.v
theories/PropReflect.v
theories/PropRel.v
theories/PropRelB.v
theories/PropReply.v
theories/PropResTrait.v
theories/PropResult.v
theories/PropSafe.v
theories/PropSame.v
theories/PropSat.v
theories/PropSerde.v
theories/PropSheet.v
theories/PropSize.v
theories/PropSpell.v
theories/PropStd.v
theories/PropTame.v
theories/PropTarget.v
theories/PropTell.v
theories/PropTokens.v
theories/PropTrait.v
theories/PropUnion.v
theories/PropUnionB.v
theories/PropUri.v
theories/PropWidth.v
theories/RangeModel.v
theories/ReflectModel.v
theories/ResTraitModel.v
theories/Serde.v
theories/SizeModel.v
theories/SizeProofs.v
theories/SpellProofs.v
theories/SpellSpec.v
theories/StdProofs.v
theories/StdSpec.v
theories/StrFacts.v
theories/TokensModel.v
theories/Utf8.v
theories/ValueSerde.v
