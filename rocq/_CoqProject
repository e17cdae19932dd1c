-Q theories Verif
theories/Str.v
theories/Num.v
theories/Net.v
theories/Types.v
theories/Ext.v
theories/Show.v
theories/Address.v
theories/AttrParse.v
theories/Media.v
theories/Session.v
theories/Anon.v
theories/StrLemmas.v
theories/NumLemmas.v
theories/SpecAnon.v
theories/PAnon.v
theories/PAnon2.v
theories/PAnon3.v
theories/PAnon4.v
theories/PropAnon.v
theories/SpecApi.v
theories/PApi.v
theories/PropApi.v
theories/PPanic.v
theories/PropPanic.v
theories/SpecDoc.v
theories/PDoc.v
theories/PDoc2.v
theories/PDoc3.v
theories/PDoc4.v
theories/PropDoc.v
theories/NetLemmas.v
theories/SpecVal.v
theories/PVal.v
theories/PVal2.v
theories/PVal3.v
theories/PVal4.v
theories/PVal5.v
theories/PVal6.v
theories/PVal7.v
theories/PVal8.v
theories/PVal9.v
theories/PropVal.v
theories/SpecItems.v
theories/PVal10.v
theories/PVal11.v
theories/PropItems.v
theories/SpecPrint.v
theories/PPrint.v
theories/PPrint2.v
theories/PPrint3.v
theories/PPrint4.v
theories/PPrint5.v
theories/PPrint6.v
theories/PPrint7.v
theories/PPrint8.v
theories/PPrint9.v
theories/PPrint10.v
theories/PPrint11.v
theories/PropPrint.v
theories/PropRound.v
theories/Ext0.v
theories/PExt0.v
theories/PropExt.v
theories/Tests.v
theories/TestsApi.v
theories/SpecCase.v
theories/PCase.v
theories/PropCase.v
theories/SpecUnsup.v
theories/PUnsup.v
theories/PropUnsup.v
theories/Tools.v
theories/SpecTools.v
theories/PTools.v
theories/PropTools.v
theories/SpecMask.v
theories/PMask.v
theories/PMask2.v
theories/PropMask.v
theories/SpecBuild.v
theories/PBuild.v
theories/PropBuild.v
theories/SpecGrammar.v
theories/PGram.v
theories/PGram2.v
theories/PGram3.v
theories/PGram4.v
theories/PropGram.v
theories/SpecOrder.v
theories/POrder.v
theories/PropOrder.v
theories/SpecSettle.v
theories/PSettle.v
theories/PSettle2.v
theories/PSettle3.v
theories/PSettle4.v
theories/PropSettle.v
theories/SpecSections.v
theories/PSections.v
theories/PropSections.v
theories/Serde.v
theories/SpecSerde.v
theories/PSerde.v
theories/PSerde2.v
theories/PSerde3.v
theories/PSerde4.v
theories/PSerde5.v
theories/PropSerde.v
theories/SpecEdit.v
theories/PEdit.v
theories/PropEdit.v
theories/PInj.v
theories/PropInj.v
theories/SpecFloat.v
theories/PFloat.v
theories/PFloat2.v
theories/PFloat3.v
theories/PFloat4.v
theories/PropFloat.v
theories/SpecIp.v
theories/PIp.v
theories/PIp2.v
theories/PIp3.v
theories/PropIp.v
theories/SpecRfc.v
theories/PRfc.v
theories/PRfc2.v
theories/PRfc3.v
theories/PRfc4.v
theories/PRfc5.v
theories/PRfc6.v
theories/PRfc7.v
theories/PRfc10.v
theories/PRfc8.v
theories/PRfc9.v
theories/PropRfc.v
theories/SpecTwice.v
theories/PTwice.v
theories/PropTwice.v
theories/SpecSize.v
theories/PSize.v
theories/PropSize.v
theories/SpecGrow.v
theories/PGrow.v
theories/PGrow2.v
theories/PropGrow.v
theories/SpecSeq.v
theories/PSeq.v
theories/PropSeq.v
theories/SpecWarn.v
theories/PWarn.v
theories/PropWarn.v
theories/SpecWhy.v
theories/PWhy.v
theories/PropWhy.v
theories/SpecCause.v
theories/PCause.v
theories/PCause2.v
theories/PCause3.v
theories/PCause4.v
theories/PCause5.v
theories/PCause6.v
theories/PCause7.v
theories/PropCause.v
theories/SpecOutcome.v
theories/POutcome.v
theories/PropOutcome.v
theories/Log.v
theories/SpecLog.v
theories/PLog.v
theories/PropLog.v
theories/TestsSdps.v
theories/Output.v
theories/SpecOutput.v
theories/POutput.v
theories/PropOutput.v
theories/SpecErr.v
theories/PErr.v
theories/PropErr.v
theories/Vectors.v
theories/SpecVectors.v
theories/PVectors.v
theories/PropVectors.v
theories/SpecRfc2.v
theories/PRfc11.v
theories/PRfc12.v
theories/PRfc13.v
theories/PropRfc2.v
theories/Debug.v
theories/SpecDebug.v
theories/PDebug.v
theories/PDebug2.v
theories/PDebug3.v
theories/PropDebug.v
theories/SpecLong.v
theories/PLong.v
theories/PLong2.v
theories/PropLong.v
theories/SpecFree.v
theories/PFree.v
theories/PFree2.v
theories/PropFree.v
theories/SpecRfc3.v
theories/PRfc14.v
theories/PRfc15.v
theories/PRfc16.v
theories/PropRfc3.v
theories/PRfc17.v
theories/PRfc18.v
theories/PRfc19.v
theories/PRfc20.v
theories/PRfc21.v
theories/PRfc22.v
theories/PRfc23.v
theories/PRfc24.v
theories/PropRfc4.v
theories/PRfc25.v
theories/PropRfc5.v
theories/PRfc26.v
theories/PropRfc6.v
theories/PRfc27.v
theories/PropRfc7.v
theories/PMask3.v
theories/PropMask2.v
theories/SpecBlank.v
theories/PBlank.v
theories/PropBlank.v
theories/PWords.v
theories/PropWords.v
theories/Fuzz.v
theories/SpecFuzz.v
theories/PFuzz.v
theories/PropFuzz.v
theories/Disk.v
theories/PDisk.v
theories/PropDisk.v
theories/PCount.v
theories/PropCount.v
theories/SpecOnce.v
theories/POnce.v
theories/PropOnce.v
theories/SpecShape.v
theories/PShape.v
theories/PropShape.v
theories/PLeft.v
theories/PropLeft.v
theories/SpecAhead.v
theories/PAhead.v
theories/PropAhead.v
theories/SpecAfter.v
theories/PAfter.v
theories/PropAfter.v
