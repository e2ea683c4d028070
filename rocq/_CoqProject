-Q theories Verif
theories/Rust.v
theories/Types.v
theories/DecodeUtil.v
theories/Dec32.v
theories/Dec16.v
theories/Decode.v
theories/Fmt.v
theories/FmtSink.v
theories/Debug.v
theories/DebugSink.v
theories/PartialEq.v
theories/Tests.v
theories/Spec.v
theories/SpecOps.v
theories/SpecText.v
theories/SpecApi.v
theories/SpecAsm.v
theories/SpecHelp.v
theories/SpecExt.v
theories/SpecDisplay.v
theories/SpecDebug.v
theories/SpecStream.v
theories/Util.v
theories/Plat.v
theories/Oper32.v
theories/Oper16.v
theories/CanonBase.v
theories/Canon.v
theories/CanonSpec.v
theories/Exact32.v
theories/Canon16.v
theories/Exact16.v
theories/Pat.v
theories/Rows.v
theories/Rows2.v
theories/Operands.v
theories/Api.v
theories/PartialEqOk.v
theories/Numerals.v
theories/Text.v
theories/Text2.v
theories/Helpers.v
theories/Ext.v
theories/Ext2.v
theories/Disp.v
theories/DebugOk.v
theories/Findings.v
theories/Claims.v
theories/Asm.v
theories/Asm2.v
theories/Asm3.v
theories/Asm4.v
theories/Asm5.v
theories/Stream.v
theories/Tight.v
theories/PropsTotal.v
theories/PropsComplete.v
theories/PropsExact.v
theories/PropsOperands.v
theories/PropsErrors.v
theories/PropsText.v
theories/PropsAsm.v
theories/PropsHelp.v
theories/PropsShow.v
theories/SpecBits.v
theories/Bits.v
theories/PropsBits.v
theories/SpecFormat.v
theories/Formats.v
theories/PropsFormat.v
theories/SpecSink.v
theories/SinkOk.v
theories/SpecDebugSink.v
theories/DebugSinkOk.v
theories/DebugSinkOk2.v
theories/PropsSink.v
theories/PropsDebug.v
theories/SpecMask.v
theories/Masks.v
theories/PropsMask.v
theories/SpecExample.v
theories/Example57.v
theories/PropsExample.v
theories/SpecBlame.v
theories/Blame.v
theories/PropsBlame.v
theories/OpcodeRs.v
theories/SpecOpcode.v
theories/OldOpcode.v
theories/PropsOld.v
theories/SpecCount.v
theories/Count.v
theories/PropsCount.v
theories/SrcLine.v
theories/SrcText.v
theories/SrcLex.v
theories/SrcAst.v
theories/SrcParse.v
theories/SrcNames.v
theories/SrcLink.v
theories/SrcSem.v
theories/SrcProg.v
theories/SrcEmbed.v
theories/SrcExt.v
theories/SrcUtil.v
theories/SrcDec32.v
theories/SrcDec16.v
theories/SrcDecode.v
theories/SrcFmt.v
theories/SrcDerive.v
theories/SrcDeriveOk.v
theories/SrcModel.v
theories/SrcAll.v
theories/SrcCover.v
theories/SpecSource.v
theories/SrcClaims.v
theories/PropsSource.v
theories/SrcTyped.v
theories/SrcDoc.v
theories/SpecDoc.v
theories/SrcDocOk.v
theories/SpecOld.v
theories/SrcOldOk.v
theories/PropsSource2.v
theories/SpecTag.v
theories/SrcTagOk.v
theories/PropsSource3.v
theories/SpecGrammar.v
theories/SrcGram.v
theories/SrcGram2.v
theories/SrcGram3.v
theories/SrcLexOk.v
theories/SrcLexAll.v
theories/SrcFull.v
theories/SrcFull2.v
theories/SrcFull3.v
theories/SrcFull4.v
theories/SrcFull5.v
theories/SrcRead.v
theories/PropsSource4.v
theories/SpecNames.v
theories/SrcTie.v
theories/SrcTie2.v
theories/SrcTie3.v
theories/SrcTie4.v
theories/SrcLinked.v
theories/PropsSource5.v
theories/SpecMeaning.v
theories/SrcOne.v
theories/SrcRuns.v
theories/SrcRuns2.v
theories/SrcMeant.v
theories/PropsSource6.v
theories/SpecReach.v
theories/SrcLive.v
theories/SrcLive2.v
theories/SrcLive3.v
theories/SrcLive4.v
theories/SrcTrap.v
theories/SrcTrap2.v
theories/SrcReach.v
theories/SrcWitness.v
theories/SrcReached.v
theories/PropsReach.v
theories/SpecPublic.v
theories/SrcApart.v
theories/SrcPublic.v
theories/SrcPublic2.v
theories/PropsPublic.v
theories/SpecTested.v
theories/SrcTested.v
theories/SrcTested2.v
theories/PropsTested.v
theories/SrcAny.v
theories/PropsAny.v
theories/SpecVisible.v
theories/SrcVisible.v
theories/PropsVisible.v
