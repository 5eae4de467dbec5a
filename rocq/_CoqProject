-Q theories Verif
theories/Py.v
theories/MNet.v
theories/MUtils.v
theories/MBlake.v
theories/MShared.v
theories/MScript.v
theories/MTx.v
theories/MBase58.v
theories/MBech32.v
theories/MCashaddr.v
theories/MAddr.v
theories/MDecred.v
theories/MZcash.v
theories/MBuilder.v
theories/MStandard.v
theories/MHeap.v
theories/SAddr.v
theories/SBack.v
theories/SBase58.v
theories/SBch.v
theories/SBech32.v
theories/SBits.v
theories/SBlake.v
theories/SByteData.v
theories/SCashaddr.v
theories/SClass.v
theories/SCopy.v
theories/SDDigest.v
theories/SDSign.v
theories/SDecred.v
theories/SDigest.v
theories/SExact.v
theories/SFee.v
theories/SFirst.v
theories/SHash.v
theories/SHeap.v
theories/SHeapDecred.v
theories/SHeapDel.v
theories/SHeapTx.v
theories/SHeapZcash.v
theories/SIdem.v
theories/SInterp.v
theories/SKeeps.v
theories/SMake.v
theories/SMember.v
theories/SNet.v
theories/SNum.v
theories/SParams.v
theories/SParse.v
theories/SParseHash.v
theories/SPay.v
theories/SPrograms.v
theories/SRead.v
theories/SReplay.v
theories/SSame.v
theories/SScript.v
theories/SSelect.v
theories/SSerialize.v
theories/SSha.v
theories/SSig.v
theories/SSign.v
theories/SSize.v
theories/SStandard.v
theories/SText.v
theories/STrunc.v
theories/STx.v
theories/SZBind.v
theories/SZDigest.v
theories/SZExact.v
theories/SZSign.v
theories/SZcash.v
theories/LAddr.v
theories/LBack.v
theories/LBase.v
theories/LBase58.v
theories/LBch.v
theories/LBchAlg.v
theories/LBchErr.v
theories/LBchFive.v
theories/LBeLimit.v
theories/LBech32.v
theories/LBip143.v
theories/LBits.v
theories/LBlake.v
theories/LBlakeFinal.v
theories/LBlakeMain.v
theories/LBlakeTop.v
theories/LBuilder.v
theories/LBuilderTx.v
theories/LBurst.v
theories/LByteData.v
theories/LCaLimit.v
theories/LCashaddr.v
theories/LClass.v
theories/LClassErr.v
theories/LCopy.v
theories/LCopyTop.v
theories/LDDigest.v
theories/LDSign.v
theories/LDecred.v
theories/LDecredSig.v
theories/LDecredTop.v
theories/LDigest.v
theories/LExact.v
theories/LExamples.v
theories/LFee.v
theories/LFirst.v
theories/LFormats.v
theories/LHeap.v
theories/LHeapDecred.v
theories/LHeapDel.v
theories/LHeapTx.v
theories/LHeapZcash.v
theories/LIdem.v
theories/LIdemErr.v
theories/LIndex.v
theories/LInputs.v
theories/LInterp.v
theories/LKeeps.v
theories/LMade.v
theories/LMade2.v
theories/LMakeTx.v
theories/LMember.v
theories/LMultisig.v
theories/LNet.v
theories/LOrder.v
theories/LPaid.v
theories/LParams.v
theories/LParse.v
theories/LParseHash.v
theories/LPay.v
theories/LPrograms.v
theories/LRead.v
theories/LReplay.v
theories/LSame.v
theories/LSapling.v
theories/LScript.v
theories/LScriptNum.v
theories/LSelect.v
theories/LSerialize.v
theories/LSha.v
theories/LSig.v
theories/LSigBind.v
theories/LSigTop.v
theories/LSign.v
theories/LSize.v
theories/LSpell.v
theories/LSprout.v
theories/LSproutSig.v
theories/LStandard.v
theories/LStandardAll.v
theories/LTrunc.v
theories/LTrunc2.v
theories/LTx.v
theories/LTxParse.v
theories/LTxWire.v
theories/LUtils.v
theories/LVarRead.v
theories/LVarint.v
theories/LZBind.v
theories/LZBind2.v
theories/LZDigest.v
theories/LZExact.v
theories/LZIdem.v
theories/LZSign.v
theories/LZTrunc.v
theories/LZcash.v
theories/LZcashParts.v
theories/LZcashTop.v
theories/LZcashTx.v
theories/LZip.v
theories/LZip243.v
theories/LZipTop.v
theories/PAddr.v
theories/PBack.v
theories/PBase58.v
theories/PBech32.v
theories/PBlake.v
theories/PBuilder.v
theories/PBurst.v
theories/PByteData.v
theories/PCashaddr.v
theories/PClass.v
theories/PClassErr.v
theories/PCopy.v
theories/PDSign.v
theories/PDecred.v
theories/PDigest.v
theories/PExact.v
theories/PExamples.v
theories/PFee.v
theories/PFirst.v
theories/PFormats.v
theories/PHeap.v
theories/PHeapDecred.v
theories/PHeapDel.v
theories/PHeapZcash.v
theories/PIdem.v
theories/PIndex.v
theories/PInputs.v
theories/PInterp.v
theories/PKeeps.v
theories/PKinds.v
theories/PMakeTx.v
theories/PMember.v
theories/PNet.v
theories/POrder.v
theories/PParams.v
theories/PParse.v
theories/PParseHash.v
theories/PPay.v
theories/PPrograms.v
theories/PRead.v
theories/PReplay.v
theories/PSame.v
theories/PScript.v
theories/PScriptNum.v
theories/PSerialize.v
theories/PSig.v
theories/PSign.v
theories/PSize.v
theories/PSpell.v
theories/PStandard.v
theories/PStandardAll.v
theories/PText.v
theories/PTrunc.v
theories/PTrunc2.v
theories/PTx.v
theories/PUtils.v
theories/PVarRead.v
theories/PVarint.v
theories/PZBind.v
theories/PZExact.v
theories/PZIdem.v
theories/PZSign.v
theories/PZTrunc.v
theories/PZcash.v
theories/PZcashParts.v
theories/PZip.v
theories/MByteData.v
theories/MClass.v
theories/MExamples.v
theories/MHeapDecred.v
theories/MHeapDel.v
theories/MHeapTx.v
theories/MHeapZcash.v
theories/MMember.v
theories/MPrograms.v
theories/TBitcoin.v
theories/TZcash.v
