-Q theories Verif
theories/Base.v
theories/BaseFacts.v
theories/Serialize.v
theories/TxModel.v
theories/ParserFacts.v
theories/SpecWire.v
theories/TxProofs.v
theories/TxProofs2.v
theories/CodecFacts.v
theories/PropCodec.v
theories/SighashModel.v
theories/SpecSighash.v
theories/SighashProofs.v
theories/FramingFacts.v
theories/SighashBind.v
theories/SchnorrProofs.v
theories/SchnorrBind.v
theories/SchnorrTable.v
theories/PropSighash.v
theories/PyStr.v
theories/Blech32Model.v
theories/SpecBits.v
theories/ConvertFacts.v
theories/GF32.v
theories/CodeSearch.v
theories/CodeFacts.v
theories/GF1024.v
theories/Blech32Code.v
theories/Blech32Facts.v
theories/Blech32Proofs.v
theories/PropBlech32.v
theories/ScriptModel.v
theories/SpecScript.v
theories/ScriptProofs.v
theories/PropScript.v
theories/MiscModel.v
theories/PropMisc.v
theories/IssuanceModel.v
theories/BlindModel.v
theories/BlindFacts.v
theories/SpecBlind.v
theories/BlindFrame.v
theories/BlindFails.v
theories/BlindSteps.v
theories/BlindTargets.v
theories/BlindCount.v
theories/BlindMain.v
theories/BlindOuts.v
theories/BlindComplete.v
theories/SpecBalance.v
theories/BlindBalance.v
theories/BlindProps.v
theories/ToyCrypto.v
theories/ToyTx.v
theories/PropBlind.v
theories/PropIssuance.v
theories/BlindSer.v
theories/PropBlindSer.v
theories/UnblindModel.v
theories/SpecUnblind.v
theories/ToyUnblind.v
theories/PropUnblind.v
theories/PropUnblindMore.v
theories/WalletModel.v
theories/PropWallet.v
theories/SpecBlech32.v
theories/Blech32Text.v
theories/PropBlechText.v
theories/LegacyModel.v
theories/SpecLegacy.v
theories/LegacyProofs.v
theories/LegacyBind.v
theories/PropLegacy.v
theories/PropSigMore.v
theories/PropEndToEnd.v
theories/SpecMulti.v
theories/MultiProofs.v
theories/PropMulti.v
theories/Sha256.v
theories/TestVectors.v
theories/KeyModel.v
theories/SpecKey.v
theories/PropKey.v
theories/SpecNode.v
theories/NodeProofs.v
theories/NodeMain.v
theories/ToyNode.v
theories/PropNode.v
theories/SpecFault.v
theories/FaultProofs.v
theories/PropFault.v
theories/Base58Model.v
theories/SpecBase58.v
theories/Base58Proofs.v
theories/PropAddress.v
theories/SpecWallet.v
theories/PropWalletMore.v
theories/SpecContract.v
theories/ContractProofs.v
theories/PropContract.v
theories/SpecTrunc.v
theories/TruncProofs.v
theories/PropTrunc.v
theories/ArrayModel.v
theories/SpecArray.v
theories/ArrayProofs.v
theories/PropArray.v
theories/TextModel.v
theories/SpecText.v
theories/PropText.v
theories/LifeModel.v
theories/SpecLife.v
theories/PropLife.v
theories/CommModel.v
theories/PropComm.v
theories/SpendModel.v
theories/SpecSpend.v
theories/PropSpend.v
theories/SpecSign.v
theories/PropSign.v
theories/ObjModel.v
theories/SpecObj.v
theories/ObjFacts.v
theories/ObjBlind.v
theories/ObjSim.v
theories/PropObj.v
theories/PropObjBlind.v
theories/PrintModel.v
theories/SpecPrint.v
theories/PrintFacts.v
theories/PropPrint.v
theories/SpecReissue.v
theories/PropReissue.v
theories/DynModel.v
theories/SpecDyn.v
theories/DynProofs.v
theories/PropDyn.v
theories/SpecGrow.v
theories/GrowProofs.v
theories/PropGrow.v
theories/ExampleModel.v
theories/SpecExample.v
theories/ExampleProofs.v
theories/PropExample.v
theories/SwapModel.v
theories/SpecSwap.v
theories/SwapProofs.v
theories/SwapRun.v
theories/SwapSign.v
theories/ToyFit.v
theories/PropSwap.v
theories/ClaimModel.v
theories/SpecClaim.v
theories/ClaimProofs.v
theories/PropClaim.v
theories/CrossModel.v
theories/SpecCross.v
theories/CrossProofs.v
theories/ToyCurve.v
theories/PropCross.v
theories/CrossTxModel.v
theories/SpecCrossTx.v
theories/CrossTxProofs.v
theories/PropCrossTx.v
theories/ViewModel.v
theories/SpecView.v
theories/ViewProofs.v
theories/PropView.v
theories/SpecRead.v
theories/ReadProofs.v
theories/ReadProofs2.v
theories/PropRead.v
theories/WaitModel.v
theories/SpecWait.v
theories/WaitProofs.v
theories/PropWait.v
theories/GameModel.v
theories/SpecGame.v
theories/GameProofs.v
theories/PropGame.v
theories/SessionModel.v
theories/SpecSession.v
theories/SessionProofs.v
theories/SessionProofs2.v
theories/SessionProofs3.v
theories/PropSession.v
theories/EqModel.v
theories/SpecEq.v
theories/EqProofs.v
theories/PropEq.v
theories/BtcModel.v
theories/SpecBtc.v
theories/BtcProofs.v
theories/PropBtc.v
theories/SpecEval.v
theories/PropEval.v
theories/DrawProofs.v
theories/PropDraw.v
theories/MemModel.v
theories/SpecMem.v
theories/MemProofs.v
theories/PropMem.v
theories/PropId.v
theories/SpecVeil.v
theories/PropVeil.v
theories/SpecExc.v
theories/ExcProofs.v
theories/PropExc.v
theories/SpecLive.v
theories/LiveProofs.v
theories/PropLive.v
theories/SpecDeliver.v
theories/PropDeliver.v
theories/SpecReceiver.v
theories/PropReceiver.v
theories/SpecSame.v
theories/SameProofs.v
theories/PropSame.v
theories/SpecAsk.v
theories/AskProofs.v
theories/PropAsk.v
