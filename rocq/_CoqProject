-Q theories Verif
theories/Base.v
theories/Utf8.v
theories/Hex.v
theories/Sha2.v
theories/Ripemd.v
theories/Hash.v
theories/Secp.v
theories/C32.v
theories/B58.v
theories/Clarity.v
theories/Tx.v
theories/Signer.v
theories/Builder.v
theories/Wallet.v
theories/Words.v
theories/Mnemonic.v
theories/Hd.v
theories/Derive.v
theories/F64.v
theories/Rpc.v
theories/Debug.v
theories/Vectors.v
theories/VectorsSign.v
theories/VectorsWallet.v
theories/BaseFacts.v
theories/Utf8Facts.v
theories/SpecUtf8.v
theories/Utf8Thms.v
theories/SpecText.v
theories/SpecAddr.v
theories/NumFacts.v
theories/HashFacts.v
theories/HexFacts.v
theories/C32Facts.v
theories/AddrFacts.v
theories/B58Facts.v
theories/B58CheckFacts.v
theories/TextThms.v
theories/PropsText.v
theories/SpecWire.v
theories/WireFacts.v
theories/ClarityFacts.v
theories/ClarityTotal.v
theories/ClarityShort.v
theories/ClarityThms.v
theories/SpecShow.v
theories/ShowFacts.v
theories/PropsClarity.v
theories/SpecTx.v
theories/TxTotal.v
theories/TxWire.v
theories/TxFacts.v
theories/PayloadFacts.v
theories/TxThms.v
theories/PropsTx.v
theories/SpecSign.v
theories/SignFacts.v
theories/SignThms.v
theories/HistThms.v
theories/PlanThms.v
theories/AuthThms.v
theories/PropsSign.v
theories/SpecF64.v
theories/F64Thms.v
theories/F64Show.v
theories/F64Fast.v
theories/F64ShowThms.v
theories/F64ReadThms.v
theories/F64Error.v
theories/SpecClient.v
theories/ClientThms.v
theories/PropsClient.v
theories/Expand.v
theories/SpecExpand.v
theories/ExpandThms.v
theories/PropsExpand.v
theories/SpecBind.v
theories/BindThms.v
theories/LengthThms.v
theories/PropsBind.v
theories/PropsLength.v
theories/SpecNode.v
theories/NodeThms.v
theories/PropsNode.v
theories/SpecFlow.v
theories/FlowThms.v
theories/PropsFlow.v
theories/SpecAdmit.v
theories/PropsAdmit.v
theories/SpecDebug.v
theories/DebugThms.v
theories/PropsDebug.v
theories/PropsUtf8.v
theories/SpecRefuse.v
theories/PropsRefuse.v
theories/PropsNet.v
theories/SpecCharge.v
theories/PropsCharge.v
theories/Messages.v
theories/SpecMessages.v
theories/MessageThms.v
theories/PropsMessages.v
theories/Macro.v
theories/SpecMacro.v
theories/MacroThms.v
theories/PropsMacro.v
theories/EcNum.v
theories/EcPrime.v
theories/EcField.v
theories/EcPoly.v
theories/EcRing.v
theories/EcIdeal.v
theories/EcGroup.v
theories/EcMul.v
theories/EcOrder.v
theories/EcJac.v
theories/EcEcdsa.v
theories/EcSign.v
theories/EcCount.v
theories/SpecCurve.v
theories/EcRecover.v
theories/CurveThms.v
theories/PropsCurve.v
theories/Cost.v
theories/CostThms.v
theories/PropsCost.v
theories/SpecTwin.v
theories/TwinThms.v
theories/PropsTwin.v
theories/Json.v
theories/SpecJson.v
theories/JsonThms.v
theories/PropsJson.v
theories/SpecPhrase.v
theories/PhraseThms.v
theories/SpecTree.v
theories/TreeThms.v
theories/PropsTree.v
theories/PropsPhrase.v
theories/SpecFault.v
theories/FaultThms.v
theories/FaultDecThms.v
theories/PropsFault.v
theories/Release.v
theories/SpecRelease.v
theories/ReleaseThms.v
theories/PropsRelease.v
theories/SpecPlace.v
theories/PlaceThms.v
theories/PropsPlace.v
theories/Calls.v
theories/SpecStop.v
theories/StopThms.v
theories/PropsStop.v
theories/SpecCond.v
theories/CondThms.v
theories/PropsCond.v
theories/JsonRead.v
theories/SpecBody.v
theories/JsonReadThms.v
theories/LookThms.v
theories/BodyThms.v
theories/PropsBody.v
theories/PropsRate.v
theories/Setters.v
theories/SpecSetters.v
theories/SettersThms.v
theories/PropsSetters.v
theories/Own.v
theories/SpecOwn.v
theories/OwnThms.v
theories/PropsOwn.v
theories/Kind.v
theories/SpecKind.v
theories/KindThms.v
theories/PropsKind.v
theories/Order.v
theories/SpecOrder.v
theories/OrderThms.v
theories/PropsOrder.v
theories/Session.v
theories/SpecSession.v
theories/SessionThms.v
theories/PropsSession.v
theories/SpecStruct.v
theories/StructThms.v
theories/PropsStruct.v
theories/SpecLedger.v
theories/LedgerThms.v
theories/PropsLedger.v
theories/SpecPay.v
theories/PropsPay.v
theories/SpecInvoke.v
theories/PropsInvoke.v
theories/SpecShare.v
theories/PropsShare.v
theories/PropsSponsor.v
theories/SpecEstimate.v
theories/PropsEstimate.v
theories/SpecPending.v
theories/PropsPending.v
theories/PropsReceive.v
theories/SpecNets.v
theories/PropsNets.v
theories/SpecSecret.v
theories/PropsSecret.v
theories/SpecLoss.v
theories/PropsLoss.v
theories/SpecErrand.v
theories/PropsErrand.v
theories/SpecFavour.v
theories/PropsFavour.v
theories/SpecBill.v
theories/PropsBill.v
theories/SpecRun.v
theories/PropsRun.v
theories/SpecBudget.v
theories/PropsBudget.v
