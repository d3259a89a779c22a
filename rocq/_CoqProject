-Q theories Verif
theories/Lib/Base.v
theories/Lib/Outcome.v
theories/Llc/Crc24Model.v
theories/Llc/Crc24Spec.v
theories/Llc/Crc24Proofs.v
theories/Llc/Crc24Properties.v
theories/Llc/PduModel.v
theories/Llc/PduSpec.v
theories/Llc/PduProofs.v
theories/Llc/PduProperties.v
theories/Llc/XidModel.v
theories/Llc/XidSpec.v
theories/Llc/XidProofs.v
theories/Llc/XidProperties.v
theories/Llc/LlcModel.v
theories/Llc/LlcSpec.v
theories/Llc/LlcProofs.v
theories/Llc/LlcProofs2.v
theories/Llc/LlcProofs3.v
theories/Llc/LlcProperties.v
theories/Rlcmac/UlTxModel.v
theories/Rlcmac/UlTxSpec.v
theories/Rlcmac/UlTxProofs.v
theories/Rlcmac/UlTxProofs2.v
theories/Rlcmac/UlTxProofs3.v
theories/Rlcmac/UlTxProperties.v
theories/Rlcmac/DlRxModel.v
theories/Rlcmac/DlRxSpec.v
theories/Rlcmac/DlRxProofs.v
theories/Rlcmac/DlRxProperties.v
theories/Rlcmac/RlcDataModel.v
theories/Rlcmac/RlcDataSpec.v
theories/Rlcmac/RlcDataProofs.v
theories/Rlcmac/RlcDataProofs2.v
theories/Rlcmac/RlcDataProofs3.v
theories/Rlcmac/RlcDataProofs4.v
theories/Rlcmac/RlcDataProperties.v
theories/Rlcmac/CsModel.v
theories/Rlcmac/CsProperties.v
theories/Rlcmac/FnModel.v
theories/Rlcmac/FnProperties.v
theories/Rlcmac/UlcModel.v
theories/Rlcmac/UlcProperties.v
theories/Rlcmac/CountdownModel.v
theories/Rlcmac/CountdownProofs.v
theories/Rlcmac/CountdownProperties.v
theories/Rlcmac/CodelModel.v
theories/Rlcmac/CodelProperties.v
theories/Rlcmac/LlcQueueModel.v
theories/Rlcmac/LlcQueueProperties.v
theories/Rlcmac/UlTbfModel.v
theories/Rlcmac/UlTbfSpec.v
theories/Rlcmac/UlTbfProofs.v
theories/Rlcmac/UlTbfProperties.v
theories/Rlcmac/UlTbfMore.v
theories/Rlcmac/SchedModel.v
theories/Rlcmac/SchedSpec.v
theories/Rlcmac/SchedProofs.v
theories/Rlcmac/SchedRuns.v
theories/Rlcmac/SchedProperties.v
theories/Rlcmac/SchedDlSpec.v
theories/Rlcmac/SchedDlProofs.v
theories/Rlcmac/SchedDlProperties.v
theories/Rlcmac/SchedPollSpec.v
theories/Rlcmac/SchedPolls.v
theories/Rlcmac/SchedPollProperties.v
theories/Sndcp/SndcpModel.v
theories/Sndcp/SndcpSpec.v
theories/Sndcp/SndcpProofs.v
theories/Sndcp/SndcpSend.v
theories/Sndcp/SndcpRuns.v
theories/Sndcp/SndcpTable.v
theories/Sndcp/SndcpLift.v
theories/Sndcp/SndcpProperties.v
theories/Csn1/Csn1Model.v
theories/Csn1/Csn1Tables.v
theories/Csn1/Csn1Check.v
theories/Csn1/Csn1Takes.v
theories/Csn1/Csn1Safe.v
theories/Csn1/Csn1Lax.v
theories/Csn1/Csn1DlModel.v
theories/Csn1/Csn1Properties.v
theories/Csn1/Csn1EncModel.v
theories/Csn1/Csn1Round.v
theories/Csn1/Csn1RoundProofs.v
theories/Csn1/Csn1UlModel.v
theories/Csn1/Csn1UlSpec.v
theories/Csn1/Csn1UlProofs.v
theories/Csn1/Csn1UlLive.v
theories/Csn1/Csn1UlMsgs.v
theories/Csn1/Csn1UlProperties.v
theories/Csn1/Csn1Layout.v
theories/Csn1/Csn1Step.v
theories/Rlcmac/CcchModel.v
theories/Rlcmac/CcchSpec.v
theories/Rlcmac/CcchProofs.v
theories/Rlcmac/CcchDec.v
theories/Rlcmac/CcchMsg.v
theories/Rlcmac/CcchProperties.v
theories/Csn1/Csn1Values.v
theories/Rlcmac/PdchModel.v
theories/Rlcmac/PdchSpec.v
theories/Rlcmac/PdchStep.v
theories/Rlcmac/PdchDec.v
theories/Rlcmac/PdchMsg.v
theories/Rlcmac/PdchBlock.v
theories/Rlcmac/PdchSafe.v
theories/Rlcmac/PdchProperties.v
theories/Common/QosModel.v
theories/Common/QosSpec.v
theories/Common/QosProofs.v
theories/Common/QosProperties.v
theories/Gmm/TmrModel.v
theories/Gmm/TmrProperties.v
theories/Gmm/GmmModel.v
theories/Gmm/GmmProofs.v
theories/Gmm/GmmExec.v
theories/Gmm/GmmDemo.v
theories/Gmm/GmmProperties.v
theories/Gmm/GmmProperties2.v
theories/Gmm/GmmProperties3.v
theories/Sm/SmModel.v
theories/Sm/SmProofs.v
theories/Sm/SmProofs2.v
theories/Sm/SmProofs3.v
theories/Sm/SmExec.v
theories/Sm/SmRun.v
theories/Sm/SmDemo.v
theories/Sm/SmEmits.v
theories/Sm/SmAccept.v
theories/Sm/SmIds.v
theories/Sm/SmProperties.v
theories/Sm/SmProperties2.v
theories/Sm/SmProperties3.v
theories/Sm/SmProperties4.v
theories/Sm/SmExamples.v
theories/Comp/SlhcModel.v
theories/Comp/SlhcSpec.v
theories/Comp/SlhcProofs.v
theories/Comp/SlhcDelta.v
theories/Comp/SlhcHop.v
theories/Comp/SlhcHop2.v
theories/Comp/SlhcHop3.v
theories/Comp/SlhcRing.v
theories/Comp/SlhcRecv.v
theories/Comp/SlhcLink.v
theories/Comp/SlhcLink2.v
theories/Comp/SlhcSafe.v
theories/Comp/SlhcFit.v
theories/Comp/SlhcProperties.v
theories/Comp/XidModel.v
theories/Comp/XidSpec.v
theories/Comp/XidProofs.v
theories/Comp/XidRead.v
theories/Comp/XidCode.v
theories/Comp/XidSafe.v
theories/Comp/XidProperties.v
theories/Comp/NegModel.v
theories/Comp/NegSpec.v
theories/Comp/NegProofs.v
theories/Comp/NegAnswer.v
theories/Comp/NegAsk.v
theories/Comp/NegExchange.v
theories/Comp/NegFlow.v
theories/Comp/NegReach.v
theories/Comp/NegProperties.v
theories/Comp/V42Model.v
theories/Comp/V42Dict.v
theories/Comp/V42Bits.v
theories/Comp/V42Sync.v
theories/Comp/V42Send.v
theories/Comp/V42Main.v
theories/Comp/V42Safe.v
theories/Comp/V42Wide.v
theories/Comp/DataModel.v
theories/Comp/V42Properties.v
theories/Comp/FlowSpec.v
theories/Comp/FlowProofs.v
theories/Comp/FlowProperties.v
theories/Stack/StackSpec.v
theories/Stack/StackProofs.v
theories/Stack/StackRlc.v
theories/Stack/StackProperties.v
theories/Rlcmac/AirModel.v
theories/Rlcmac/AirSpec.v
theories/Rlcmac/AirProofs.v
theories/Rlcmac/AirProofs2.v
theories/Rlcmac/AirProperties.v
theories/Stack/StackAir.v
theories/Rlcmac/AirEdgeSpec.v
theories/Rlcmac/AirEdge.v
theories/Rlcmac/AirEdgeProperties.v
theories/Rlcmac/BlockModel.v
theories/Rlcmac/BlockSpec.v
theories/Rlcmac/BlockProofs.v
theories/Rlcmac/BlockProperties.v
theories/Stack/PrimModel.v
theories/Stack/PrimSpec.v
theories/Stack/PrimProperties.v
theories/Csn1/Csn1DnModel.v
theories/Csn1/Csn1DnSpec.v
theories/Csn1/Csn1DnProperties.v
theories/Rlcmac/NetSpec.v
theories/Rlcmac/NetMsgs.v
theories/Rlcmac/NetProperties.v
theories/Rlcmac/RegModel.v
theories/Rlcmac/RegSpec.v
theories/Rlcmac/RegProperties.v
theories/Rlcmac/UlGrantSpec.v
theories/Rlcmac/UlGrantProperties.v
theories/Csn1/ChReqModel.v
theories/Csn1/ChReqSpec.v
theories/Csn1/ChReqProperties.v
theories/Csn1/RaCapModel.v
theories/Csn1/RaCapProperties.v
theories/Csn1/RaCapFrameSpec.v
theories/Csn1/RaCapFrameProofs.v
theories/Csn1/RaCapFrameProperties.v
theories/Gmm/NameSpec.v
theories/Gmm/NameModel.v
theories/Gmm/NameProperties.v
theories/Llc/ResetProperties.v
theories/Rlcmac/PunctSpec.v
theories/Rlcmac/PunctProperties.v
theories/Rlcmac/EFillSpec.v
theories/Rlcmac/EFillModel.v
theories/Rlcmac/EFillProperties.v
theories/Comp/DeactModel.v
theories/Comp/DeactProperties.v
theories/Csn1/UtranSpec.v
theories/Csn1/UtranProperties.v
theories/Rlcmac/L1cfgModel.v
theories/Rlcmac/L1cfgSpec.v
theories/Rlcmac/L1cfgProperties.v
theories/Llc/GeaModel.v
theories/Llc/GeaSpec.v
theories/Llc/GeaProperties.v
