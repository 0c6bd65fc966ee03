-Q theories Verif
theories/AppendModel.v
theories/AppendProps.v
theories/Assumptions.v
theories/AuthModel.v
theories/AuthRound.v
theories/AuthSafe.v
theories/Base.v
theories/CString.v
theories/CStringLemmas.v
theories/CacheModel.v
theories/CacheProps.v
theories/CallbackModel.v
theories/CallbackProps.v
theories/CanonModel.v
theories/CanonProps.v
theories/ClockModel.v
theories/ClockProps.v
theories/CloneHeap.v
theories/CloneHeapProofs.v
theories/CloneModel.v
theories/CloneProofs.v
theories/CloneProps.v
theories/CloneSpec.v
theories/DialogModel.v
theories/DialogProps.v
theories/EmitProps.v
theories/EscapeProps.v
theories/FailClone.v
theories/FailProofs.v
theories/FailProps.v
theories/FailSpec.v
theories/FifoModel.v
theories/FifoProps.v
theories/FragLine.v
theories/FragModel.v
theories/FragProps.v
theories/FreeHeap.v
theories/FreeHeapProofs.v
theories/FreeProps.v
theories/FreeSpec.v
theories/FromRound.v
theories/HdrAccess.v
theories/HdrModel.v
theories/HdrProps.v
theories/HdrRound.v
theories/HdrSafe.v
theories/HelpModel.v
theories/HelpProps.v
theories/IxtProps.v
theories/ListModel.v
theories/ListProofs.v
theories/ListProps.v
theories/ListSpec.v
theories/MatchModel.v
theories/Md5Model.v
theories/Md5Props.v
theories/MemLemmas.v
theories/MemModel.v
theories/MsgBody.v
theories/MsgFields.v
theories/MsgFold.v
theories/MsgModel.v
theories/MsgMulti.v
theories/MsgPrint.v
theories/MsgProps.v
theories/MsgReceived.v
theories/MsgRound.v
theories/MsgSafe.v
theories/MsgSplit.v
theories/MsgStart.v
theories/MsgSyntax.v
theories/MsgText.v
theories/MsgWhole.v
theories/OwnFacts.v
theories/OwnModel.v
theories/OwnMsg.v
theories/OwnProps.v
theories/OwnSdp.v
theories/OwnSdpFacts.v
theories/OwnSdpProps.v
theories/OwnStack.v
theories/OwnStackFacts.v
theories/OwnStackProps.v
theories/PairExamples.v
theories/PairInv.v
theories/PairModel.v
theories/PairProofs.v
theories/PairProps.v
theories/PairRecover.v
theories/PairSpec.v
theories/PortBuf.v
theories/PortModel.v
theories/PortProps.v
theories/PortProps2.v
theories/QuoteProps.v
theories/SafeLemmas.v
theories/SdpAcc.v
theories/SdpAccSpec.v
theories/SdpLemmas.v
theories/SdpModel.v
theories/SdpPrint.v
theories/SdpProps.v
theories/SdpRound.v
theories/SdpSafe.v
theories/SdpSpec.v
theories/SnprintfModel.v
theories/SnprintfProps.v
theories/StackMatch.v
theories/StackModel.v
theories/StackProps.v
theories/StackProps2.v
theories/StackReach.v
theories/Str.v
theories/StrLemmas.v
theories/ThreadEvents.v
theories/ThreadModel.v
theories/ThreadProofs.v
theories/ThreadProps.v
theories/ThreadSpec.v
theories/ThreadUnique.v
theories/TimeModel.v
theories/TimeProps.v
theories/TimedEnd.v
theories/TimedGen.v
theories/TimedIct.v
theories/TimedIst.v
theories/TimedNict.v
theories/TimedSpec.v
theories/TimedWitness.v
theories/TraceModel.v
theories/TraceProps.v
theories/TransModel.v
theories/TransOwn.v
theories/TransProofs.v
theories/TransProps.v
theories/TransProps2.v
theories/TransReports.v
theories/TransServer.v
theories/TransSpec.v
theories/TransSteps.v
theories/Types.v
theories/UriModel.v
theories/UriProps.v
theories/UriRound.v
theories/UriSafe.v
theories/ViaModel.v
theories/ViaRound.v
theories/WaitModel.v
theories/WaitProps.v
theories/WireProps.v
