-Q theories Verif
theories/Prelude.v
theories/Address.v
theories/Instruction.v
theories/Checksum.v
theories/Datagram.v
theories/Speed.v
theories/Packets.v
theories/Tx.v
theories/Backoff.v
theories/RxState.v
theories/Rx.v
theories/Rmt.v
theories/ZBits.v
theories/SpecCodec.v
theories/CodecProofs.v
theories/CodecProofs2.v
theories/Prop_Codec.v
theories/SpecTx.v
theories/TxProofs.v
theories/Prop_Tx.v
theories/RxLogic.v
theories/RxInv.v
theories/SpecRx.v
theories/RxBitProofs.v
theories/RxBitProofs2.v
theories/RxBitProofs3.v
theories/RxBitProofs4.v
theories/RxBitProofs5.v
theories/SpecExec.v
theories/SpecConf.v
theories/ExecProofs.v
theories/ConfProofs.v
theories/SaneProofs.v
theories/ConfProofs2.v
theories/SpecCv.v
theories/CvProofs.v
theories/CvProofs2.v
theories/CvProofs3.v
theories/CvProofs4.v
theories/CvProofs5.v
theories/CvProofs6.v
theories/CvProofs7.v
theories/CvProofs8.v
theories/Toy.v
theories/CvWitness.v
theories/SpecLogon.v
theories/LogonProofs.v
theories/LogonProofs2.v
theories/LogonProofs3.v
theories/LogonProofs4.v
theories/LogonProofs5.v
theories/LogonWitness.v
theories/SpecBidi.v
theories/BidiProofs.v
theories/BidiProofs2.v
theories/BidiProofs3.v
theories/BidiProofs4.v
theories/BidiProofs5.v
theories/BidiProofs6.v
theories/BidiProofs7.v
theories/BidiProofs8.v
theories/BidiProofs9.v
theories/BidiWitness.v
theories/SpecRmt.v
theories/RmtProofs.v
theories/RmtProofs2.v
theories/Comm.v
theories/SpecModes.v
theories/ModesProofs.v
theories/SpecSafe.v
theories/SafeProofs.v
theories/SafeProofs2.v
theories/SafeWitness.v
theories/SpecAsync.v
theories/AsyncProofs.v
theories/AsyncProofs2.v
theories/AsyncProofs3.v
theories/AsyncWitness.v
theories/Preempt.v
theories/PreemptProofs.v
theories/SpecPreempt.v
theories/PreemptProofs2.v
theories/PreemptProofs3.v
theories/PreemptProofs4.v
theories/PreemptWitness.v
theories/RmtLife.v
theories/SpecRmtTrack.v
theories/RmtTrackProofs.v
theories/SpecRmtLife.v
theories/RmtLifeProofs.v
theories/SpecLayout.v
theories/LayoutProofs.v
theories/LayoutProofs2.v
theories/LayoutProofs3.v
theories/LayoutProofs4.v
theories/LayoutProofs5.v
theories/LayoutProofs6.v
theories/SpecLayout2.v
theories/LayoutProofs7.v
theories/LayoutProofs8.v
theories/LayoutWitness.v
theories/Repl.v
theories/SpecRepl.v
theories/ReplProofs.v
theories/ReplProofs2.v
theories/ReplProofs3.v
theories/ReplProofs4.v
theories/ReplWitness.v
theories/SpecStation.v
theories/StationProofs.v
theories/StationProofs2.v
theories/StationProofs3.v
theories/StationProofs4.v
theories/StationWitness.v
theories/Prop_RxBits.v
theories/Prop_Drive.v
theories/Prop_Config.v
theories/Prop_Cv.v
theories/Prop_Logon.v
theories/Prop_Bidi.v
theories/Prop_Rmt.v
theories/Prop_RmtTrack.v
theories/Prop_Modes.v
theories/Prop_Safe.v
theories/Prop_Async.v
theories/Prop_Preempt.v
theories/Prop_Layout.v
theories/Prop_Repl.v
theories/Prop_Station.v
theories/SpecAlike.v
theories/AlikeProofs.v
theories/AlikeProofs2.v
theories/ReplProofs5.v
theories/ReplProofs6.v
theories/ReplProofs7.v
theories/CarryProofs.v
theories/ReplProofs8.v
theories/AlikeWitness.v
theories/ReplWitness2.v
theories/Prop_Alike.v
theories/Prop_Repl2.v
theories/SpecPace.v
theories/AudibleProofs.v
theories/PaceProofs.v
theories/PaceProofs2.v
theories/PaceProofs3.v
theories/Stm32.v
theories/SpecEdges.v
theories/EdgeProofs.v
theories/EdgeProofs2.v
theories/Stm32Proofs.v
theories/PaceWitness.v
theories/SpecLate.v
theories/LateProofs.v
theories/LateProofs2.v
theories/LateWitness.v
theories/Esp32.v
theories/RmtTrackProofs2.v
theories/Esp32Proofs.v
theories/SpecDialog.v
theories/DialogProofs.v
theories/DialogProofs2.v
theories/DialogProofs3.v
theories/DialogProofs4.v
theories/DialogWitness.v
theories/Prop_Dialog.v
theories/Prop_Pace.v
theories/Prop_Wires.v
theories/Prop_Late.v
theories/Prop_Esp32.v
theories/TxPreempt.v
theories/SpecTxPreempt.v
theories/TxPreemptProofs.v
theories/Prop_TxPreempt.v
theories/SpecTraffic.v
theories/TrafficProofs.v
theories/TrafficProofs2.v
theories/ReadProofs.v
theories/ReadProofs2.v
theories/Prop_Traffic.v
theories/SpecBoard.v
theories/BoardProofs.v
theories/BoardProofs2.v
theories/Prop_Board.v
theories/SpecProg.v
theories/ProgProofs.v
theories/Prop_Prog.v
theories/SpecNode.v
theories/NodeProofs.v
theories/NodeProofs2.v
theories/NodeProofs3.v
theories/NodeProofs4.v
theories/NodeProofs5.v
theories/NodeProofs6.v
theories/NodeProofs7.v
theories/NodeWitness.v
theories/Prop_Node.v
theories/SpecSession.v
theories/SessionProofs.v
theories/SessionProofs2.v
theories/SessionWitness.v
theories/Prop_Session.v
theories/SpecLine.v
theories/LineProofs.v
theories/LineProofs2.v
theories/LineProofs3.v
theories/LineWitness.v
theories/Prop_Line.v
theories/Wire.v
theories/SpecWire.v
theories/WireProofs.v
theories/WireProofs2.v
theories/Prop_Wire.v
theories/SpecFlip.v
theories/FlipProofs.v
theories/FlipProofs2.v
theories/Prop_Flip.v
theories/SpecLatency.v
theories/LatencyProofs.v
theories/LatencyProofs2.v
theories/Prop_Latency.v
theories/SpecTorn.v
theories/TornProofs.v
theories/TornProofs2.v
theories/TornWitness.v
theories/Prop_Torn.v
theories/SpecReact.v
theories/ReactProofs.v
theories/Prop_React.v
theories/SpecRefresh.v
theories/RefreshProofs.v
theories/Prop_Refresh.v
theories/PreemptData.v
theories/SpecOffer.v
theories/OfferProofs.v
theories/OfferProofs2.v
theories/OfferProofs3.v
theories/OfferProofs4.v
theories/OfferWitness.v
theories/Prop_Offer.v
theories/SpecStale.v
theories/StaleProofs.v
theories/StaleProofs2.v
theories/StaleProofs3.v
theories/StaleProofs4.v
theories/StaleWitness.v
theories/Prop_Stale.v
theories/SpecTell.v
theories/TellProofs.v
theories/TellProofs2.v
theories/TellProofs3.v
theories/TellProofs4.v
theories/TellWitness.v
theories/Prop_Tell.v
theories/SpecFirm.v
theories/FirmProofs.v
theories/FirmProofs2.v
theories/FirmProofs3.v
theories/FirmProofs4.v
theories/FirmProofs5.v
theories/FirmProofs6.v
theories/FirmProofs7.v
theories/FirmWitness.v
theories/Prop_Firm.v
theories/SpecHalt.v
theories/HaltProofs.v
theories/HaltProofs2.v
theories/HaltWitness.v
theories/Prop_Halt.v
theories/PreemptLoop.v
theories/SpecLoop.v
theories/LoopProofs.v
theories/LoopProofs2.v
theories/LoopProofs3.v
theories/LoopWitness.v
theories/Prop_Loop.v
theories/PreemptOff.v
theories/SpecOff.v
theories/OffProofs.v
theories/OffProofs2.v
theories/OffProofs3.v
theories/Prop_Off.v
theories/SpecStored.v
theories/StoredProofs.v
theories/StoredProofs2.v
theories/StoredProofs3.v
theories/StoredProofs4.v
theories/Prop_Stored.v
theories/SpecWhole.v
theories/WholeProofs.v
theories/WholeWitness.v
theories/Prop_Whole.v
theories/SpecWhole2.v
theories/WholeProofs2.v
theories/WholeWitness2.v
theories/Prop_Whole2.v
theories/SpecNoLogon.v
theories/NoLogonProofs.v
theories/NoLogonProofs2.v
theories/NoLogonProofs3.v
theories/NoLogonWitness.v
theories/Prop_NoLogon.v
theories/NoLogonProofs4.v
theories/NoLogonWitness2.v
theories/Prop_NoLogon2.v
theories/SpecProgress.v
theories/ProgressProofs.v
theories/ProgressWitness.v
theories/Prop_Progress.v
theories/PromptProofs.v
theories/PromptWitness.v
theories/Prop_Prompt.v
theories/DeliverProofs.v
theories/Prop_Deliver.v
theories/RefreshProofs2.v
theories/Prop_Refresh2.v
theories/HaltProofs3.v
theories/Prop_Halt2.v
theories/PromptProofs2.v
theories/PromptWitness2.v
theories/Prop_Prompt2.v
