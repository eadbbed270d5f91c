-Q theories Verif
theories/Base.v
theories/SpecText.v
theories/UtilsModel.v
theories/UtilsProofs.v
theories/UtfProofs.v
theories/SeqModel.v
theories/SeqProofs.v
theories/TlvModel.v
theories/TlvProofs.v
theories/PropText.v
theories/PropSeq.v
theories/PropTlv.v
theories/PropTlvOne.v
theories/EventModel.v
theories/EventProofs.v
theories/OptionsModel.v
theories/SpecOptions.v
theories/PropEvents.v
theories/SpecWire.v
theories/WireProofs.v
theories/CmppModel.v
theories/SpecCmpp.v
theories/CmppProofs.v
theories/CmppSubmitProofs.v
theories/CmppBuildProofs.v
theories/PropCmpp.v
theories/PropCmpp2.v
theories/SgipModel.v
theories/SpecSgip.v
theories/SgipProofs.v
theories/PropSgip.v
theories/SmgpModel.v
theories/SpecSmgp.v
theories/SmgpProofs.v
theories/PropSmgp.v
theories/PropHeaders.v
theories/PropOptions.v
theories/PropOverlong.v
theories/PropResponses.v
theories/PropPanics.v
theories/FrameModel.v
theories/SpecFrame.v
theories/PropFrame.v
theories/ServerModel.v
theories/SpecServer.v
theories/ServerProofs.v
theories/PropServer.v
theories/PropWindow.v
theories/PropAnswers.v
theories/PropTick.v
theories/PoolModel.v
theories/PropPool.v
theories/PropLogins.v
theories/ClientModel.v
theories/SpecClient.v
theories/ClientProofs.v
theories/PropClient.v
theories/RecvModel.v
theories/PropRecv.v
theories/CloseModel.v
theories/PropClose.v
theories/FactoryModel.v
theories/PropFactory.v
theories/AuthModel.v
theories/PropAuth.v
theories/PropEnd.v
theories/RateModel.v
theories/PropRate.v
theories/PropSweep.v
theories/PropGateway.v
theories/BootModel.v
theories/PropBoot.v
theories/PickModel.v
theories/PropPick.v
theories/MockModel.v
theories/PropMock.v
theories/SubmitEndProofs.v
theories/PropSubmitEnd.v
theories/PropCounters.v
theories/SpecReport.v
theories/PropReportState.v
theories/MainModel.v
theories/PropSender.v
theories/PropSignals.v
theories/PropStore.v
theories/RouteModel.v
theories/PropRoute.v
theories/JournalModel.v
theories/PropJournal.v
theories/LogModel.v
theories/PropLog.v
theories/StopModel.v
theories/PropStop.v
theories/PropWire.v
theories/PropIdle.v
theories/SpecTextEnd.v
theories/TextEndProofs.v
theories/PropTextEnd.v
theories/PropTrust.v
theories/PropReload.v
theories/StartModel.v
theories/CreateModel.v
theories/WholeModel.v
theories/PropStart.v
theories/PropWhy.v
theories/PropCreate.v
theories/PropWhole.v
theories/StatusModel.v
theories/PropStatus.v
theories/PropCrash.v
theories/PropAck.v
theories/PropUcs.v
theories/PropPong.v
theories/PropVeil.v
theories/LoopModel.v
theories/LoopProofs.v
theories/PropLoop.v
theories/PropFate.v
theories/BeatModel.v
theories/PropBeat.v
theories/UseModel.v
theories/PropUse.v
theories/PropParts.v
theories/RaceModel.v
theories/PropRace.v
theories/PropMany.v
theories/TimeModel.v
theories/SpecTime.v
theories/TimeProofs.v
theories/PropTime.v
theories/PropMinute.v
theories/PropWait.v
theories/PropUnasked.v
theories/PropSource.v
theories/PropKeep.v
theories/PropDone.v
theories/PropJobs.v
theories/PropMongo.v
theories/ShareModel.v
theories/PropShare.v
theories/PropDesk.v
theories/PropDebug.v
theories/PropHand.v
theories/PropGen.v
theories/PropTlvText.v
theories/PropForm.v
theories/PropTrace.v
theories/PropLine.v
