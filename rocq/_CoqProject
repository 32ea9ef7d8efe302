-Q theories Verif
theories/Prime.v
theories/PrimeL.v
theories/Fq.v
theories/Poly.v
theories/Bytes.v
theories/Res.v
theories/Sodium.v
theories/OprfModel.v
theories/OprfSpec.v
theories/OprfProofs.v
theories/PropertiesOprf.v
theories/ToprfModel.v
theories/ToprfSpec.v
theories/ToprfProofs.v
theories/DkgModel.v
theories/DkgSpec.v
theories/DkgProofs.v
theories/ToprfExamples.v
theories/DkgExamples.v
theories/PropertiesToprf.v
theories/PropertiesDkg.v
theories/LockModel.v
theories/LockSpec.v
theories/LockProofs.v
theories/LockExamples.v
theories/PropertiesLock.v
theories/LinSolve.v
theories/MpmultModel.v
theories/MpmultProofs.v
theories/MpmultExamples.v
theories/PropertiesMpmult.v
theories/SecrecySpec.v
theories/Secrecy.v
theories/SecrecyExamples.v
theories/PropertiesSecrecy.v
theories/Mem.v
theories/WireModel.v
theories/WireSpec.v
theories/WireHistory.v
theories/WireProofs.v
theories/TpCrypto.v
theories/TpModel.v
theories/PeerModel.v
theories/CheaterModel.v
theories/TpFrame.v
theories/PeerFrame.v
theories/TpRun.v
theories/TpSpec.v
theories/TpMsg.v
theories/TpContent.v
theories/TpComplaints.v
theories/PeerContent.v
theories/TpControl.v
theories/TpSizes.v
theories/TpAgree.v
theories/BlameSpec.v
theories/TpBlame.v
theories/TpReports.v
theories/TpStart.v
theories/TpMisc.v
theories/SafeSpec.v
theories/TpLog.v
theories/TpSafe.v
theories/PeerSafe.v
theories/HonestMsg.v
theories/RunSpec.v
theories/HonestState.v
theories/HonestTp.v
theories/HonestPeer.v
theories/HonestRun.v
theories/HonestWorld.v
theories/Honest.v
theories/TpExamples.v
theories/TpRunExamples.v
theories/PropertiesTp.v
theories/BlameExamples.v
theories/PropertiesTpContent.v
theories/PropertiesTpBlame.v
theories/SafeExamples.v
theories/PropertiesTpSafety.v
theories/HonestExamples.v
theories/PropertiesTpRun.v
theories/PeerAnswer.v
theories/TpClear.v
theories/ClearSpec.v
theories/Cleared.v
theories/PeerKey.v
theories/ClearExamples.v
theories/PropertiesTpClear.v
theories/ReportSpec.v
theories/TpTruth.v
theories/ReportExamples.v
theories/MissedSpec.v
theories/TpMissed.v
theories/MissedExamples.v
theories/PropertiesTpMissed.v
theories/AnonSpec.v
theories/Anon.v
theories/AnonSession.v
theories/AnonExamples.v
theories/PropertiesTpAnon.v
theories/PropertiesTpReports.v
theories/PeerSelf.v
theories/GoodSpec.v
theories/NetSpec.v
theories/Good.v
theories/Net.v
theories/GoodExamples.v
theories/PropertiesTpGood.v
theories/FairSpec.v
theories/FairPeer.v
theories/FairTp.v
theories/Fair.v
theories/FairStart.v
theories/FairExamples.v
theories/PropertiesTpFair.v
theories/RevealSpec.v
theories/Reveal.v
theories/RevealExamples.v
theories/PropertiesReveal.v
theories/UseSpec.v
theories/Use.v
theories/GoodUse.v
theories/UseExamples.v
theories/PropertiesTpUse.v
theories/MulSpec.v
theories/MulUse.v
theories/MulUseExamples.v
theories/PropertiesMulUse.v
theories/AttackModel.v
theories/Attack.v
theories/AttackExamples.v
theories/PropertiesAttack.v
theories/WireExamples.v
theories/PropertiesWire.v
theories/PyModel.v
theories/PySpec.v
theories/PyProofs.v
theories/PyThreshold.v
theories/PyDkg.v
theories/PySession.v
theories/PyExamples.v
theories/PropertiesPy.v
theories/PySessionExamples.v
theories/PropertiesPySession.v
theories/PyReportModel.v
theories/PyReports.v
theories/PyReportExamples.v
theories/PropertiesPyReports.v
theories/PyRunModel.v
theories/PyRunSpec.v
theories/PyRun.v
theories/PyRunExamples.v
theories/PropertiesPyRun.v
theories/PyTdhModel.v
theories/PyTdhSpec.v
theories/PyTdh.v
theories/PyTdhExamples.v
theories/PropertiesPyTdh.v
theories/MuxModel.v
theories/MuxSpec.v
theories/MuxProofs.v
theories/MuxExamples.v
theories/PropertiesMux.v
theories/MuxGroupSpec.v
theories/MuxGroup.v
theories/MuxGroupExamples.v
theories/PropertiesMuxGroup.v
theories/XkModel.v
theories/XkSpec.v
theories/XkProofs.v
theories/XkChannel.v
theories/XkSession.v
theories/XkRegistry.v
theories/XkNonces.v
theories/XkExamples.v
theories/PropertiesXk.v
theories/XkStatusSpec.v
theories/XkStatus.v
theories/XkStatusExamples.v
theories/PropertiesXkStatus.v
theories/XkMemModel.v
theories/XkMemSpec.v
theories/XkMemProofs.v
theories/XkMemRun.v
theories/XkMemExamples.v
theories/PropertiesXkMem.v
theories/XkNoise.v
theories/XkNoiseExamples.v
theories/PropertiesXkNoise.v
theories/PyNoise.v
theories/PyNoiseSpec.v
theories/PyNoiseProofs.v
theories/PyNoiseUse.v
theories/PyNoiseExamples.v
theories/PropertiesPyNoise.v
theories/TamperProofs.v
theories/TamperExamples.v
theories/PropertiesTamper.v
theories/KeySpec.v
theories/KeyProofs.v
theories/KeyExamples.v
theories/PropertiesKey.v
theories/NetExamples.v
theories/PropertiesNet.v
theories/MitmSpec.v
theories/Mitm.v
theories/MitmExamples.v
theories/PropertiesMitm.v
theories/OutsiderSpec.v
theories/Relay.v
theories/RelayProofs.v
theories/RelayExamples.v
theories/PropertiesRelay.v
theories/VspsModel.v
theories/VspsSpec.v
theories/Vsps.v
theories/VspsExamples.v
theories/PropertiesVsps.v
theories/JoinSpec.v
theories/Join.v
theories/JoinExamples.v
theories/PropertiesJoin.v
theories/XkBindSpec.v
theories/XkBind.v
theories/XkBindExamples.v
theories/PropertiesXkBind.v
theories/WireDrift.v
theories/PropertiesWireDrift.v
theories/UpdateSpec.v
theories/Update.v
theories/UpdateExamples.v
theories/PropertiesUpdate.v
theories/MobileSpec.v
theories/Mobile.v
theories/MobileExamples.v
theories/PropertiesMobile.v
theories/ShortSpec.v
theories/Short.v
theories/ShortExamples.v
theories/PropertiesShort.v
theories/DeviateSpec.v
theories/Deviate.v
theories/DeviateExamples.v
theories/PropertiesDeviate.v
theories/SelectSpec.v
theories/Select.v
theories/SelectExamples.v
theories/PropertiesSelect.v
theories/MisreportSpec.v
theories/Misreport.v
theories/MisreportExamples.v
theories/PropertiesMisreport.v
theories/AskSpec.v
theories/Ask.v
theories/AskExamples.v
theories/PropertiesAsk.v
theories/MixSpec.v
theories/Mix.v
theories/MixExamples.v
theories/PropertiesMix.v
theories/MaskSpec.v
theories/Mask.v
theories/MaskExamples.v
theories/PropertiesMask.v
