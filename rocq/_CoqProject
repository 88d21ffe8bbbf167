-Q theories Verif
theories/Model/Base.v
theories/Model/Io.v
theories/Model/Header.v
theories/Model/Mask.v
theories/Model/Dataframe.v
theories/Model/Utf8.v
theories/Model/Message.v
theories/Model/Receiver.v
theories/Model/Codec.v
theories/Model/Framed.v
theories/Spec/RfcFrame.v
theories/Proofs/BaseFacts.v
theories/Proofs/MaskFacts.v
theories/Proofs/HeaderFacts.v
theories/Spec/FrameSpec.v
theories/Spec/Schedule.v
theories/Spec/Drive.v
theories/Spec/Sink.v
theories/Proofs/FrameFacts.v
theories/Proofs/CodecFacts.v
theories/Proofs/ScriptFacts.v
theories/Proofs/Machine.v
theories/Spec/Unicode.v
theories/Spec/Session.v
theories/Proofs/FramedFacts.v
theories/Proofs/Utf8Facts.v
theories/Proofs/SessionFacts.v
theories/Proofs/RecvFacts.v
theories/Proofs/MessageFacts.v
theories/Proofs/ExTac.v
theories/Proofs/AsyncFacts.v
theories/Proofs/ThmFrames.v
theories/Props/Frames.v
theories/Proofs/ThmStream.v
theories/Props/Stream.v
theories/Proofs/ThmMessages.v
theories/Props/Messages.v
theories/Proofs/ThmLimits.v
theories/Props/Limits.v
theories/Proofs/ThmFlow.v
theories/Props/Flow.v
theories/Model/Base64.v
theories/Model/Sha1.v
theories/Model/WsKey.v
theories/Spec/Rfc4648.v
theories/Spec/Fips180.v
theories/Spec/Accept.v
theories/Proofs/Sha1Facts.v
theories/Proofs/Base64Facts.v
theories/Proofs/ThmKeys.v
theories/Props/Keys.v
theories/Model/Text.v
theories/Model/Headers.v
theories/Model/Handshake.v
theories/Spec/Fields.v
theories/Proofs/TextFacts.v
theories/Spec/Upgrade.v
theories/Proofs/MapFacts.v
theories/Proofs/ThmServer.v
theories/Props/Server.v
theories/Spec/Builder.v
theories/Proofs/ThmClient.v
theories/Props/Client.v
theories/Model/Http.v
theories/Model/Connect.v
theories/Model/HttpStream.v
theories/Model/Dial.v
theories/Spec/HttpHead.v
theories/Proofs/HttpFacts.v
theories/Proofs/ThmHttp.v
theories/Props/Http.v
theories/Proofs/SpreadFacts.v
theories/Model/BufReader.v
theories/Model/Examples.v
theories/Model/AsyncExamples.v
theories/Proofs/ThmBuffered.v
theories/Props/Buffered.v
theories/Spec/Target.v
theories/Spec/Connection.v
theories/Spec/Dialling.v
theories/Spec/Wire.v
theories/Spec/HttpSeries.v
theories/Spec/Endpoint.v
theories/Spec/Sides.v
theories/Spec/Polled.v
theories/Spec/Echo.v
theories/Spec/Polls.v
theories/Spec/Mixed.v
theories/Model/ChatClient.v
theories/Spec/Chat.v
theories/Model/Talk.v
theories/Model/Accepting.v
theories/Model/Polling.v
theories/Spec/Talking.v
theories/Spec/Accepting.v
theories/Spec/Polling.v
theories/Model/Report.v
theories/Spec/Telling.v
theories/Proofs/ThmConnect.v
theories/Props/Connect.v
theories/Proofs/ThmInterop.v
theories/Props/Interop.v
theories/Proofs/ThmSession.v
theories/Props/Session.v
theories/Proofs/ThmDial.v
theories/Props/Dial.v
theories/Proofs/ThmTarget.v
theories/Props/Target.v
theories/Proofs/ThmFaults.v
theories/Props/Faults.v
theories/Proofs/ThmSame.v
theories/Props/Same.v
theories/Proofs/ThmAfter.v
theories/Props/After.v
theories/Proofs/ThmErrors.v
theories/Props/Errors.v
theories/Proofs/ThmEcho.v
theories/Props/Echo.v
theories/Proofs/ThmWake.v
theories/Props/Wake.v
theories/Proofs/ThmAsyncEcho.v
theories/Props/AsyncEcho.v
theories/Proofs/ThmMixed.v
theories/Props/Mixed.v
theories/Proofs/ThmChat.v
theories/Props/Chat.v
theories/Proofs/ThmTalk.v
theories/Props/Talk.v
theories/Proofs/ThmAccepting.v
theories/Proofs/ThmPolling.v
theories/Props/Accepting.v
theories/Props/Polling.v
theories/Proofs/ThmReport.v
theories/Props/Report.v
theories/Model/Shutdown.v
theories/Model/Parallel.v
theories/Model/Suite.v
theories/Model/AsyncChat.v
theories/Spec/Shutting.v
theories/Spec/Parallel.v
theories/Spec/Suite.v
theories/Spec/AsyncChat.v
theories/Proofs/ThmShutdown.v
theories/Proofs/ThmParallel.v
theories/Proofs/ThmSuite.v
theories/Proofs/ThmAsyncChat.v
theories/Props/Shutdown.v
theories/Props/Parallel.v
theories/Props/Suite.v
theories/Props/AsyncChat.v
theories/Model/AsyncTalk.v
theories/Spec/AsyncTalking.v
theories/Proofs/AsyncTalkFacts.v
theories/Proofs/ThmAsyncTalk.v
theories/Props/AsyncTalk.v
theories/Proofs/ThmHttpStream.v
theories/Props/HttpStream.v
theories/Spec/Pressure.v
theories/Spec/Whole.v
theories/Proofs/ThmPressure.v
theories/Proofs/ThmWhole.v
theories/Props/Pressure.v
theories/Props/Whole.v
theories/Model/Narrow.v
theories/Spec/Narrowing.v
theories/Proofs/ThmNarrow.v
theories/Props/Narrow.v
theories/Model/Mixture.v
theories/Model/Crossed.v
theories/Model/Errand.v
theories/Model/Work.v
theories/Model/Unflushed.v
theories/Model/AsyncErrand.v
theories/Model/Dialogue.v
theories/Model/Programs.v
theories/Model/Encounter.v
theories/Model/Kinds.v
theories/Model/Endings.v
theories/Model/Breaking.v
theories/Spec/Mixing.v
theories/Spec/Crossing.v
theories/Spec/Errands.v
theories/Spec/Working.v
theories/Spec/Repair.v
theories/Spec/Answer.v
theories/Spec/Unflushed.v
theories/Spec/Conform.v
theories/Spec/Saying.v
theories/Spec/AsyncErrands.v
theories/Spec/Hiding.v
theories/Spec/Dialogues.v
theories/Spec/Queues.v
theories/Spec/CutOff.v
theories/Spec/Parcels.v
theories/Spec/Encounters.v
theories/Spec/Pairings.v
theories/Spec/Partings.v
theories/Spec/Breaks.v
theories/Spec/BrokenQueues.v
theories/Proofs/ThmMixture.v
theories/Proofs/ThmCrossed.v
theories/Proofs/ThmErrand.v
theories/Proofs/ThmWork.v
theories/Proofs/ThmRepair.v
theories/Proofs/ThmAnswer.v
theories/Proofs/ThmStable.v
theories/Proofs/ThmUnflushed.v
theories/Proofs/ThmConform.v
theories/Proofs/ThmAsyncErrand.v
theories/Proofs/ThmHiding.v
theories/Proofs/ThmDialogue.v
theories/Proofs/ThmPrograms.v
theories/Proofs/ThmCutOff.v
theories/Proofs/ThmParcels.v
theories/Proofs/ThmEncounter.v
theories/Proofs/ThmKinds.v
theories/Proofs/ThmEndings.v
theories/Proofs/ThmBreaking.v
theories/Proofs/ThmBroken.v
theories/Proofs/ThmChecks.v
theories/Proofs/ThmMalformed.v
theories/Proofs/ThmHandOn.v
theories/Proofs/ThmGiven.v
theories/Proofs/ThmChosen.v
theories/Proofs/ThmPieces.v
theories/Props/Mixture.v
theories/Props/Crossed.v
theories/Props/Errand.v
theories/Props/Work.v
theories/Props/Repair.v
theories/Props/Answer.v
theories/Props/Stable.v
theories/Props/Unflushed.v
theories/Props/Conform.v
theories/Props/AsyncErrand.v
theories/Props/Hiding.v
theories/Props/Dialogue.v
theories/Props/Programs.v
theories/Props/CutOff.v
theories/Props/Parcels.v
theories/Props/Encounter.v
theories/Props/Kinds.v
theories/Props/Endings.v
theories/Props/Breaking.v
theories/Props/Broken.v
theories/Props/Checks.v
theories/Props/Malformed.v
theories/Props/HandOn.v
theories/Props/Given.v
theories/Props/Chosen.v
theories/Props/Pieces.v
theories/Tests/RepoTests.v
theories/Tests/RfcTests.v
