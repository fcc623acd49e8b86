-Q theories Verif

theories/Base.v
theories/BaseFacts.v
theories/Env.v
theories/Toy.v
theories/FsChacha.v
theories/Spec.v
theories/FsChachaProofs.v
theories/Cipher.v
theories/CipherFacts.v
theories/Histories.v
theories/CipherProofs.v
theories/PropsCipher.v
theories/Handshake.v
theories/SpecHandshake.v
theories/HsDriver.v
theories/HandshakeProofs.v
theories/HsRunProofs.v
theories/PropsHandshake.v
theories/Transport.v
theories/Io.v
theories/Futures.v
theories/SpecIo.v
theories/Sessions.v
theories/TransportProofs.v
theories/NoFuel.v
theories/IoProofs.v
theories/FuturesProofs.v
theories/IoRunProofs.v
theories/SessionProofs.v
theories/EndpointProofs.v
theories/ReaderProofs.v
theories/PropsIo.v
theories/Traffic.v
theories/TrafficIo.v
theories/TrafficFutures.v
theories/SpecTraffic.v
theories/StatsProofs.v
theories/TrafficProofs.v
theories/TrafficIoProofs.v
theories/TrafficFuturesProofs.v
theories/TrafficSessionProofs.v
theories/TrafficFailProofs.v
theories/TrafficLiveProofs.v
theories/TrafficTask.v
theories/SpecTask.v
theories/TrafficTaskProofs.v
theories/PropsTraffic.v
theories/PropsTask.v
theories/PropsLive.v
theories/SpecUnsplit.v
theories/UnsplitProofs.v
theories/OversizeProofs.v
theories/PropsSession.v
theories/PropsShape.v
theories/HsSteps.v
theories/HsStepsProofs.v
theories/SpecPipes.v
theories/PipesProofs.v
theories/PropsPipes.v
theories/Rfc.v
theories/Vectors.v
theories/SpecIntegrity.v
theories/IntegrityProofs.v
theories/PropsIntegrity.v
theories/SpecPair.v
theories/PairProofs.v
theories/PropsPair.v
theories/SpecFlights.v
theories/FlightsProofs.v
theories/PropsFlights.v
theories/SpecDraws.v
theories/DrawsProofs.v
theories/PropsDraws.v
theories/SpecGap.v
theories/GapProofs.v
theories/PropsGap.v
theories/SpecDuplex.v
theories/DuplexProofs.v
theories/PropsDuplex.v
theories/SpecFlow.v
theories/FlowProofs.v
theories/PropsFlow.v
theories/SpecAwait.v
theories/AwaitProofs.v
theories/PropsAwait.v
theories/Relaxed.v
theories/SpecRelaxed.v
theories/RelaxedProofs.v
theories/PropsRelaxed.v
theories/Clocked.v
theories/ClockedProofs.v
theories/PropsClocked.v
theories/SpecFair.v
theories/FairProofs.v
theories/PropsFair.v
theories/FuzzTargets.v
theories/PropsFuzz.v
theories/StatsView.v
theories/PropsStats.v
theories/Float64.v
theories/Float64Proofs.v
theories/PropsFloat.v
theories/SpecSecrecy.v
theories/SecrecyProofs.v
theories/PropsSecrecy.v
theories/PropsForward.v
theories/PropsClone.v
theories/PropsBytestream.v
theories/PropsMiddle.v
theories/PropsVolume.v
theories/SearchCost.v
theories/PropsCost.v
theories/PropsEcho.v
theories/PropsBacklog.v
theories/PropsOccupied.v
theories/ShapedUnsplit.v
theories/PropsUnsplitShaped.v
theories/PropsLength.v
theories/Buffered.v
theories/SpecBuffered.v
theories/BufferedProofs.v
theories/PropsBuffered.v
theories/Outgoing.v
theories/SpecOutgoing.v
theories/PropsOutgoing.v
theories/SpecReplay.v
theories/PropsReplay.v
theories/PropsGivenUp.v
theories/SpecMemory.v
theories/PropsMemory.v
theories/MismatchProofs.v
theories/PropsMismatch.v
theories/Timed.v
theories/SpecTimed.v
theories/PropsTimed.v
theories/TestDrivers.v
theories/PropsTests.v
theories/Errors.v
theories/PropsErrors.v
theories/ExampleProgram.v
theories/ExampleProofs.v
theories/PropsExample.v
theories/Primes.v
theories/FieldPrime.v
theories/Curve.v
theories/SpecCurve.v
theories/RfcCurve.v
theories/PropsReal.v
theories/GroupOrder.v
theories/Cyclic.v
theories/GroupProofs.v
theories/PropsOrder.v
theories/PolyPrime.v
theories/PolyProofs.v
theories/SpecForgery.v
theories/ForgeryProofs.v
theories/PropsForgery.v
theories/SpecObserver.v
theories/ObserverProofs.v
theories/PropsObserver.v
theories/SpecCoincidence.v
theories/PropsCoincidence.v
theories/SpecCover.v
theories/PropsCover.v
theories/ShapedOut.v
theories/SpecBursts.v
theories/PropsBursts.v
theories/SpecTurns.v
theories/PropsTurns.v
theories/SpecPrice.v
theories/PropsPrice.v
theories/PropsDropTime.v
theories/SpecChance.v
theories/PropsChance.v
theories/SpecBufPair.v
theories/PropsBufPair.v
theories/SpecBufPipes.v
theories/PropsBufPipes.v
theories/ClockedTask.v
theories/PropsClockedTask.v
theories/Panicking.v
theories/PropsPanicking.v
theories/SpecSpent.v
theories/PropsSpent.v
theories/SpecSpentReader.v
theories/PropsSpentReader.v
theories/SpecV1Peer.v
theories/PropsV1Peer.v
theories/SpecErrorLists.v
theories/PropsErrorLists.v
theories/PropsShapedErrors.v
