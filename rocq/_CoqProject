-Q theories Verif
theories/Base.v
theories/Num.v
theories/Vec.v
theories/NumR.v
theories/Num64.v
theories/OrbitModel.v
theories/LossModel.v
theories/GeomSpec.v
theories/LossProofs.v
theories/LeoLossProofs.v
theories/Loss64Proofs.v
theories/OrbitSpec.v
theories/OrbitProofs.v
theories/MobilityModel.v
theories/MobilitySpec.v
theories/MobilityProofs.v
theories/OrbitApiSpec.v
theories/OrbitApiProofs.v
theories/PropOrbit.v
theories/PropMobility.v
theories/LossSpec.v
theories/LossApiProofs.v
theories/Read64Proofs.v
theories/PropLoss.v
theories/AllocModel.v
theories/AllocSpec.v
theories/AllocProofs.v
theories/Alloc64Proofs.v
theories/AllocApiProofs.v
theories/PropAlloc.v
theories/FrameModel.v
theories/FrameProofs.v
theories/PropFrame.v
theories/NetModel.v
theories/NetSpec.v
theories/NetSteps.v
theories/NetInv.v
theories/NetTxProofs.v
theories/NetSendProofs.v
theories/NetChanProofs.v
theories/NetProvProofs.v
theories/NetSideProofs.v
theories/NetOrderProofs.v
theories/NetExamples.v
theories/PropTx.v
theories/PropChan.v
theories/NetSafeProofs.v
theories/HelperModel.v
theories/HelperProofs.v
theories/HelperSafeProofs.v
theories/HelperSpec.v
theories/HelperApiProofs.v
theories/PropHelper.v
theories/WaypointModel.v
theories/WaypointSpec.v
theories/WaypointProofs.v
theories/PropWaypoint.v
theories/CacheModel.v
theories/CacheSpec.v
theories/CacheProofs.v
theories/PropCache.v
theories/ParseModel.v
theories/ParseSpec.v
theories/ParseProofs.v
theories/ParseRecordProofs.v
theories/Decimal64Model.v
theories/SixDigitsProofs.v
theories/PropParse.v
theories/LeoHelperModel.v
theories/LeoHelperSpec.v
theories/LeoHelperProofs.v
theories/LeoArpProofs.v
theories/PropLeoHelper.v
theories/TraceModel.v
theories/TraceSpec.v
theories/TraceProofs.v
theories/TraceFileProofs.v
theories/TraceRunProofs.v
theories/PropTrace.v
theories/DeviceApiModel.v
theories/NetRunSpec.v
theories/NetDrainProofs.v
theories/PropRun.v
theories/Float64Spec.v
theories/Float64Proofs.v
theories/Orbit64Proofs.v
theories/Orbit64Api.v
theories/PropFloat.v
theories/Los64Proofs.v
theories/PropLos64.v
theories/Leo64Proofs.v
theories/PropLeo64.v
theories/TracingModel.v
theories/TracingSpec.v
theories/TracingProofs.v
theories/Tracing64Proofs.v
theories/PropTracing.v
theories/ConstellationSpec.v
theories/ConstellationProofs.v
theories/PropConstellation.v
theories/Ground64Proofs.v
theories/Link64Spec.v
theories/Link64Proofs.v
theories/PropGround64.v
theories/HeardSpec.v
theories/NetHeardProofs.v
theories/PropHeard.v
theories/LifeModel.v
theories/LifeSpec.v
theories/LifeProofs.v
theories/FlowProofs.v
theories/PropLife.v
theories/ScenarioModel.v
theories/ScenarioSpec.v
theories/ScenarioProofs.v
theories/PropScenario.v
theories/OrderSpec.v
theories/OrderProofs.v
theories/PropOrder.v
theories/QueueSpec.v
theories/QueueProofs.v
theories/PropQueue.v
theories/ReactModel.v
theories/ReactSpec.v
theories/ReactProofs.v
theories/PropReact.v
theories/RelaySpec.v
theories/RelayProofs.v
theories/PropRelay.v
theories/RingSpec.v
theories/RingProofs.v
theories/PropRing.v
theories/CoverSpec.v
theories/CoverProofs.v
theories/PropCover.v
theories/SharedModel.v
theories/SharedSpec.v
theories/SharedProofs.v
theories/PropShared.v
theories/ContactSpec.v
theories/ContactProofs.v
theories/PropContact.v
theories/AccountModel.v
theories/AccountSpec.v
theories/AccountProofs.v
theories/PropAccount.v
theories/ForwardSpec.v
theories/ForwardProofs.v
theories/MeasureModel.v
theories/MeasureSpec.v
theories/MeasureProofs.v
theories/PropMeasure.v
theories/PropAddr.v
theories/IpTraceModel.v
theories/IpTraceSpec.v
theories/PropIpTrace.v
theories/NamesModel.v
theories/PropNames.v
