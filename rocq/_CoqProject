-Q theories Verif

theories/Base.v
theories/Utf8.v
theories/Lib.v
theories/Topic.v
theories/V4Connect.v
theories/V4ConnAck.v
theories/V4Publish.v
theories/V4PubAck.v
theories/V4PubRec.v
theories/V4PubRel.v
theories/V4PubComp.v
theories/V4Subscribe.v
theories/V4SubAck.v
theories/V4Unsubscribe.v
theories/V4UnsubAck.v
theories/V4Ping.v
theories/V4Mod.v
theories/V5Property.v
theories/V5Connect.v
theories/V5ConnAck.v
theories/V5Publish.v
theories/V5PubAck.v
theories/V5PubRec.v
theories/V5PubRel.v
theories/V5PubComp.v
theories/V5Subscribe.v
theories/V5SubAck.v
theories/V5Unsubscribe.v
theories/V5UnsubAck.v
theories/V5Disconnect.v
theories/V5Ping.v
theories/V5Mod.v
theories/SpecWire.v
theories/ProofBase.v
theories/ProofUtf8.v
theories/ProofLib.v
theories/SpecFrame.v
theories/ProofCheck.v
theories/ProofRead.v
theories/SpecV4.v
theories/ProofBits.v
theories/ProofV4Write.v
theories/ProofV4Read.v
theories/SpecStream.v
theories/ProofStream.v
theories/ProofV4.v
theories/PropFrame.v
theories/SampleV4.v
theories/PropV4.v
theories/SpecTopic.v
theories/ProofTopic.v
theories/SpecProps.v
theories/SpecPropSets.v
theories/ProofProps.v
theories/ProofPropSets.v
theories/SpecV5.v
theories/SpecPlaces.v
theories/ProofV5Write.v
theories/ProofV5Read.v
theories/ProofSections.v
theories/ProofPlaces.v
theories/ProofV5.v
theories/ProofV5Back.v
theories/SampleV5.v
theories/SpecCross.v
theories/ProofCross.v
theories/PropTopic.v
theories/PropV5.v
theories/PropV5Props.v
theories/PropBuild.v
theories/SpecErrors.v
theories/SpecErrorsV4.v
theories/ProofErrors.v
theories/ProofErrorsV4.v
theories/ProofSectErrors.v
theories/SpecErrorsV5.v
theories/ProofErrorsV5.v
theories/SpecCodes.v
theories/PropCodes.v
theories/PropErrorsV4.v
theories/PropErrorsV5.v
theories/PropHeader.v
theories/SpecDirect.v
theories/PropDirect.v
theories/PropLen.v
theories/PropInterop.v
theories/PropExtract.v
theories/Debug.v
theories/PropDebug.v
theories/PropSize.v
theories/SpecSession.v
theories/PropSession.v
theories/SpecStd.v
theories/ProofStd.v
theories/SpecStd311.v
theories/ProofStd311.v
theories/PropStandard.v
theories/SpecStd5.v
theories/ProofStd5.v
theories/SpecStd5Dev.v
theories/ProofStd5Sec.v
theories/ProofStd5Dev.v
theories/ProofStd5Not.v
theories/PropStandard5.v
theories/ProofStd5Inj.v
theories/SpecStd5Write.v
theories/ProofStd5Write.v
theories/PropStandard5W.v
theories/SpecStd5Mean.v
theories/ProofStd5Mean.v
theories/PropMeaning.v
theories/PropMeaning4.v
theories/SpecForward4.v
theories/PropForward4.v
theories/PropForward5.v
theories/Release.v
theories/RelLib.v
theories/RelV5Property.v
theories/RelV4Connect.v
theories/RelV4ConnAck.v
theories/RelV4Publish.v
theories/RelV4PubAck.v
theories/RelV4PubRec.v
theories/RelV4PubRel.v
theories/RelV4PubComp.v
theories/RelV4Subscribe.v
theories/RelV4SubAck.v
theories/RelV4Unsubscribe.v
theories/RelV4Mod.v
theories/RelV5Connect.v
theories/RelV5ConnAck.v
theories/RelV5Publish.v
theories/RelV5PubAck.v
theories/RelV5PubRec.v
theories/RelV5PubRel.v
theories/RelV5PubComp.v
theories/RelV5Subscribe.v
theories/RelV5SubAck.v
theories/RelV5Unsubscribe.v
theories/RelV5UnsubAck.v
theories/RelV5Disconnect.v
theories/RelV5Mod.v
theories/ProofRelBase.v
theories/ProofRelSets.v
theories/ProofRelWrite.v
theories/ProofRelRead.v
theories/SpecRelease.v
theories/PropRelease.v
theories/SrcBase.v
theories/SrcLib.v
theories/SrcTopic.v
theories/SrcV4ConnAck.v
theories/SrcV4Connect.v
theories/SrcV4Disconnect.v
theories/SrcV4Ping.v
theories/SrcV4PubAck.v
theories/SrcV4PubComp.v
theories/SrcV4PubRec.v
theories/SrcV4PubRel.v
theories/SrcV4Publish.v
theories/SrcV4SubAck.v
theories/SrcV4Subscribe.v
theories/SrcV4UnsubAck.v
theories/SrcV4Unsubscribe.v
theories/SrcV4Mod.v
theories/SrcV5Ping.v
theories/SrcV5Property.v
theories/SrcV5ConnAck.v
theories/SrcV5Connect.v
theories/SrcV5Disconnect.v
theories/SrcV5PubAck.v
theories/SrcV5PubComp.v
theories/SrcV5PubRec.v
theories/SrcV5PubRel.v
theories/SrcV5Publish.v
theories/SrcV5SubAck.v
theories/SrcV5Subscribe.v
theories/SrcV5UnsubAck.v
theories/SrcV5Unsubscribe.v
theories/SrcV5Mod.v
theories/ProofSrcBase.v
theories/ProofSrcTac.v
theories/ProofSrcTacW.v
theories/ProofSrcV5Ext.v
theories/ProofSrcV5ExtC.v
theories/ProofSrcV5Read.v
theories/ProofSrcV4Read.v
theories/ProofSrcTop.v
theories/ProofSrcLen.v
theories/ProofSrcV4Write.v
theories/ProofSrcV5Write.v
theories/ProofSrcBuild.v
theories/SpecSource.v
theories/SpecStop.v
theories/ProofSrcStop.v
theories/ProofSrcFits.v
theories/PropSource.v
theories/PropStop.v
theories/PropSourceV4.v
theories/PropSourceV5.v
theories/PropSourceForward4.v
theories/PropSourceForward5.v
theories/PropSourceRest.v
theories/PropWork.v
theories/SrcFmt.v
theories/SrcDebug.v
theories/SpecDebug.v
theories/ProofSrcDebug.v
theories/PropLog.v
theories/PropSourceStream.v
theories/PropSourceApi.v
theories/ModelTests.v
theories/WrapBase.v
theories/WrapLib.v
theories/WrapTopic.v
theories/WrapV4ConnAck.v
theories/WrapV4Connect.v
theories/WrapV4Disconnect.v
theories/WrapV4Ping.v
theories/WrapV4PubAck.v
theories/WrapV4PubComp.v
theories/WrapV4PubRec.v
theories/WrapV4PubRel.v
theories/WrapV4Publish.v
theories/WrapV4SubAck.v
theories/WrapV4Subscribe.v
theories/WrapV4UnsubAck.v
theories/WrapV4Unsubscribe.v
theories/WrapV4Mod.v
theories/WrapV5Ping.v
theories/WrapV5Property.v
theories/WrapV5ConnAck.v
theories/WrapV5Connect.v
theories/WrapV5Disconnect.v
theories/WrapV5PubAck.v
theories/WrapV5PubComp.v
theories/WrapV5PubRec.v
theories/WrapV5PubRel.v
theories/WrapV5Publish.v
theories/WrapV5SubAck.v
theories/WrapV5Subscribe.v
theories/WrapV5UnsubAck.v
theories/WrapV5Unsubscribe.v
theories/WrapV5Mod.v
theories/PortBase.v
theories/PortLib.v
theories/PortTopic.v
theories/PortV4ConnAck.v
theories/PortV4Connect.v
theories/PortV4Disconnect.v
theories/PortV4Ping.v
theories/PortV4PubAck.v
theories/PortV4PubComp.v
theories/PortV4PubRec.v
theories/PortV4PubRel.v
theories/PortV4Publish.v
theories/PortV4SubAck.v
theories/PortV4Subscribe.v
theories/PortV4UnsubAck.v
theories/PortV4Unsubscribe.v
theories/PortV4Mod.v
theories/PortV5Ping.v
theories/PortV5Property.v
theories/PortV5ConnAck.v
theories/PortV5Connect.v
theories/PortV5Disconnect.v
theories/PortV5PubAck.v
theories/PortV5PubComp.v
theories/PortV5PubRec.v
theories/PortV5PubRel.v
theories/PortV5Publish.v
theories/PortV5SubAck.v
theories/PortV5Subscribe.v
theories/PortV5UnsubAck.v
theories/PortV5Unsubscribe.v
theories/PortV5Mod.v
theories/ProofWrapBase.v
theories/ProofWrap.v
theories/SpecUnchecked.v
theories/PropSourceRelease.v
theories/SrcCmp.v
theories/SrcEq.v
theories/SrcClone.v
theories/ProofSrcEq.v
theories/ProofSrcClone.v
theories/PropCompare.v
theories/PropClone.v
theories/ProofPortBase.v
theories/ProofPortLib.v
theories/ProofPortPlain.v
theories/ProofPortExtract.v
theories/ProofPortRead.v
theories/ProofPortTac.v
theories/ProofPortLen.v
theories/ProofPortTacW.v
theories/ProofPortV4Write.v
theories/ProofPortV5Write.v
theories/SpecPort.v
theories/PropPort.v
theories/PropConverse4.v
theories/PropConverse5.v
theories/PropSourceConverse4.v
theories/PropSourceConverse5.v
theories/TraceBase.v
theories/TraceLib.v
theories/TraceTopic.v
theories/TraceV4ConnAck.v
theories/TraceV4Connect.v
theories/TraceV4Disconnect.v
theories/TraceV4Ping.v
theories/TraceV4PubAck.v
theories/TraceV4PubComp.v
theories/TraceV4PubRec.v
theories/TraceV4PubRel.v
theories/TraceV4Publish.v
theories/TraceV4SubAck.v
theories/TraceV4Subscribe.v
theories/TraceV4UnsubAck.v
theories/TraceV4Unsubscribe.v
theories/TraceV4Mod.v
theories/TraceV5Ping.v
theories/TraceV5Property.v
theories/TraceV5ConnAck.v
theories/TraceV5Connect.v
theories/TraceV5Disconnect.v
theories/TraceV5PubAck.v
theories/TraceV5PubComp.v
theories/TraceV5PubRec.v
theories/TraceV5PubRel.v
theories/TraceV5Publish.v
theories/TraceV5SubAck.v
theories/TraceV5Subscribe.v
theories/TraceV5UnsubAck.v
theories/TraceV5Unsubscribe.v
theories/TraceV5Mod.v
theories/ProofTraceBase.v
theories/ProofTrace.v
theories/ProofTraceRead.v
theories/SpecTrace.v
theories/PropTrace.v
theories/PropTraceAll.v
theories/PropMemory.v
theories/SpecDemand.v
theories/ProofDemand.v
theories/PropDemand.v
theories/PropSourceDemand.v
theories/PropDemandPeer4.v
theories/PropDemandPeer5.v
theories/SpecSchedule.v
theories/PropSchedule.v
theories/PropDemandLost.v
theories/SpecBound.v
theories/PropBound.v
theories/SpecBridge.v
theories/PropBridge.v
theories/PropHdrOnly.v
theories/SpecPatch.v
theories/PropPatch.v
