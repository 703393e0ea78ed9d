-Q theories Verif
theories/Base.v
theories/Lib.v
theories/ModelRequest.v
theories/ModelSend.v
theories/ModelResponse.v
theories/ModelReadHeader.v
theories/SpecRequest.v
theories/ProofsRequest.v
theories/ProofsDecimal.v
theories/ProofsRequest2.v
theories/ProofsHistory.v
theories/SpecSend.v
theories/SpecResponse.v
theories/SpecReadHeader.v
theories/SpecHttp.v
theories/SpecParser.v
theories/ProofsSend.v
theories/ProofsSend2.v
theories/ProofsResponse.v
theories/ProofsResponse2.v
theories/ProofsResponse3.v
theories/ProofsResponse4.v
theories/ProofsResponse5.v
theories/ProofsIndep.v
theories/ProofsReadHeader.v
theories/RefParser.v
theories/RefRun.v
theories/HttpRun.v
theories/ProofsReadHttp.v
theories/ProofsFollow.v
theories/ProofsEnd.v
theories/SpecExchange.v
theories/ProofsTwin.v
theories/ProofsExchange.v
theories/Demo.v
theories/DemoResponse.v
theories/PropsRequest.v
theories/PropsSend.v
theories/PropsResponse.v
theories/PropsResponse2.v
theories/PropsHttp.v
theories/PropsReadHeader.v
theories/PropsExchange.v
theories/SpecExact.v
theories/PropsExact.v
theories/SpecExact2.v
theories/PropsExact2.v
theories/ProofsAny.v
theories/PropsAny.v
theories/PropsAnyExchange.v
theories/ProofsCount.v
theories/SpecSession.v
theories/PropsSession.v
theories/SpecApi.v
theories/PropsApi.v
theories/PropsExact3.v
theories/SpecCut.v
theories/SpecRaw.v
theories/ProofsRaw.v
theories/RefRaw.v
theories/PropsRaw.v
theories/ProofsCut.v
theories/RefCut.v
theories/PropsCut.v
theories/SpecPlaces.v
theories/RefPlaces.v
theories/PropsPlaces.v
theories/SpecBlank.v
theories/PropsBlank.v
theories/PropsBlankRaw.v
theories/SpecSections.v
theories/PropsSections.v
theories/SpecSeries.v
theories/RefSeries.v
theories/PropsSeries.v
theories/SpecBuffer.v
theories/PropsBuffer.v
theories/SpecClock.v
theories/PropsClock.v
theories/ProofsFrame.v
theories/PropsMemory.v
theories/SpecGrow.v
theories/PropsGrow.v
theories/ModelTask.v
theories/SpecTask.v
theories/ProofsTask.v
theories/ProofsLocal.v
theories/ProofsLocal2.v
theories/PropsTask.v
theories/SpecPieces.v
theories/PropsPieces.v
theories/SpecOver.v
theories/PropsOver.v
theories/PropsAlias.v
theories/SpecTime.v
theories/PropsTime.v
theories/SpecSize.v
theories/PropsSize.v
theories/PropsWhole.v
theories/SpecAbandon.v
theories/ProofsAbandon.v
theories/PropsAbandon.v
theories/SpecBuild.v
theories/PropsBuild.v
theories/PropsBody.v
theories/SpecLive.v
theories/PropsLive.v
theories/ModelRelease.v
theories/SpecRelease.v
theories/PropsRelease.v
theories/SpecAgain.v
theories/PropsAgain.v
theories/ModelCallback.v
theories/SpecCallback.v
theories/ProofsCallback.v
theories/PropsCallback.v
theories/PropsLiveClose.v
theories/SpecPipeline.v
theories/PropsPipeline.v
theories/ModelLog.v
theories/SpecLog.v
theories/ProofsLog.v
theories/PropsLog.v
theories/SpecDownload.v
theories/SpecRetry.v
theories/PropsDownload.v
theories/PropsRetry.v
theories/PropsEnds.v
theories/SpecResume.v
theories/PropsResume.v
theories/SpecFetch.v
theories/PropsFetch.v
