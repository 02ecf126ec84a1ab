-Q theories Verif
theories/PyBase.v
theories/World.v
theories/PyFacts.v
theories/PyState.v
theories/Utils.v
theories/UtilsFacts.v
theories/UtilsLemmas.v
theories/CipherTables.v
theories/Magma.v
theories/Kuznechik.v
theories/CipherObj.v
theories/Modes.v
theories/Mac.v
theories/SpecNew.v
theories/SpecMagma.v
theories/SpecKuznechik.v
theories/KuzFacts.v
theories/KuzFacts2.v
theories/MagmaFacts.v
theories/SpecModes.v
theories/CipherLemmas.v
theories/CipherObjFacts.v
theories/ModeFacts.v
theories/CtrFacts.v
theories/ModeSpecFacts.v
theories/ModeLemmas.v
theories/ModeSem.v
theories/ModeConf.v
theories/ModeProps.v
theories/ModeEmpty.v
theories/ModeSim.v
theories/ModeHist.v
theories/ModeNew.v
theories/ModeMore.v
theories/WeakKeys.v
theories/PyLoop.v
theories/OidTable.v
theories/Oid.v
theories/StreebogTables.v
theories/Streebog.v
theories/SpecStreebog.v
theories/SpecHashHist.v
theories/SpecHmac.v
theories/StreebogFacts.v
theories/StreebogFacts2.v
theories/StreebogObj.v
theories/StreebogLemmas.v
theories/StreebogProps.v
theories/Hmac.v
theories/HmacLemmas.v
theories/Random.v
theories/SpecRandom.v
theories/RandomLemmas.v
theories/SpecTrace.v
theories/SpecTraceHash.v
theories/SigCurves.v
theories/Sig.v
theories/Trace.v
theories/TraceLemmas.v
theories/TraceFacts.v
theories/TraceCipher.v
theories/TraceCipherFacts.v
theories/TraceCipher2.v
theories/TraceHash.v
theories/TraceHashErase.v
theories/TraceHashFlow.v
theories/TraceHashShow.v
theories/Pbkdf.v
theories/TracePbkdf.v
theories/HmacProps.v
theories/SpecPbkdf.v
theories/PbkdfLemmas.v
theories/TracePbkdfFacts.v
theories/TracePbkdfWork.v
theories/TraceRandom.v
theories/TraceRandomFacts.v
theories/MacFacts.v
theories/TraceModes.v
theories/TraceCipher2Facts.v
theories/TraceModesErase.v
theories/Euclid.v
theories/Fp.v
theories/SpecCurve.v
theories/SpecSign.v
theories/CurveGroup.v
theories/SigLemmas.v
theories/SigArith.v
theories/SigProps.v
theories/SigSign.v
theories/SigFinal.v
theories/SpecTrace2.v
theories/PropTrace2.v
theories/SpecTrace3.v
theories/PropTrace3.v
theories/TraceModesFlow.v
theories/TraceModesUse.v
theories/MacFacts2.v
theories/MacLemmas.v
theories/MacProps.v
theories/SpecTraceModes.v
theories/PropTrace6.v
theories/TraceMac.v
theories/TraceMacErase.v
theories/TraceMacFlow.v
theories/SpecTraceMac.v
theories/TraceMacInit.v
theories/Threads.v
theories/ThreadsRandom.v
theories/ThreadsRandomClear.v
theories/ThreadsPbkdf.v
theories/ThreadsHash.v
theories/ThreadsMac.v
theories/ThreadsHmac.v
theories/ThreadsModes.v
theories/ThreadsOwn.v
theories/ThreadsHmacDigest.v
theories/ThreadsHashDigest.v
theories/ThreadsClear.v
theories/ModeReuse.v
theories/MacMore.v
theories/ModeCross.v
theories/MacMore2.v
theories/ModeCross2.v
theories/ThreadFacts.v
theories/ThreadRandomFacts.v
theories/SpecPublicRegister.v
theories/ThreadRandomClearFacts.v
theories/ThreadMacFacts.v
theories/ThreadPbkdfFacts.v
theories/ThreadHashFacts.v
theories/ThreadModeFacts.v
theories/PropThreads6.v
theories/ThreadOwnFacts.v
theories/ThreadHashDigestFacts.v
theories/ThreadHmacDigestFacts.v
theories/ThreadHmacDigestFacts2.v
theories/ModeExamples.v
theories/SpecFill.v
theories/MacKnown.v
theories/ThreadClearFacts.v
theories/ThreadClearFacts2.v
theories/SpecHashFinal.v
theories/StreebogFinal.v
theories/SpecTraceRandom.v
theories/SpecTracePbkdf.v
theories/SpecTags.v
theories/SpecStreams.v
theories/SpecOidErr.v
theories/SpecDer.v
theories/SpecInt.v
theories/SpecDraw.v
theories/Primes.v
theories/EdwardsMap.v
theories/SigCons.v
theories/SigMore.v
theories/SigMore2.v
theories/PropSig.v
theories/PropSig2.v
theories/SigMore3.v
theories/BigCert.v
theories/BigCheck.v
theories/Cert256A.v
theories/Cert256B.v
theories/Cert256C.v
theories/Cert256D.v
theories/Cert512A.v
theories/Cert512B.v
theories/Cert512C.v
theories/SigBuiltin.v
theories/Related.v
theories/RandomLong.v
theories/PropWeak.v
theories/PropUtils.v
theories/PropTraceHash.v
theories/PropTrace7.v
theories/PropRandom.v
theories/PropTrace5.v
theories/PropTrace4.v
theories/PropTrace.v
theories/PropThreads.v
theories/PropThreads7.v
theories/PropThreads9.v
theories/PropThreads8.v
theories/PropThreads5.v
theories/MacProps2.v
theories/PropMac.v
theories/PropThreads4.v
theories/PropThreads3.v
theories/PropThreads2.v
theories/PropThreads13.v
theories/PropThreads12.v
theories/PropHash.v
theories/PropThreads11.v
theories/PropThreads10.v
theories/PropHmac.v
theories/PropPbkdf.v
theories/PropTags.v
theories/ModeStreams.v
theories/PropStreams.v
theories/ModeSplice.v
theories/PropSplice.v
theories/PropSig5.v
theories/PropSig4.v
theories/PropSig3.v
theories/PropSeeds.v
theories/PbkdfSame.v
theories/Heap.v
theories/HeapLogic.v
theories/HeapCipher.v
theories/HeapModes.v
theories/HeapHmac.v
theories/HeapHmacFacts.v
theories/HeapCipherFacts.v
theories/HeapModesLogic.v
theories/HeapModesFacts.v
theories/HeapMacFacts.v
theories/HeapWorld.v
theories/HeapWorldFacts.v
theories/AliasLemmas.v
theories/PropAlias.v
theories/PropReuse2.v
theories/PropReuse.v
theories/PropRelated.v
theories/Programs.v
theories/ProgramFacts.v
theories/PropPrograms.v
theories/PropPrograms5.v
theories/ModePad.v
theories/ModeClear.v
theories/PropModes.v
theories/ModeTrack.v
theories/ModeExamples2.v
theories/PropModes2.v
theories/PropPrograms3.v
theories/PropPrograms4.v
theories/PropPrograms2.v
theories/ModePrefix.v
theories/PropPrefix.v
theories/PropPast.v
theories/ModeOnto.v
theories/PropOnto.v
theories/OidFacts.v
theories/OidFacts2.v
theories/OidLemmas.v
theories/OidText.v
theories/PropOid.v
theories/PropMore.v
theories/PropMac2.v
theories/PropMac3.v
theories/PropLong.v
theories/HeapSig.v
theories/HeapSigFacts.v
theories/PropHeapSig.v
theories/Final.v
theories/FinalFacts.v
theories/PropFinal.v
theories/DrawLemmas.v
theories/PropDraw.v
theories/PropCipher.v
theories/HeapObjects.v
theories/HeapHash.v
theories/HeapHashFacts.v
theories/HashWorld.v
theories/HashWorldFacts.v
theories/PropAlias2.v
