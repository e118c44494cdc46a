-Q theories Verif
theories/Base.v
theories/Driver.v
theories/Abs.v
theories/AbsFacts.v
theories/Sim.v
theories/ModelQueue.v
theories/QueueFacts.v
theories/SimQueue.v
theories/ClockFacts.v
theories/SimClock.v
theories/SimSieve.v
theories/ModelLFU.v
theories/SimLFU.v
theories/SpecApi.v
theories/ApiFacts.v
theories/SpecRing.v
theories/RingFacts.v
theories/PSim.v
theories/SimMRU.v
theories/PropsCore.v
theories/SpecLRUStack.v
theories/LRUStack.v
theories/PropsLRU.v
theories/ModelPQ.v
theories/PQFacts.v
theories/SimHeap.v
theories/SpecOpt.v
theories/BeladyOpt.v
theories/SpecPQ.v
theories/PropsHeap.v
theories/ModelSplay.v
theories/SplayFacts.v
theories/SpecDist.v
theories/ModelDist.v
theories/DistFacts.v
theories/PropsDist.v
theories/ModelDll.v
theories/PropsDll.v
theories/ModelHash.v
theories/HashFacts.v
theories/PropsHash.v
theories/QList.v
theories/SpecComp.v
theories/CompFacts.v
theories/ModelTwoQ.v
theories/TwoQFacts.v
theories/PropsTwoQ.v
theories/ModelS3FIFO.v
theories/S3Facts.v
theories/PropsS3FIFO.v
theories/ModelFilter.v
theories/PropsFilter.v
theories/ModelReader.v
theories/SpecReader.v
theories/ReaderFacts.v
theories/PropsReader.v
theories/PropsLayout.v
theories/ModelSim.v
theories/SpecSim.v
theories/SimulatorFacts.v
theories/SimThreads.v
theories/PropsSim.v
theories/ModelSLRU.v
theories/SpecSLRU.v
theories/SLRUFacts.v
theories/PropsSLRU.v
theories/ModelTTL.v
theories/PropsTTL.v
theories/ModelLFUDA.v
theories/PropsLFUDA.v
theories/ModelRank.v
theories/SpecRank.v
theories/RankFacts.v
theories/PropsRank.v
theories/ModelARC.v
theories/SpecARC.v
theories/ARCFacts.v
theories/PropsARC.v
theories/ModelConv.v
theories/SpecConv.v
theories/ConvFacts.v
theories/PropsConv.v
theories/SpecWeak.v
theories/WSim.v
theories/ModelRand.v
theories/SpecRand.v
theories/SimRand.v
theories/RandFacts.v
theories/PropsRand.v
theories/ModelTxt.v
theories/SpecTxt.v
theories/TxtFacts.v
theories/TxtCursor.v
theories/CsvFacts.v
theories/CsvRead.v
theories/PropsTxt.v
theories/ModelAnalyzer.v
theories/SpecAnalyzer.v
theories/AnalyzerFacts.v
theories/AnalyzerWin.v
theories/AnalyzerStats.v
theories/AnalyzerDecay.v
theories/AnalyzerLink.v
theories/PropsAnalyzer.v
theories/ModelMoreQ.v
theories/SimSize.v
theories/SpecMoreQ.v
theories/SimMoreQ.v
theories/ModelBeladyX.v
theories/SpecBeladyX.v
theories/XBeladyFacts.v
theories/BeladySizeFacts.v
theories/PropsMoreQ.v
theories/SieveBeladyFacts.v
theories/PropsBeladyX.v
theories/ModelQDLP.v
theories/QDLPFacts.v
theories/PropsQDLP.v
theories/ModelWTiny.v
theories/SpecWTiny.v
theories/WTinyFacts.v
theories/WTinyMains.v
theories/PropsWTiny.v
theories/ModelCli.v
theories/SpecCli.v
theories/CliFacts.v
theories/PropsCli.v
theories/ModelSFIFO.v
theories/SpecSFIFO.v
theories/SFIFOFacts.v
theories/PropsSFIFO.v
theories/ModelSegV0.v
theories/SpecSegV0.v
theories/SegV0Facts.v
theories/PropsSegV0.v
theories/ModelLeCaR.v
theories/SpecLeCaR.v
theories/LeCaRFacts.v
theories/LeCaRSim.v
theories/PropsLeCaR.v
theories/ModelLIRS.v
theories/SpecLIRS.v
theories/LIRSFacts.v
theories/LIRSSim.v
theories/PropsLIRS.v
theories/ModelARCv0.v
theories/SpecARCv0.v
theories/ARCv0Facts.v
theories/ARCv0Equiv.v
theories/PropsARCv0.v
theories/ModelPrefetch.v
theories/SpecPrefetch.v
theories/PrefetchFacts.v
theories/PGFacts.v
theories/PropsPrefetch.v
theories/ModelRing.v
theories/SpecCluster.v
theories/ClusterFacts.v
theories/ModelMD5.v
theories/SpecMD5.v
theories/MD5Facts.v
theories/ClusterRun.v
theories/PropsMD5.v
theories/PropsCluster.v
theories/ModelFlash.v
theories/FlashFacts.v
theories/PropsFlash.v
theories/ModelS3LRU.v
theories/S3LRUFacts.v
theories/PropsS3LRU.v
theories/ModelCacheus.v
theories/SpecCacheus.v
theories/CRFacts.v
theories/CacheusFacts.v
theories/PropsCacheus.v
theories/PropsCRLFU.v
theories/ModelLHD.v
theories/LHDFacts.v
theories/PropsLHD.v
theories/ModelS3FIFOd.v
theories/S3dFacts.v
theories/PropsS3FIFOd.v
theories/ModelLeCaRv0.v
theories/LeCaRv0Facts.v
theories/PropsLeCaRv0.v
theories/ModelLPTwoQ.v
theories/LPTwoQFacts.v
theories/PropsLPTwoQ.v
theories/ModelLPSFIFO.v
theories/SpecLPSFIFO.v
theories/LPSFIFOFacts.v
theories/PropsLPSFIFO.v
theories/ModelLPARC.v
theories/LPARCFacts.v
theories/PropsLPARC.v
theories/ModelQDLPv0.v
theories/SpecQDLPv0.v
theories/QDLPv0Facts.v
theories/PropsQDLPv0.v
theories/SpecReinsert.v
theories/ModelReinsert.v
theories/ReinsertFacts.v
theories/PropsReinsert.v
theories/SpecZstd.v
theories/ModelZstd.v
theories/ZstdFacts.v
theories/PropsZstd.v
theories/SpecTraceFilter.v
theories/ModelTraceFilter.v
theories/PropsTraceFilter.v
theories/ModelExper.v
theories/SpecExper.v
theories/PropsExper.v
theories/ModelSizeChange.v
theories/SpecSizeChange.v
theories/PropsSizeChange.v
theories/ModelScan.v
theories/SpecScan.v
theories/PropsScan.v
theories/ModelOneHit.v
theories/SpecOneHit.v
theories/PropsOneHit.v
theories/Assumptions.v
