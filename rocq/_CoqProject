-Q theories Verif
theories/Base.v
theories/BasModel.v
theories/BasSpec.v
theories/BasProof.v
theories/PropsBas.v
theories/FblasModel.v
theories/FblasSpec.v
theories/FblasProof.v
theories/PropsFblas.v
theories/EnvModel.v
theories/IdxModel.v
theories/IdxSpec.v
theories/IdxProof.v
theories/PropsIdx.v
theories/CtrModel.v
theories/CtrSpec.v
theories/CtrProof.v
theories/LoopSpec.v
theories/LoopProof.v
theories/Loop2eModel.v
theories/Loop2eSpec.v
theories/Loop2eProof.v
theories/Loop2eFinal.v
theories/CtrFinal.v
theories/PropsCtr.v
theories/PropsLoop2e.v
theories/Loop3Model.v
theories/Loop3Spec.v
theories/Loop3Proof.v
theories/Loop3Final.v
theories/PropsLoop3.v
theories/GridsModel.v
theories/GridsSpec.v
theories/GridsProof.v
theories/PropsGrids.v
theories/RecModel.v
theories/RecSpec.v
theories/RecLay.v
theories/Rec1Proof.v
theories/RecMoments.v
theories/Rec1Final.v
theories/GaussInt.v
theories/RecRModel.v
theories/Rec1Real.v
theories/PropsRec1.v
theories/OpProof.v
theories/OpSpec.v
theories/OpReal.v
theories/OpOvlp.v
theories/PropsOp.v
theories/FillProof.v
theories/Rec2Proof.v
theories/HrrProof.v
theories/Rec2Final.v
theories/Gauss2Int.v
theories/Rec2RModel.v
theories/Rec2Spec.v
theories/Rec2Real.v
theories/Rec2Kern.v
theories/PropsRec2.v
theories/Rec3Proof.v
theories/Rec3RModel.v
theories/Rec3Real.v
theories/PropsRec3.v
theories/GoutModel.v
theories/GoutSpec.v
theories/GoutProof.v
theories/SymModel.v
theories/SymSpec.v
theories/SymProof.v
theories/PropsGout.v
theories/OutModel.v
theories/OutSpec.v
theories/OutRules.v
theories/OutProof.v
theories/OutNest.v
theories/SphProof.v
theories/SphOut.v
theories/SphOut2.v
theories/OutFinal.v
theories/TabSph.v
theories/TabJR.v
theories/TabJI.v
theories/TabModel.v
theories/PiBound.v
theories/TrigInt.v
theories/TabSpec.v
theories/TabPoly.v
theories/TabProof.v
theories/OutSetup.v
theories/OutMore.v
theories/OutBad.v
theories/OutTab.v
theories/PropsOut.v
theories/BoysModel.v
theories/BoysSpec.v
theories/BoysProof.v
theories/PropsBoys.v
theories/RysModel.v
theories/RysSpec.v
theories/RysProof.v
theories/RysDisp.v
theories/OrderTab.v
theories/OrderProof.v
theories/StgModel.v
theories/StgSpec.v
theories/StgProof.v
theories/PropsRys.v
theories/BreitModel.v
theories/BreitProof.v
theories/PropsBreit.v
theories/NormModel.v
theories/NormProof.v
theories/PropsNorm.v
theories/CacheModel.v
theories/CacheSpec.v
theories/CacheProof.v
theories/CacheFinal.v
theories/CacheInit.v
theories/PropsCache.v
theories/ThreadModel.v
theories/ThreadProof.v
theories/ThreadFinal.v
theories/ThreadMat.v
theories/PropsThread.v
theories/OptModel.v
theories/OptSpec.v
theories/OptProof.v
theories/OptIdx.v
theories/OptHeap.v
theories/OptPair.v
theories/OptFinal.v
theories/PropsOpt.v
theories/ScreenModel.v
theories/ScreenSpec.v
theories/ScreenProof.v
theories/ScreenFinal.v
theories/ScreenMore.v
theories/PropsScreen.v
theories/SpinorModel.v
theories/SpinorSpec.v
theories/SpinorFill.v
theories/SpinorBra.v
theories/SpinorKet.v
theories/SpinorConv.v
theories/SpinorOut.v
theories/SpinorOut2.v
theories/SpinorTwo.v
theories/SpinorDrv.v
theories/SpinorOne.v
theories/PropsSpinor.v
theories/UnrModel.v
theories/UnrTab.v
theories/UnrTabSr.v
theories/UnrKern.v
theories/UnrProof.v
theories/UnrFinal.v
theories/UnrEnv.v
theories/PropsUnr.v
theories/WrapModel.v
theories/WrapTab.v
theories/WrapSpec.v
theories/WrapProof.v
theories/PropsWrap.v
theories/OvfModel.v
theories/OvfSpec.v
theories/OvfProof.v
theories/OvfFinal.v
theories/OvfLim.v
theories/OvfI8.v
theories/PropsOvf.v
theories/IntgModel.v
theories/IntgSpec.v
theories/IntgTab.v
theories/IntgStmt.v
theories/IntgCheck.v
theories/IntgStep.v
theories/IntgSem.v
theories/IntgRun.v
theories/IntgExec.v
theories/IntgDen.v
theories/IntgFinal.v
theories/IntgAll.v
theories/IntgEx.v
theories/IntgOvlp.v
theories/IntgReal.v
theories/IntgProps.v
theories/PropsIntg.v
theories/QuadSpec.v
theories/QuadPoly.v
theories/QuadSub.v
theories/Quad2e.v
theories/QuadMain.v
theories/Quad1e.v
theories/QuadFinal.v
theories/PropsQuad.v
theories/OperSpec.v
theories/OperModel.v
theories/OperDeg.v
theories/OperNuc.v
theories/OperKeep.v
theories/Oper2e.v
theories/PropsOper.v
theories/GiaoModel.v
theories/GiaoProof.v
theories/PropsGiao.v
theories/WholeModel.v
theories/WholeSpec.v
theories/WholeSim.v
theories/WholeBatch.v
theories/Whole1e.v
theories/PropsWhole.v
theories/Whole2Zero.v
theories/Whole2Model.v
theories/Whole2Sim.v
theories/Whole2Spec.v
theories/Whole2Batch.v
theories/Whole4c.v
theories/PropsWhole2.v
theories/Whole3c.v
theories/Whole2c.v
theories/PropsWhole3.v
theories/WholeOptModel.v
theories/WholeOptSpec.v
theories/WholeOptSim.v
theories/WholeOpt4.v
theories/WholeOpt3.v
theories/PropsWhole4.v
theories/WholeSame.v
theories/PropsWhole5.v
theories/WholeSpinSpec.v
theories/WholeSpinAlg.v
theories/WholeSpinModel.v
theories/PropsWhole6.v
theories/WholePerm.v
theories/PropsWhole7.v
theories/WholeFlip.v
theories/PropsWhole8.v
theories/WholeMom.v
theories/PropsWhole9.v
theories/WholeMove.v
theories/PropsWhole10.v
theories/WholeMove2.v
theories/PropsWhole11.v
theories/WholeMove3.v
theories/PropsWhole12.v
