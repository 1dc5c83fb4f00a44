-Q theories Verif
theories/Base.v
theories/ParamModel.v
theories/ParamSpec.v
theories/ParamText.v
theories/ParamExpand.v
theories/ParamProofs.v
theories/ParamIterModel.v
theories/ParamIterProofs.v
theories/ParamFinal.v
theories/Props_Param.v
theories/TextModel.v
theories/TextSpec.v
theories/TextProofs.v
theories/TextPopulate.v
theories/TextFinal.v
theories/Props_Text.v
theories/CheckpointModel.v
theories/CheckpointSpec.v
theories/CheckpointProofs.v
theories/CheckpointFinal.v
theories/CheckpointModify.v
theories/Props_Checkpoint.v
theories/FieldModel.v
theories/FieldSpec.v
theories/FieldProofs.v
theories/FieldCache.v
theories/Props_Field.v
theories/FolderModel.v
theories/FolderProofs.v
theories/Props_Folder.v
theories/IndexModel.v
theories/IndexProofs.v
theories/Props_Index.v
theories/MatrixModel.v
theories/MatrixSpec.v
theories/MatrixProofs.v
theories/MatrixConvert.v
theories/MatrixRead.v
theories/MatrixMul.v
theories/MatrixFinal.v
theories/Props_Matrix.v
theories/ParamFolder.v
theories/TextToolsModel.v
theories/TextToolsSpec.v
theories/TextToolsProofs.v
theories/Props_TextTools.v
theories/RealBase.v
theories/LinAlg3Model.v
theories/LinAlg3Spec.v
theories/LinAlg3Proofs.v
theories/LinAlg3Final.v
theories/Props_LinAlg3.v
theories/PrecondModel.v
theories/PrecondProofs.v
theories/Props_Precond.v
theories/TrigSums.v
theories/SpectralModel.v
theories/SpectralSpec.v
theories/ChebProofs.v
theories/SpectralProofs.v
theories/SpectralDeriv.v
theories/FuncDerivModel.v
theories/FuncDerivProofs.v
theories/SpectralFinal.v
theories/Props_Spectral.v
theories/RootModel.v
theories/RootProofs.v
theories/RootSD.v
theories/RootFinal.v
theories/Props_Root.v
theories/DispatchModel.v
theories/DispatchProofs.v
theories/Props_Dispatch.v
theories/Spectral3Model.v
theories/Spectral3Spec.v
theories/Spectral3Proofs.v
theories/IntegrationProofs.v
theories/SurfaceProofs.v
theories/QuadProofs.v
theories/IntegrationExamples.v
theories/Props_Integration.v
theories/EosModel.v
theories/EosSpec.v
theories/EosProofs.v
theories/EosPwp.v
theories/EosFinal.v
theories/Props_Eos.v
theories/PolyLib.v
theories/Interp1Model.v
theories/Interp1Spec.v
theories/NevilleProofs.v
theories/SplineProofs.v
theories/FornbergProofs.v
theories/HermiteProofs.v
theories/Interp1Final.v
theories/Props_Interp1.v
theories/CubedModel.v
theories/CubedSpec.v
theories/CubedProofs.v
theories/CubedJac.v
theories/CubedDet.v
theories/CubedAngles.v
theories/CubedFinal.v
theories/CubedFinal2.v
theories/CubedFind.v
theories/CubedLocate.v
theories/Props_Cubed.v
theories/SchurModel.v
theories/SchurSpec.v
theories/SchurProofs.v
theories/SchurPieces.v
theories/SchurBlocks.v
theories/SchurFinal.v
theories/SchurExact.v
theories/SchurReal.v
theories/SewModel.v
theories/SewSpec.v
theories/SewMap.v
theories/SewProofs.v
theories/SewFinal.v
theories/SewMeaning.v
theories/SewRefute.v
theories/NewtonModel.v
theories/NewtonSpec.v
theories/NewtonProofs.v
theories/NewtonLoop.v
theories/NewtonReal.v
theories/NewtonExamples.v
theories/Props_Newton.v
theories/TensorSpec.v
theories/GenChris.v
theories/GenRicci.v
theories/TensorProofs.v
theories/RicciProofs.v
theories/BssnModel.v
theories/BssnProofs.v
theories/RicciFinal.v
theories/Props_Tensor.v
theories/GenAConfIJ.v
theories/GenAConfIJ2.v
theories/GenAdmG.v
theories/GenBc2AlphaPsi.v
theories/GenBcAlphaPsi.v
theories/GenBcB0.v
theories/GenBcB1.v
theories/GenBcB2.v
theories/GenBcPsi.v
theories/GenEqAlphaPsi.v
theories/GenEqB0.v
theories/GenEqB1.v
theories/GenEqB2.v
theories/GenEqPsi.v
theories/GenFlatJacB0.v
theories/GenFlatJacB1.v
theories/GenFlatJacB2.v
theories/GenHamMom.v
theories/GenHamMom2.v
theories/GenJacAlphaPsi.v
theories/GenJacB0.v
theories/GenJacB1.v
theories/GenJacB2.v
theories/GenJacBc2AlphaPsi.v
theories/GenJacBcAlphaPsi.v
theories/GenJacBcB0.v
theories/GenJacBcB1.v
theories/GenJacBcB2.v
theories/GenJacBcPsi.v
theories/GenJacPsi.v
theories/GenKDD.v
theories/GenKUU.v
theories/GenKUU2.v
theories/XctsSpec.v
theories/XctsProofs.v
theories/ShiftSpec.v
theories/ShiftProofs.v
theories/ShiftRes.v
theories/ShiftFinal.v
theories/XctsBc.v
theories/AdmSpec.v
theories/AdmConf.v
theories/AdmGen.v
theories/AdmFinal.v
theories/XctsFinal.v
theories/Props_Xcts.v
theories/GenEqPhi1.v
theories/GenEqPhi2.v
theories/GenJacPhi.v
theories/GenBcPhi1.v
theories/GenBcPhi3.v
theories/GenJacBcPhi1.v
theories/GenJacBcPhi3.v
theories/PhiSpec.v
theories/PhiProofs.v
theories/PhiFinal.v
theories/Props_Phi.v
theories/GenTijE.v
theories/GenTijJ.v
theories/GenTijS.v
theories/GenU0.v
theories/GenEnthalpy.v
theories/GenMass.v
theories/GenEulerC.v
theories/GenGamma.v
theories/GenGtilda.v
theories/FluidSpec.v
theories/FluidModel.v
theories/FluidProofs.v
theories/FluidFinal.v
theories/FluidExamples.v
theories/Props_Fluid.v
theories/FourierSpec.v
theories/FourierModel.v
theories/FourierProofs.v
theories/FourierFinal.v
theories/FourierExamples.v
theories/Props_Fourier.v
theories/YlmSpec.v
theories/YlmModel.v
theories/LegendreProofs.v
theories/YlmProofs.v
theories/LegendreOrtho.v
theories/YlmFinal.v
theories/YlmTrans.v
theories/YlmThms.v
theories/Props_Ylm.v
theories/TovSpec.v
theories/TovModel.v
theories/TovProofs.v
theories/TovFinal.v
theories/TovThms.v
theories/TovStar.v
theories/TovSearch.v
theories/Props_Tov.v
theories/IdrSpec.v
theories/IdrModel.v
theories/IdrProofs.v
theories/IdrFinal.v
theories/IdrFiles.v
theories/Props_Idr.v
theories/GenKsX.v
theories/GenKsR.v
theories/GenKsH.v
theories/GenKsK.v
theories/GenKsG.v
theories/KsSpec.v
theories/KsModel.v
theories/KsCalc.v
theories/KsDR.v
theories/KsMove.v
theories/KsDH.v
theories/KsDK0.v
theories/KsDK1.v
theories/KsDK2.v
theories/KsMoveK.v
theories/KsDk.v
theories/KsDG.v
theories/KsProofs.v
theories/KsClosed.v
theories/KsMetric.v
theories/KsSplit.v
theories/KsCurve.v
theories/KsFinal.v
theories/KsRefute.v
theories/Props_Ks.v
theories/GenKsKij.v
theories/GenPgKij.v
theories/FreeModel.v
theories/FreeProofs.v
theories/Props_Free.v
theories/GenObsP.v
theories/GenObsJ.v
theories/GenObsPR.v
theories/GenObsPC.v
theories/GenObsJC.v
theories/GenObsPO.v
theories/GenObsJO.v
theories/GenObsSC.v
theories/GenObsSA.v
theories/GenObsMS2.v
theories/GenObsMI.v
theories/GenObsMC.v
theories/GenObsK.v
theories/GenObsRc.v
theories/ObsSpec.v
theories/ObsProofs.v
theories/ObsGauss.v
theories/ObsVol.v
theories/ObsMass.v
theories/ObsKomar.v
theories/ObsNormal.v
theories/Props_Obs.v
theories/RegionModel.v
theories/RegionProofs.v
theories/GenObsDisp.v
theories/ObsDispModel.v
theories/ObsDispSpec.v
theories/ObsDispProofs.v
theories/ObsDispTables.v
theories/ObsDispKomar.v
theories/GridModel.v
theories/GridSpec.v
theories/GridProofs.v
theories/GridNames.v
theories/GridCover.v
theories/GridInner.v
theories/ObsReportModel.v
theories/ObsReportProofs.v
theories/Props_ObsDisp.v
theories/FillerModel.v
theories/FillerSpec.v
theories/FillerProofs.v
theories/FillerProofs2.v
theories/FillerNames.v
theories/GenAH.v
theories/ControlModel.v
theories/ControlProofs.v
theories/AHProofs.v
theories/Props_Filler.v
theories/Props_Control.v
theories/GenEqTable.v
theories/EqModel.v
theories/EqProofs.v
theories/EqRelax.v
theories/EqRelaxProofs.v
theories/WordsModel.v
theories/WordsProofs.v
theories/StarStart.v
theories/StarStartProofs.v
theories/Props_Solve.v
theories/Props_Words.v
theories/GenCmd.v
theories/PhysModel.v
theories/PhysProofs.v
theories/StartModel.v
theories/StartProofs.v
theories/Props_Phys.v
theories/NormModel.v
theories/NormProofs.v
theories/DerivModel.v
theories/DerivNameProofs.v
theories/TransferModel.v
theories/TransferProofs.v
theories/Props_Norm.v
theories/Props_DerivName.v
theories/Props_Transfer.v
theories/PoissonModel.v
theories/PoissonProofs.v
theories/Props_Poisson.v
theories/DiffModel.v
theories/DiffProofs.v
theories/Props_Diff.v
