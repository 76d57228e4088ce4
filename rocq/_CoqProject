-Q theories Verif
theories/Base.v
theories/BaseFacts.v
theories/SplineModel.v
theories/PrefilterModel.v
theories/Spec.v
theories/EvalGeneric.v
theories/EvalMaster.v
theories/EvalProps.v
theories/RSum.v
theories/EvalValue.v
theories/EvalR.v
theories/WeightsR.v
theories/EvalExact.v
theories/EvalRProps.v
theories/ExampleData.v
theories/EvalCases.v
theories/PropsEval.v
theories/PrefilterGeneric.v
theories/PrefilterPass.v
theories/SolverR.v
theories/PrefilterR.v
theories/PrefilterProps.v
theories/PrefilterCases.v
theories/PropsPrefilter.v
theories/InterpModel.v
theories/SpecInterp.v
theories/InterpProps.v
theories/InterpCases.v
theories/PropsInterp.v
theories/HermiteModel.v
theories/HermiteProps.v
theories/PropsHermite.v
theories/CompleteModel.v
theories/SpecComplete.v
theories/CompleteGeneric.v
theories/CompleteLoops.v
theories/CompleteProps.v
theories/CompleteFit.v
theories/CompleteCases.v
theories/PropsComplete.v
theories/ArrayModel.v
theories/ArrayFacts.v
theories/CartesianModel.v
theories/SpecCartesian.v
theories/CartesianProps.v
theories/CartesianR.v
theories/CartesianCases.v
theories/PropsCartesian.v
theories/SmolyakModel.v
theories/SpecSmolyak.v
theories/SmolyakPermute.v
theories/SmolyakInds.v
theories/SmolyakChains.v
theories/SmolyakNodes.v
theories/SmolyakB.v
theories/SmolyakGridR.v
theories/LinAlg.v
theories/SmolyakUni.v
theories/SmolyakInterpR.v
theories/SmolyakProps.v
theories/SmolyakCases.v
theories/PropsSmolyak.v
theories/BasisModel.v
theories/SpecBasis.v
theories/BasisProps.v
theories/BasisCubic.v
theories/BasisFinal.v
theories/PropsBasis.v
theories/GradModel.v
theories/SpecGrad.v
theories/GradProps.v
theories/GradCases.v
theories/PropsGrad.v
theories/ObjectModel.v
theories/SpecObject.v
theories/ObjectProps.v
theories/ObjectR.v
theories/ObjectMore.v
theories/ObjectGrid.v
theories/ObjectAccept.v
theories/PropsObject.v
theories/PySyntax.v
theories/PyEq.v
theories/PySem.v
theories/SpecText.v
theories/SrcEvalCubicNumba.v
theories/NumbaGen.v
theories/NumbaText.v
theories/PySemFacts.v
theories/NumbaSem.v
theories/NumbaModel.v
theories/NumbaRun.v
theories/NumbaProps.v
theories/NumbaAgree.v
theories/NumbaR.v
theories/NumbaCases.v
theories/PropsNumba.v
theories/SrcBasisSplines.v
theories/SrcHermite.v
theories/BasisText.v
theories/HermiteText.v
theories/TextProps.v
theories/PropsText.v
theories/SrcPrefilterCubic.v
theories/PyArr.v
theories/PrefCore.v
theories/PrefPass.v
theories/PrefText.v
theories/PrefBody.v
theories/PrefRun.v
theories/PrefCall.v
theories/SpecPref.v
theories/PrefTop.v
theories/PrefR.v
theories/PrefCases.v
theories/PropsPref.v
theories/TempitaModel.v
theories/StrSem.v
theories/GenModel.v
theories/SrcCodegen.v
theories/GenText.v
theories/GenNames.v
theories/GenPhase.v
theories/GenBlocks.v
theories/GenReduce.v
theories/GenParts.v
theories/GenRefine.v
theories/GenCall.v
theories/SpecGen.v
theories/GenTheorem.v
theories/GenProps.v
theories/PropsGen.v
theories/SrcCompletePoly.v
theories/CompleteText.v
theories/CompleteRun.v
theories/CompleteTextR.v
theories/PropsCompleteText.v
theories/SpecError.v
theories/ErrorR.v
theories/CubicError.v
theories/CurvatureR.v
theories/ErrorCases.v
theories/PropsError.v
theories/SrcFilterCubic.v
theories/FiltCore.v
theories/FiltText.v
theories/SpecFilt.v
theories/FiltTop.v
theories/FiltR.v
theories/FiltCases.v
theories/PropsFilt.v
theories/SpecRound.v
theories/RoundR.v
theories/RoundW.v
theories/RoundD.v
theories/RoundT.v
theories/RoundV.v
theories/RoundCases.v
theories/PropsRound.v
theories/SpecShape.v
theories/ShapeR.v
theories/DecayR.v
theories/ShapeCases.v
theories/PropsShape.v
theories/SpecExact.v
theories/SmolyakExact.v
theories/SpecSym.v
theories/SmolyakSym.v
theories/PropsExact.v
theories/SrcSmolyakUtil.v
theories/SrcSmolyakGrid.v
theories/SrcSmolyakInterp.v
theories/NpSem.v
theories/NpFacts.v
theories/SpecSmolText.v
theories/SmolText.v
theories/SmolTextA.v
theories/SmolTextB.v
theories/SmolTextC.v
theories/SmolTextD.v
theories/SmolTextE.v
theories/SmolTextF.v
theories/SmolTextR.v
theories/PropsSmolText.v
theories/SrcFungen.v
theories/SrcMlinterp.v
theories/MlSem.v
theories/MlCps.v
theories/SpecMlText.v
theories/MlText.v
theories/MlTextA.v
theories/MlTextB.v
theories/MlTextC.v
theories/MlTextD.v
theories/MlTextE.v
theories/PropsMlText.v
theories/SrcSplines.v
theories/SrcMultilinear.v
theories/SrcEvalCubic.v
theories/ObSem.v
theories/SpecObText.v
theories/ObText.v
theories/ObTextA.v
theories/ObTextB.v
theories/ObTextC.v
theories/ObTextD.v
theories/ObTextE.v
theories/ObTextF.v
theories/ObTextG.v
theories/ObTextH.v
theories/PropsObText.v
theories/SpecObGrid.v
theories/ObTextI.v
theories/ObTextJ.v
theories/ObTextK.v
theories/PropsObGrid.v
theories/ObTextL.v
theories/ObTextM.v
theories/PropsObMade.v
theories/SpecObTwo.v
theories/ObTextN.v
theories/PropsObTwo.v
