-Q theories Verif
theories/EnumFacts.v
theories/IntFacts.v
theories/ModelBasis.v
theories/ModelClenshaw.v
theories/ModelConstruction.v
theories/ModelConstruction2.v
theories/ModelDataJS.v
theories/ModelDataVR.v
theories/ModelDataWV.v
theories/ModelDataXG.v
theories/ModelEdgeNodes.v
theories/ModelFaces.v
theories/ModelFloat.v
theories/ModelGM.v
theories/ModelGauss.v
theories/ModelKronrod.v
theories/ModelLebesgue.v
theories/ModelLinAlg.v
theories/ModelMatrices.v
theories/ModelMatricesDeprecated.v
theories/ModelModalDecay.v
theories/ModelModes.v
theories/ModelNd.v
theories/ModelNodes.v
theories/ModelPickle.v
theories/ModelQuad.v
theories/ModelQuadSpace.v
theories/ModelReshape.v
theories/ModelShapes.v
theories/ModelSpaces.v
theories/ModelSubmesh.v
theories/ModelSymbolic.v
theories/ModelTables.v
theories/ModelTools.v
theories/ModelTransplanted.v
theories/ModelVandermonde.v
theories/ModelWarpBlend.v
theories/ProofBasisDeriv.v
theories/ProofBasisIndex.v
theories/ProofBetaReal.v
theories/ProofCheb.v
theories/ProofClenshaw.v
theories/ProofCompositions.v
theories/ProofConstruction.v
theories/ProofDeprecated.v
theories/ProofDeprecated2.v
theories/ProofDet.v
theories/ProofDiffPerm.v
theories/ProofDirichlet.v
theories/ProofDivergence.v
theories/ProofDivergence2.v
theories/ProofDivide.v
theories/ProofEdgeNodes.v
theories/ProofEdgeNodes2.v
theories/ProofEdgeNodes3.v
theories/ProofEdgeNodes4.v
theories/ProofEig.v
theories/ProofEigDet.v
theories/ProofEquispaced.v
theories/ProofEuclid.v
theories/ProofExchange.v
theories/ProofFaces.v
theories/ProofFaces2.v
theories/ProofFixed.v
theories/ProofFixed2.v
theories/ProofFloat.v
theories/ProofFloat2.v
theories/ProofFloat3.v
theories/ProofFloat4.v
theories/ProofFloat5.v
theories/ProofFloat6.v
theories/ProofGK.v
theories/ProofGK2.v
theories/ProofGM.v
theories/ProofGMComb.v
theories/ProofGamma.v
theories/ProofGauss.v
theories/ProofGauss2.v
theories/ProofGauss3.v
theories/ProofGaussExist.v
theories/ProofGradGood.v
theories/ProofGradGood2.v
theories/ProofInf.v
theories/ProofInf2.v
theories/ProofJacobi.v
theories/ProofJacobi2.v
theories/ProofJacobiOrtho.v
theories/ProofKronrod.v
theories/ProofLaurie.v
theories/ProofLaurie2.v
theories/ProofLaurieQ.v
theories/ProofLebesgue.v
theories/ProofLebesgue1.v
theories/ProofLinAlg.v
theories/ProofLobatto.v
theories/ProofLobatto2.v
theories/ProofMatrices.v
theories/ProofMatrices2.v
theories/ProofMatrices3.v
theories/ProofModalDecay.v
theories/ProofMonomial.v
theories/ProofNodeTuples.v
theories/ProofPKDO.v
theories/ProofPKDOOrtho.v
theories/ProofPoly1.v
theories/ProofQuad.v
theories/ProofQuadSpace.v
theories/ProofQuadgk.v
theories/ProofReshape.v
theories/ProofShapes.v
theories/ProofSpaceNodes.v
theories/ProofSpaces.v
theories/ProofSubmesh.v
theories/ProofSubmesh2.v
theories/ProofSubmesh3.v
theories/ProofSymbolic.v
theories/ProofTPCall.v
theories/ProofTPGrad.v
theories/ProofTPNodes.v
theories/ProofTPOrtho.v
theories/ProofTableSpace.v
theories/ProofTables.v
theories/ProofTables2.v
theories/ProofTables3.v
theories/ProofTables4.v
theories/ProofTables5.v
theories/ProofTables6.v
theories/ProofTrace.v
theories/ProofTransplanted.v
theories/ProofUnisolvent.v
theories/ProofWarpBlend.v
theories/ProofWarpBlend2.v
theories/ProofWarpBlend3.v
theories/PropsBasis.v
theories/PropsClenshaw.v
theories/PropsConstruction.v
theories/PropsConstruction2.v
theories/PropsDeprecated.v
theories/PropsDivergence.v
theories/PropsEdgeNodes.v
theories/PropsEig.v
theories/PropsFaces.v
theories/PropsFloat.v
theories/PropsFloatQuad.v
theories/PropsFloatTP.v
theories/PropsGK.v
theories/PropsGM.v
theories/PropsGauss.v
theories/PropsGradGood.v
theories/PropsIndex.v
theories/PropsInf.v
theories/PropsJacobi.v
theories/PropsKronrod.v
theories/PropsLaurie.v
theories/PropsLebesgue.v
theories/PropsLebesgue2.v
theories/PropsLebesgueOne.v
theories/PropsLobatto.v
theories/PropsMatrices.v
theories/PropsModalDecay.v
theories/PropsNodes.v
theories/PropsPKDO.v
theories/PropsPickle.v
theories/PropsQuad.v
theories/PropsQuadSpace.v
theories/PropsQuadgk.v
theories/PropsSBP.v
theories/PropsShapes.v
theories/PropsSpectral.v
theories/PropsStrip.v
theories/PropsSubmesh.v
theories/PropsSubmesh2.v
theories/PropsSymbolic.v
theories/PropsTableSpace.v
theories/PropsTables.v
theories/PropsTools.v
theories/PropsTransplanted.v
theories/PropsUnisolvent.v
theories/PropsVandermonde.v
theories/PropsWarpBlend.v
theories/Py.v
theories/PyToolsModel.v
theories/RField.v
theories/RSum.v
theories/SpecElliptic.v
theories/SpecFaces.v
theories/SpecGeometry.v
theories/SpecIndex.v
theories/SpecIntegral.v
theories/SpecPartial.v
theories/SpecPoly.v
theories/SpecSpan.v
theories/SpecSubmesh.v
