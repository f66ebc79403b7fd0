-Q theories Verif
theories/Base.v
theories/ModelCounter.v
theories/SpecCounter.v
theories/ProofCounter.v
theories/PropCounter.v
theories/ModelSingleton.v
theories/SpecSingleton.v
theories/ProofSingleton.v
theories/PropSingleton.v
theories/ModelIter.v
theories/ProofIter.v
theories/PropIter.v
theories/ModelGraph.v
theories/SpecGraph.v
theories/GlueGraph.v
theories/ProofGraph.v
theories/PropGraph.v
theories/ModelVector.v
theories/SpecVector.v
theories/ProofVector.v
theories/PropVector.v
theories/ModelRoot.v
theories/ProofRoot.v
theories/PropRoot.v
theories/ModelTransformation.v
theories/SpecTransformation.v
theories/ProofTransformation.v
theories/PropTransformation.v
theories/ModelLine.v
theories/SpecLine.v
theories/ProofLine.v
theories/ProofSegment.v
theories/PropLine.v
theories/ModelBezier.v
theories/SpecBezier.v
theories/ProofBezier.v
theories/PropBezier.v
theories/ModelSpline.v
theories/SpecSpline.v
theories/ProofSpline.v
theories/PropSpline.v
theories/ModelPolygon.v
theories/SpecPolygon.v
theories/ProofPolygon.v
theories/ProofPolygon2.v
theories/ProofHull.v
theories/ProofPolygon3.v
theories/PropPolygon.v
theories/ModelConic.v
theories/SpecConic.v
theories/ProofConic.v
theories/GlueConic.v
theories/ProofConic2.v
theories/ProofConic3.v
theories/ProofEllipse.v
theories/ProofArc.v
theories/PropConic.v
theories/ModelPath.v
theories/SpecPath.v
theories/GluePath.v
theories/ProofPath.v
theories/ProofPath2.v
theories/ProofPath3.v
theories/ProofPath4.v
theories/ProofPath5.v
theories/ProofPath6.v
theories/ProofPath7.v
theories/ProofPath8.v
theories/PropPath.v
theories/ModelSketch.v
theories/SpecSketch.v
theories/GlueSketch.v
theories/ProofSketch.v
theories/ProofSketch2.v
theories/ProofSketch3.v
theories/ProofSketch4.v
theories/ProofSketch5.v
theories/ProofSketch6.v
theories/ProofSketch7.v
theories/ProofSketch8.v
theories/ProofSketch9.v
theories/PropSketch.v
theories/ModelFormula.v
theories/SpecFormula.v
theories/ProofFormula.v
theories/ProofFormula2.v
theories/ProofFormula3.v
theories/PropFormula.v
theories/ModelScope.v
theories/SpecScope.v
theories/ProofScope.v
theories/PropScope.v
theories/ModelMeasure.v
theories/SpecMeasure.v
theories/ProofMeasure.v
theories/ProofMeasure2.v
theories/PropMeasure.v
theories/ModelXml.v
theories/SpecXml.v
theories/ProofXml.v
theories/ProofXml2.v
theories/PropXml.v
theories/ModelSvgPath.v
theories/SpecSvgPath.v
theories/ProofSvgPath.v
theories/ProofSvgPath2.v
theories/ProofSvgPath3.v
theories/GlueSvgPath.v
theories/PropSvgPath.v
theories/ModelSvgTransform.v
theories/SpecSvgTransform.v
theories/ProofSvgTransform.v
theories/ModelSvgState.v
theories/SpecSvgState.v
theories/ProofSvgState.v
theories/PropSvgTransform.v
theories/PropSvgState.v
theories/ModelColor.v
theories/SpecColor.v
theories/ProofColor.v
theories/ModelColorData.v
theories/ProofColor2.v
theories/PropColor.v
theories/ModelUnits.v
theories/SpecUnits.v
theories/ProofUnits.v
theories/PropUnits.v
theories/ModelStyle.v
theories/SpecStyle.v
theories/ProofStyle.v
theories/PropStyle.v
theories/ModelTex.v
theories/SpecTex.v
theories/ProofTex.v
theories/PropTex.v
theories/ModelScene.v
theories/SpecScene.v
theories/ProofScene.v
theories/ProofScene2.v
theories/ProofScene3.v
theories/ProofScene4.v
theories/PropScene.v
theories/ModelDxf.v
theories/SpecDxf.v
theories/GlueDxf.v
theories/ProofDxf.v
theories/ProofDxf2.v
theories/ProofDxf3.v
theories/PropDxf.v
theories/ModelValentina.v
theories/SpecValentina.v
theories/ProofValentina.v
theories/ProofValentina2.v
theories/ProofValentina3.v
theories/ProofValentina4.v
theories/ProofValentina5.v
theories/ProofValentina6.v
theories/PropValentina.v
theories/ProofXml3.v
theories/ModelPrimitive.v
theories/SpecPrimitive.v
theories/ProofPrimitive.v
theories/ProofPrimitive2.v
theories/PropPrimitive.v
theories/ModelViewport.v
theories/SpecViewport.v
theories/ProofViewport.v
theories/ProofViewport2.v
theories/PropViewport.v
theories/ModelPainter.v
theories/SpecPainter.v
theories/ProofPainter.v
theories/ProofPainter2.v
theories/ProofPainter3.v
theories/PropPainter.v
theories/ModelSvgFile.v
theories/SpecSvgFile.v
theories/ProofSvgFile.v
theories/ProofSvgFile2.v
theories/ProofSvgFile3.v
theories/ProofSvgFile4.v
theories/PropSvgFile.v
theories/ModelDrawing.v
theories/SpecDrawing.v
theories/ProofDrawing.v
theories/ProofDrawing2.v
theories/ProofDrawing3.v
theories/ProofDrawing4.v
theories/ProofDrawing5.v
theories/PropDrawing.v
theories/ModelDetail.v
theories/SpecDetail.v
theories/ProofDetail.v
theories/ProofDetail2.v
theories/PropDetail.v
theories/ModelPython.v
theories/SpecPython.v
theories/ProofPython.v
theories/PropPython.v
theories/ModelArrow.v
theories/SpecArrow.v
theories/ProofArrow.v
theories/PropArrow.v
theories/ModelImport.v
theories/SpecImport.v
theories/GlueImport.v
theories/ProofImport.v
theories/PropImport.v
theories/ProofTwin.v
theories/ModelValFile.v
theories/ProofValentina7.v
theories/SpecValFile.v
theories/ProofValFile.v
theories/ProofValFile2.v
theories/PropValFile.v
theories/ModelDate.v
theories/ModelVit.v
theories/SpecDate.v
theories/ProofDate.v
theories/ProofDate2.v
theories/ProofDate3.v
theories/PropDate.v
theories/SpecVit.v
theories/ProofVit.v
theories/ProofVit2.v
theories/PropVit.v
theories/ProofHull2.v
theories/ProofSimplify.v
theories/ModelTriangle.v
theories/SpecTriangle.v
theories/ProofTriangle.v
theories/PropTriangle.v
theories/ProofSplineImage.v
theories/PropSplineImage.v
theories/ModelYaml.v
theories/ModelYamlData.v
theories/SpecYaml.v
theories/ProofYaml.v
theories/ProofYaml2.v
theories/PropYaml.v
theories/ProofDrawing6.v
theories/ModelPathBox.v
theories/SpecPathBox.v
theories/ProofPathBox.v
theories/ProofPathBox2.v
theories/ProofPathBox3.v
theories/PropPathBox.v
theories/ModelHomogeneous.v
theories/SpecHomogeneous.v
theories/PropHomogeneous.v
theories/ModelFiles.v
theories/SpecFiles.v
theories/ProofFiles.v
theories/ProofFiles2.v
theories/PropFiles.v
theories/ModelPlatform.v
theories/SpecPlatform.v
theories/ProofPlatform.v
theories/PropPlatform.v
theories/PropConic2.v
theories/ProofMore.v
theories/PropMore.v
theories/ModelPlan.v
theories/PropPlan.v
theories/ModelShimData.v
theories/ModelShim.v
theories/ProofShim.v
theories/PropShim.v
theories/SpecRelease.v
theories/ModelRelease.v
theories/ProofRelease.v
theories/PropRelease.v
theories/ModelApp.v
theories/PropApp.v
theories/PropMore2.v
theories/PropMore3.v
theories/Replay.v
theories/ReplayFiles.v
theories/PropRecenter.v
theories/PropLine2.v
theories/PropMore4.v
theories/ModelDouble.v
theories/ProofDouble.v
theories/PropDouble.v
theories/PropMore5.v
theories/ProofGrid.v
theories/PropGrid.v
theories/ModelDecide.v
theories/PropDecide.v
theories/ProofAccuracy.v
theories/PropAccuracy.v
theories/ModelDoublePolygon.v
theories/PropDoublePolygon.v
theories/ModelDoublePaper.v
theories/ProofDoublePaper.v
theories/PropDoublePaper.v
theories/ModelDoubleCurve.v
theories/ProofCurveAccuracy.v
theories/PropCurveAccuracy.v
theories/ModelDoubleArea.v
theories/ProofArea.v
theories/PropArea.v
theories/ModelDoubleRotation.v
theories/ProofRotation.v
theories/PropRotation.v
theories/ModelDoubleDirection.v
theories/ProofDirection.v
theories/PropDirection.v
theories/ModelDoubleIntersection.v
theories/ProofIntersection.v
theories/PropIntersection.v
theories/ProofIntersectionAny.v
theories/PropIntersectionAny.v
theories/ModelDoubleDistance.v
theories/PropDistance.v
theories/PropTurns.v
theories/ModelDoublePath.v
theories/PropDrift.v
theories/PropDriftGrid.v
theories/ModelDoubleCompose.v
theories/PropCompose.v
theories/PropComposeGrid.v
