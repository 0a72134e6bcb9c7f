-Q theories Verif
theories/Scalar.v
theories/Types.v
theories/Vector2.v
theories/Vector3.v
theories/Point2.v
theories/Point3.v
theories/Ray.v
theories/BoundingBox2.v
theories/BoundingBox3.v
theories/Transform2.v
theories/Transform3.v
theories/Float.v
theories/XReal.v
theories/OrdLaws.v
theories/Arith.v
theories/SpecOrder.v
theories/OrderProofs.v
theories/OrderBox.v
theories/SpecStruct.v
theories/Struct.v
theories/Comm.v
theories/EqProofs.v
theories/ExVals.v
theories/PropsOrder.v
theories/MatComm.v
theories/Struct2.v
theories/PropsStruct.v
theories/SpecReal.v
theories/XTac.v
theories/ExactBase.v
theories/ExactVec.v
theories/PropsVector.v
theories/Adj4.v
theories/ExactMat.v
theories/PropsMatrix.v
theories/ExactRot.v
theories/PropsRot.v
theories/SpecTrans.v
theories/ExactTrans.v
theories/PropsTransform.v
theories/SpecBox.v
theories/ExactBox.v
theories/PropsBox.v
theories/ExactTransBox.v
theories/PropsTransBox.v
theories/SpecFloat.v
theories/FloatX.v
theories/XArith.v
theories/FloatLaws.v
theories/FloatGeom.v
theories/PropsFloat.v
theories/FloatTrans.v
theories/PropsFloatTrans.v
theories/FloatInt.v
theories/PropsFloatInt.v
theories/SpecErr.v
theories/ErrBase.v
theories/FloatErr.v
theories/PropsFloatErr.v
theories/FloatInv.v
theories/PropsFloatInv.v
theories/SlabBase.v
theories/FloatRay.v
theories/PropsFloatRay.v
theories/SpecHist.v
theories/BoxHist.v
theories/PropsBoxHist.v
theories/Api.v
theories/Search.v
theories/PropsSearch.v
theories/SpecAxis.v
theories/ExactTransRay.v
theories/PropsTransRay.v
theories/FloatMono.v
theories/PropsFloatMono.v
theories/FloatBoxTrans.v
theories/PropsFloatBoxTrans.v
theories/SpecRay.v
theories/FloatRayErr.v
theories/PropsFloatRayErr.v
theories/BoxApi.v
theories/PropsBoxApi.v
theories/SpecGrid.v
theories/FloatGrid.v
theories/PropsFloatGrid.v
theories/SpecSame.v
theories/FloatSign.v
theories/PropsFloatSign.v
theories/FloatSym.v
theories/PropsFloatSym.v
theories/SpecScale.v
theories/FloatScale.v
theories/PropsFloatScale.v
theories/FloatTri.v
theories/PropsFloatTri.v
theories/SpecRot.v
theories/FloatRot.v
theories/PropsFloatRot.v
theories/SpecInv.v
theories/FloatInvAcc.v
theories/PropsFloatInvAcc.v
theories/LookReal.v
theories/SpecLook.v
theories/LookFrame.v
theories/FloatBig.v
theories/LookCam.v
theories/FloatLook.v
theories/PropsFloatLook.v
theories/SpecChain.v
theories/ChainReal.v
theories/FloatChain.v
theories/PropsFloatChain.v
theories/SpecUndo.v
theories/FloatUndo.v
theories/PropsFloatUndo.v
theories/FloatRayTrans.v
theories/PropsFloatRayTrans.v
theories/SpecAlg.v
theories/FloatAlg.v
theories/PropsFloatAlg.v
theories/FloatMeas.v
theories/PropsFloatMeas.v
theories/FloatHit.v
theories/PropsFloatHit.v
theories/FloatAxis.v
theories/PropsFloatAxis.v
theories/SpecPerm.v
theories/FloatPerm.v
theories/PropsFloatPerm.v
theories/SpecRange.v
theories/FloatRange.v
theories/PropsFloatRange.v
theories/SpecNan.v
theories/FloatNan.v
theories/PropsFloatNan.v
theories/SpecIndex.v
theories/PropsIndex.v
theories/SpecCam.v
theories/FloatCam.v
theories/PropsFloatCam.v
theories/SpecClip.v
theories/FloatClip.v
theories/PropsFloatClip.v
theories/SpecBvh.v
theories/FloatBvh.v
theories/PropsFloatBvh.v
theories/SpecSim.v
theories/ExactSim.v
theories/PropsExactSim.v
theories/ExactRayLine.v
theories/PropsExactRayLine.v
theories/SpecPar.v
theories/FloatPar.v
theories/PropsFloatPar.v
theories/SpecDiff.v
theories/FloatDiff.v
theories/PropsFloatDiff.v
theories/SpecNear.v
theories/FloatNear.v
theories/PropsFloatNear.v
theories/FloatCmp.v
theories/PropsFloatCmp.v
theories/FloatCross.v
theories/PropsFloatCross.v
theories/SpecRing.v
theories/GenRing.v
theories/PropsGenRing.v
theories/FloatDir.v
theories/PropsFloatDir.v
theories/SpecKd.v
theories/FloatKd.v
theories/PropsFloatKd.v
theories/SpecHull.v
theories/FloatHull.v
theories/PropsFloatHull.v
theories/SpecOct.v
theories/FloatOct.v
theories/PropsFloatOct.v
theories/SpecBall.v
theories/FloatBall.v
theories/PropsFloatBall.v
theories/SpecSnap.v
theories/FloatSnap.v
theories/PropsFloatSnap.v
theories/SpecSweep.v
theories/FloatSweep.v
theories/PropsFloatSweep.v
theories/SpecCull.v
theories/FloatCull.v
theories/PropsFloatCull.v
theories/SpecPrune.v
theories/FloatPrune.v
theories/PropsFloatPrune.v
theories/SpecHash.v
theories/FloatKey.v
theories/FloatHash.v
theories/PropsFloatHash.v
theories/SpecRtree.v
theories/FloatRtree.v
theories/PropsFloatRtree.v
theories/ExactProj.v
theories/PropsExactProj.v
theories/SpecBtree.v
theories/FloatBtree.v
theories/PropsFloatBtree.v
theories/SpecScene.v
theories/ExactScene.v
theories/PropsExactScene.v
theories/ExactCircum.v
theories/PropsExactCircum.v
theories/ExactMarch.v
theories/PropsExactMarch.v
theories/SpecReflect.v
theories/ExactReflect.v
theories/PropsExactReflect.v
theories/SpecTri.v
theories/ExactTri.v
theories/PropsExactTri.v
theories/SpecSphere.v
theories/ExactSphere.v
theories/PropsExactSphere.v
theories/SpecPivot.v
theories/ExactPivot.v
theories/PropsExactPivot.v
