-Q theories Verif
theories/Base.v
theories/Scalar.v
theories/Vec.v
theories/Mat2.v
theories/Mat3.v
theories/Mat4.v
theories/Mat5.v
theories/Mat6.v
theories/Slices.v
theories/MatLoops.v
theories/MatOps.v
theories/Quat.v
theories/Transf.v
theories/DualQuat.v
theories/Programs.v
theories/RingDet.v
theories/Spec.v
theories/InstZ.v
theories/Entries.v
theories/DetEntries.v
theories/ProofsRing.v
theories/LoopFacts.v
theories/ProofsLoops.v
theories/InstR.v
theories/ProofsSlices.v
theories/RFacts.v
theories/InvFacts.v
theories/ProofsInverse.v
theories/LUFacts.v
theories/ProofsLU.v
theories/QRFacts.v
theories/ProofsQR.v
theories/ProofsNorm.v
theories/ProofsQuat.v
theories/ProofsRigid.v
theories/TrigFacts.v
theories/ProofsRot.v
theories/ProofsQuatR.v
theories/ProofsQuatFlag.v
theories/ProofsQuatExp.v
theories/ProofsEuler.v
theories/ProofsSlerp.v
theories/ProofsDual.v
theories/ExpSeries.v
theories/ProofsExp.v
theories/InstF.v
theories/FloatFacts.v
theories/RelFacts.v
theories/ProofsFloat.v
theories/ProofsBasic.v
theories/ProofsScrew.v
theories/ProofsPanic.v
theories/ProofsFloat2.v
theories/ProofsFloatErr.v
theories/ProofsFloatNorm.v
theories/ProofsFloatInv.v
theories/ProofsPrograms.v
theories/ProofsPrograms2.v
theories/ProofsFloatSolve.v
theories/ProofsFloatLU.v
theories/Display.v
theories/Ctor.v
theories/ProofsDisplay.v
theories/InstE.v
theories/ProofsDefined.v
theories/ProofsDefined2.v
theories/ProofsDefined3.v
theories/LiftFacts.v
theories/ProofsDefined4.v
theories/ProofsFlags.v
theories/InstI.v
theories/ProofsInt.v
theories/ProofsCtor.v
theories/QSeries.v
theories/ProofsQuatSeries.v
theories/Replay.v
theories/Replay_dual_quaternion.v
theories/Replay_examples.v
theories/Replay_matrix2x2.v
theories/Replay_matrix3x3.v
theories/Replay_matrix4x4.v
theories/Replay_matrix5x5.v
theories/Replay_matrix6x6.v
theories/Replay_quaternion.v
theories/Replay_slices_methods.v
theories/Replay_transformations.v
theories/Replay_utils.v
theories/Replay_vector2.v
theories/Replay_vector3.v
theories/Replay_vector4.v
theories/Replay_vector5.v
theories/Replay_vector6.v
theories/PropsBasic.v
theories/PropsCtor.v
theories/PropsDefined.v
theories/PropsDefined2.v
theories/PropsDefined3.v
theories/PropsDefined4.v
theories/PropsDisplay.v
theories/PropsDual.v
theories/PropsEuler.v
theories/PropsExp.v
theories/PropsFlags.v
theories/PropsFloat.v
theories/PropsFloat2.v
theories/PropsFloatErr.v
theories/PropsFloatNorm.v
theories/PropsFloatInv.v
theories/PropsFloatSolve.v
theories/PropsFloatLU.v
theories/PropsPrograms.v
theories/PropsPrograms2.v
theories/PropsInt.v
theories/PropsInverse.v
theories/PropsLU.v
theories/PropsLoops.v
theories/PropsNorm.v
theories/PropsPanic.v
theories/PropsQR.v
theories/PropsQuat.v
theories/PropsQuatExp.v
theories/PropsQuatFlag.v
theories/PropsQuatR.v
theories/PropsQuatSeries.v
theories/PropsRigid.v
theories/PropsRing.v
theories/PropsRot.v
theories/PropsScrew.v
theories/PropsSlerp.v
theories/PropsSlices.v
theories/Cases.v
theories/CasesB.v
theories/ProofsFloatRot.v
theories/PropsFloatRot.v
theories/ProofsFloatRotH.v
theories/PropsFloatRotH.v
theories/ProofsFloatQR.v
theories/PropsFloatQR.v
theories/ProofsFloatDrift.v
theories/PropsFloatDrift.v
theories/ProofsFloatRigid.v
theories/PropsFloatRigid.v
theories/ProofsFloatEig.v
theories/PropsFloatEig.v
theories/ProofsFloatDQ.v
theories/PropsFloatDQ.v
theories/ProofsFloatFromRot.v
theories/PropsFloatFromRot.v
theories/ProofsFloatAngles.v
theories/PropsFloatAngles.v
theories/ProofsFloatChain.v
theories/PropsFloatChain.v
theories/ProofsFloatEuler.v
theories/PropsFloatEuler.v
theories/ProofsFloatLog.v
theories/PropsFloatLog.v
theories/ProofsFloatScrew.v
theories/PropsFloatScrew.v
theories/ProofsFloatSlerp.v
theories/PropsFloatSlerp.v
theories/ProofsFloatAxis.v
theories/PropsFloatAxis.v
theories/ProofsFloatExp.v
theories/PropsFloatExp.v
theories/ProofsFloatTwist.v
theories/PropsFloatTwist.v
theories/ProofsFloatLog6.v
theories/PropsFloatLog6.v
theories/ProofsFloatAdj.v
theories/PropsFloatAdj.v
theories/ProofsFloatKin.v
theories/PropsFloatKin.v
