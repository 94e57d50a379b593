-Q theories Verif
theories/Model/Ad2cp.v
theories/Model/Ad2cpIndex.v
theories/Model/Angles.v
theories/Model/BeamStress.v
theories/Model/BinSpec.v
theories/Model/CheckDs.v
theories/Model/CleanAdp.v
theories/Model/CleanAdv.v
theories/Model/Covariance.v
theories/Model/CreateDataset.v
theories/Model/DateText.v
theories/Model/Despike.v
theories/Model/Dissipation.v
theories/Model/DoAvg.v
theories/Model/Euler.v
theories/Model/FileNames.v
theories/Model/FloatTime.v
theories/Model/Gaps.v
theories/Model/Group.v
theories/Model/HandleNan.v
theories/Model/Linalg.v
theories/Model/MatFile.v
theories/Model/MedFilt.v
theories/Model/Microstrain.v
theories/Model/Motion.v
theories/Model/Nortek.v
theories/Model/NortekAttrs.v
theories/Model/NortekData.v
theories/Model/NortekEarth.v
theories/Model/NortekFile.v
theories/Model/NortekGuess.v
theories/Model/NortekHead.v
theories/Model/Principal.v
theories/Model/Psd.v
theories/Model/RdiBlocks.v
theories/Model/RdiFile.v
theories/Model/RdiPost.v
theories/Model/ReadAwac.v
theories/Model/ReadRdi.v
theories/Model/ReadSig.v
theories/Model/ReadVector.v
theories/Model/Reduce.v
theories/Model/Reshape.v
theories/Model/Rotate.v
theories/Model/SaveLoad.v
theories/Model/SigData.v
theories/Model/SigEarth.v
theories/Model/SigHead.v
theories/Model/SigRange.v
theories/Model/SigStatus.v
theories/Model/Slice1d.v
theories/Model/Stats.v
theories/Model/Time.v
theories/Model/Vel.v
theories/Proofs/Ad2cp.v
theories/Proofs/Ad2cpIndex.v
theories/Proofs/Angles.v
theories/Proofs/BeamStress.v
theories/Proofs/BinSpec.v
theories/Proofs/Binary64.v
theories/Proofs/Calendar.v
theories/Proofs/CheckDs.v
theories/Proofs/CleanAdp.v
theories/Proofs/CleanAdv.v
theories/Proofs/Coherence.v
theories/Proofs/Covariance.v
theories/Proofs/CreateDataset.v
theories/Proofs/DateText.v
theories/Proofs/Declination.v
theories/Proofs/Despike.v
theories/Proofs/Dissipation.v
theories/Proofs/DoAvg.v
theories/Proofs/EnsembleMean.v
theories/Proofs/Euler.v
theories/Proofs/FileNames.v
theories/Proofs/FloatTime.v
theories/Proofs/Gaps.v
theories/Proofs/Group.v
theories/Proofs/HandleNan.v
theories/Proofs/Inst2head.v
theories/Proofs/Linalg.v
theories/Proofs/MatFile.v
theories/Proofs/MatTimes.v
theories/Proofs/MedFilt.v
theories/Proofs/Microstrain.v
theories/Proofs/Motion.v
theories/Proofs/MotionMore.v
theories/Proofs/Nortek.v
theories/Proofs/NortekAttrs.v
theories/Proofs/NortekData.v
theories/Proofs/NortekEarth.v
theories/Proofs/NortekFile.v
theories/Proofs/NortekGuess.v
theories/Proofs/NortekHead.v
theories/Proofs/Parseval.v
theories/Proofs/Phase.v
theories/Proofs/Principal.v
theories/Proofs/Psd.v
theories/Proofs/PsdProps.v
theories/Proofs/RdiBlocks.v
theories/Proofs/RdiCount.v
theories/Proofs/RdiEns.v
theories/Proofs/RdiFile.v
theories/Proofs/RdiGps.v
theories/Proofs/RdiPlaces.v
theories/Proofs/RdiPost.v
theories/Proofs/RdiTop.v
theories/Proofs/RdiValues.v
theories/Proofs/ReadAwac.v
theories/Proofs/ReadSig.v
theories/Proofs/ReadVector.v
theories/Proofs/ReadVectorBursts.v
theories/Proofs/ReadVectorMore.v
theories/Proofs/Reduce.v
theories/Proofs/Reshape.v
theories/Proofs/Rotate.v
theories/Proofs/RotateProps.v
theories/Proofs/RotateValues.v
theories/Proofs/SaveLoad.v
theories/Proofs/SigData.v
theories/Proofs/SigEarth.v
theories/Proofs/SigHead.v
theories/Proofs/SigRange.v
theories/Proofs/SigRotate.v
theories/Proofs/SigStatus.v
theories/Proofs/Slice1d.v
theories/Proofs/SpectraWitness.v
theories/Proofs/Stats.v
theories/Proofs/Structure.v
theories/Proofs/Time.v
theories/Proofs/ToEarth.v
theories/Proofs/Trdi.v
theories/Proofs/VectorEarth.v
theories/Proofs/Vel.v
theories/Props/AdpStress.v
theories/Props/BinSpec.v
theories/Props/BinStats.v
theories/Props/Bins.v
theories/Props/Clean.v
theories/Props/Covariance.v
theories/Props/CreateDataset.v
theories/Props/DateText.v
theories/Props/Despike.v
theories/Props/DoAvg.v
theories/Props/Files.v
theories/Props/FloatTime.v
theories/Props/Gaps.v
theories/Props/MatFile.v
theories/Props/MedFilt.v
theories/Props/Motion.v
theories/Props/Nortek.v
theories/Props/NortekAttrs.v
theories/Props/NortekEarth.v
theories/Props/NortekGuess.v
theories/Props/NortekHead.v
theories/Props/Orient.v
theories/Props/Rdi.v
theories/Props/RdiGps.v
theories/Props/ReadAwac.v
theories/Props/ReadSig.v
theories/Props/ReadVector.v
theories/Props/Readers.v
theories/Props/Rotate.v
theories/Props/SigData.v
theories/Props/SigEarth.v
theories/Props/SigHead.v
theories/Props/SigRange.v
theories/Props/SigStatus.v
theories/Props/Signature.v
theories/Props/Spectra.v
theories/Props/Time.v
theories/Props/Trdi.v
theories/Props/Turbulence.v
theories/Props/VectorEarth.v
theories/Spec/Ad2cp.v
theories/Spec/Ad2cpIndex.v
theories/Spec/BeamStress.v
theories/Spec/BinSpec.v
theories/Spec/CleanAdp.v
theories/Spec/CleanAdv.v
theories/Spec/Covariance.v
theories/Spec/CreateDataset.v
theories/Spec/DateText.v
theories/Spec/Despike.v
theories/Spec/Dissipation.v
theories/Spec/DoAvg.v
theories/Spec/Euler.v
theories/Spec/FileNames.v
theories/Spec/Gaps.v
theories/Spec/Group.v
theories/Spec/HandleNan.v
theories/Spec/Linalg.v
theories/Spec/MatFile.v
theories/Spec/MedFilt.v
theories/Spec/Motion.v
theories/Spec/Nortek.v
theories/Spec/NortekAttrs.v
theories/Spec/NortekData.v
theories/Spec/NortekEarth.v
theories/Spec/NortekGuess.v
theories/Spec/NortekHead.v
theories/Spec/Principal.v
theories/Spec/Psd.v
theories/Spec/Rdi.v
theories/Spec/RdiGps.v
theories/Spec/ReadAwac.v
theories/Spec/ReadSig.v
theories/Spec/ReadVector.v
theories/Spec/Reshape.v
theories/Spec/Rotate.v
theories/Spec/SaveLoad.v
theories/Spec/SigData.v
theories/Spec/SigEarth.v
theories/Spec/SigHead.v
theories/Spec/SigRange.v
theories/Spec/SigStatus.v
theories/Spec/Slice1d.v
theories/Spec/Stats.v
theories/Spec/Time.v
theories/Spec/Trdi.v
theories/Spec/VectorEarth.v
theories/Spec/Vel.v
