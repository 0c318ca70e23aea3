-Q theories Verif
theories/Py.v
theories/ModState.v
theories/ModConstants.v
theories/ModUnits.v
theories/ModBorders.v
theories/ModRegion1.v
theories/ModRegion2.v
theories/ModRegion3.v
theories/ModRegion4.v
theories/ModRegion5.v
theories/ModSelect.v
theories/ModTransport.v
theories/ModR14.v
theories/ModR4.v
theories/ModXSteam.v
theories/ModXSteamHW.v
theories/ExactReal.v
theories/Float64.v
theories/SpecUnits.v
theories/ProofUnits.v
theories/SpecApi.v
theories/ProofApi.v
theories/ProofCovariance.v
theories/ProofGeneric.v
theories/RealSum.v
theories/ProofEos.v
theories/ProofThermo.v
theories/ProofSat.v
theories/ProofSatApi.v
theories/SpecThermo.v
theories/ProofThermoApi.v
theories/SpecRange.v
theories/ProofFloat.v
theories/ProofRange.v
theories/SpecCov.v
theories/SpecHW.v
theories/ProofHW.v
theories/ProofCov2.v
theories/ProofMisc.v
theories/ProofWet.v
theories/Bound.v
theories/BoundF.v
theories/BoundT.v
theories/BoundC.v
theories/BoundEos.v
theories/BoundSat.v
theories/Bound1.v
theories/Bound2.v
theories/Bound5.v
theories/ProofSigns.v
theories/ProofMono.v
theories/BoundPh.v
theories/SpecWet.v
theories/ProofWetApi.v
theories/ProofWet2.v
theories/ProofWet3.v
theories/ProofReg.v
theories/ProofExamples.v
theories/ProofExamples2.v
theories/PropUnits.v
theories/PropRange.v
theories/PropHW.v
theories/PropThermo.v
theories/PropSat.v
theories/PropRegion.v
theories/PropWet.v
theories/PropWet2.v
theories/PropJoin.v
theories/PropSelect.v
theories/SpecIce.v
theories/ProofIce.v
theories/PropIce.v
theories/SpecTransport.v
theories/ProofTransport.v
theories/ProofConduct.v
theories/ProofBack.v
theories/ProofExamples3.v
theories/SpecLoops.v
theories/ProofSettle.v
theories/ProofBisect.v
theories/ProofLoops.v
theories/ProofConverge.v
theories/ProofGap.v
theories/ProofEnds.v
theories/ProofNoEnd.v
theories/ProofFuel.v
theories/Sat3.v
theories/ProofDense.v
theories/SpecWet2.v
theories/ProofDense2.v
theories/ProofWet4.v
theories/ProofJoin.v
theories/ProofLoopsApi.v
theories/ProofExamples4.v
theories/PropLoops.v
theories/SpecLeaks.v
theories/SatS.v
theories/ProofLeaks.v
theories/ProofHs.v
theories/ProofPrho.v
theories/ProofExamples5.v
theories/PropLeaks.v
theories/PropSlips.v
theories/SpecAgree.v
theories/ProofAgree.v
theories/ProofBackS.v
theories/BoundU.v
theories/BoundS.v
theories/SpecSat.v
theories/ProofPsat.v
theories/BoundR1.v
theories/ProofRound.v
theories/BoundV.v
theories/BoundX.v
theories/BoundA.v
theories/BoundW.v
theories/BoundY.v
theories/ProofTph.v
theories/PropTransport.v
theories/ProofExamples6.v
theories/PropAgree.v
theories/ProofExamples7.v
theories/ProofExamples8.v
theories/PropRound.v
theories/BoundR2.v
theories/ProofRound2.v
theories/ProofExamples9.v
theories/PropRound2.v
theories/BoundR3.v
theories/ProofRound3.v
theories/PropRound3.v
theories/ProofHs2.v
theories/PropHs.v
theories/BoundE.v
theories/BoundE2.v
theories/BoundHs.v
theories/ProofHs3.v
theories/ProofHs4.v
theories/ProofHs5.v
theories/PropHs2.v
theories/BoundR2s.v
theories/ProofRound4.v
theories/PropRound4.v
