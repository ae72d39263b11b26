-Q theories Verif
theories/Params.v
theories/ZMod.v
theories/RingPow.v
theories/ZPow.v
theories/Circuit.v
theories/Api.v
theories/Emulated.v
theories/FastMod.v
theories/FastParams.v
theories/Primes.v
theories/Primes2.v
theories/Tower.v
theories/TowerSpec.v
theories/FieldFacts.v
theories/FastTower.v
theories/TowerFacts.v
theories/ApiFacts.v
theories/Frobenius.v
theories/TowerProofs.v
theories/TorusFacts.v
theories/PrecompTable.v
theories/Pairing.v
theories/CycloFacts.v
theories/CurveSpec.v
theories/MillerProofs.v
theories/FixedQ.v
theories/FixedLoop.v
theories/FinalExp.v
theories/FinalExpProofs.v
theories/Counting.v
theories/FinalExpSpec.v
theories/PairProofs.v
theories/PropertiesPairing.v
theories/PropertiesFinalExp.v
theories/PropertiesTower.v
theories/Sha256.v
theories/Sha256Spec.v
theories/Sha256Words.v
theories/Sha256Proofs.v
theories/Sha256Session.v
theories/PropertiesSha256.v
theories/HashField.v
theories/HashFieldSpec.v
theories/HashFieldProofs.v
theories/PropertiesHashField.v
theories/PoseidonTables.v
theories/Poseidon.v
theories/Fast10.v
theories/PoseidonSpec.v
theories/PoseidonLin.v
theories/PoseidonFast.v
theories/PoseidonCode.v
theories/PoseidonGrain.v
theories/PoseidonProofs.v
theories/PoseidonWidthsA.v
theories/PoseidonWidthsB.v
theories/PoseidonWidthsC.v
theories/PoseidonWidthsD.v
theories/PoseidonHash.v
theories/PoseidonExample.v
theories/PoseidonEval.v
theories/PropertiesPoseidon.v
theories/G2.v
theories/HashG2.v
theories/Bls.v
theories/BlsSpec.v
theories/BlsProofs.v
theories/BlsExamples.v
theories/BlsRefute.v
theories/PropertiesBls.v
theories/CircuitSpec.v
theories/CircuitProofs.v
theories/Helpers.v
theories/HelperProofs.v
theories/PropertiesCircuits.v
theories/EcIdeal.v
theories/EcPoly.v
theories/EcEval.v
theories/G2Spec.v
theories/EcGroup.v
theories/LineFour.v
theories/LfVieta.v
theories/G2Pred.v
theories/G2Jac.v
theories/G2Mul.v
theories/G2Cof.v
theories/G2Psi.v
theories/G2Clear.v
theories/G2Order.v
theories/G2Chain.v
theories/G2Slope.v
theories/TwistPt.v
theories/SubCount.v
theories/TwGroup.v
theories/TwistSmall.v
theories/G2Full.v
theories/HashFull.v
theories/Clear13.v
theories/ConstMulExact.v
theories/Clear13Jac.v
theories/AddExact.v
theories/G2Gen.v
theories/G2Refute.v
theories/PropertiesG2.v
theories/HashSgn.v
theories/HashSqrt.v
theories/HashSpec.v
theories/HashIso.v
theories/HashMap.v
theories/HashFinal.v
theories/G2ClearFacts.v
theories/HashWitPts.v
theories/HashWit.v
theories/HashFast.v
theories/HashCheat.v
theories/HashTop.v
theories/PropertiesHashG2.v
theories/MillerTotal.v
theories/MillerNeg.v
theories/MillerFast.v
theories/FastExp.v
theories/MillerWit.v
theories/MillerLf.v
theories/Kappa.v
theories/PairSpec.v
theories/PairAdd.v
theories/PairAdd2.v
theories/G1Group.v
theories/PairMul.v
theories/SigSpec.v
theories/PairSig.v
theories/G1Order.v
theories/Cyclic.v
theories/G2Cyclic.v
theories/PairNondeg.v
theories/Accept.v
theories/PropertiesAccept.v
theories/SigWit.v
theories/PropertiesBilinear.v
theories/HostSpec.v
theories/HostFlow.v
theories/HostMath.v
theories/HostProofs.v
theories/FlowWitPts.v
theories/FlowWit.v
theories/PropertiesFlow.v
theories/TestCirc.v
theories/TestSpec.v
theories/TestCircProofs.v
theories/TestHost.v
theories/TestWit.v
theories/PropertiesTests.v
theories/Parse.v
theories/ParseSpec.v
theories/ParseProofs.v
theories/ParseText.v
theories/ParseTables.v
theories/ParseWit.v
theories/PropertiesParse.v
theories/SelectSpec.v
theories/SelectProofs.v
theories/PropertiesSelect.v
theories/PropertiesAddExact.v
