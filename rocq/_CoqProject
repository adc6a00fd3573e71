-Q theories Verif
theories/Base/Bignum.v
theories/Base/CurveCerts.v
theories/Base/Curves.v
theories/Base/EC.v
theories/Base/Euler.v
theories/Base/Fermat.v
theories/Base/Fld.v
theories/Base/Fp.v
theories/Base/Fq2.v
theories/Base/Group.v
theories/Base/Order.v
theories/Base/Pocklington.v
theories/Base/Poly.v
theories/Base/Primes.v
theories/Base/Sqrt.v
theories/Base/ZChain.v
theories/Model/AdminRun.v
theories/Model/Cache.v
theories/Model/Circ.v
theories/Model/Client.v
theories/Model/Demo.v
theories/Model/Dkg.v
theories/Model/DkgCircuit.v
theories/Model/Evm.v
theories/Model/Files.v
theories/Model/FixedBase.v
theories/Model/GppSol.v
theories/Model/GrumpkinChip.v
theories/Model/Halo2VerifierOldSol.v
theories/Model/Halo2VerifierSol.v
theories/Model/HashEvm.v
theories/Model/HashGrumpkin.v
theories/Model/HashSol.v
theories/Model/IntegerChip.v
theories/Model/Lib.v
theories/Model/Lottery.v
theories/Model/LotteryDemo.v
theories/Model/MainGate.v
theories/Model/ModExp.v
theories/Model/Monad.v
theories/Model/PairingSol.v
theories/Model/Points.v
theories/Model/Poseidon.v
theories/Model/PoseidonConsts.v
theories/Model/PseudoRandSol.v
theories/Model/RealEnv.v
theories/Model/Serialise.v
theories/Model/ServiceRun.v
theories/Model/Services.v
theories/Model/Startup.v
theories/Model/Strings.v
theories/Model/VerifierCall.v
theories/Model/VerifierOldCall.v
theories/Model/Yul.v
theories/Model/Zkdvrf.v
theories/Proofs/AdminDrift.v
theories/Proofs/AdminInv.v
theories/Proofs/AdminRunProofs.v
theories/Proofs/BytesProofs.v
theories/Proofs/CacheProofs.v
theories/Proofs/CircProofs.v
theories/Proofs/CircuitClient.v
theories/Proofs/CircuitParts.v
theories/Proofs/CircuitPoints.v
theories/Proofs/ClientProofs.v
theories/Proofs/ConstraintSound.v
theories/Proofs/DecimalProofs.v
theories/Proofs/DemoFiles.v
theories/Proofs/DemoScripts.v
theories/Proofs/DemoSetup.v
theories/Proofs/DkgCircuitProofs.v
theories/Proofs/DkgComplete.v
theories/Proofs/DkgDecode.v
theories/Proofs/DkgExact.v
theories/Proofs/DkgProofs.v
theories/Proofs/DkgSat.v
theories/Proofs/DvrfProofs.v
theories/Proofs/EvmStep.v
theories/Proofs/Exceptional.v
theories/Proofs/FTMap.v
theories/Proofs/FewProofs.v
theories/Proofs/FixedBaseProofs.v
theories/Proofs/Forward.v
theories/Proofs/GateRows.v
theories/Proofs/GppProofs.v
theories/Proofs/GrainProofs.v
theories/Proofs/GrandComplete.v
theories/Proofs/GrandProduct.v
theories/Proofs/GrumpkinProofs.v
theories/Proofs/HashCircuit.v
theories/Proofs/HashProofs.v
theories/Proofs/HashRegion.v
theories/Proofs/HashSolProofs.v
theories/Proofs/InstanceProofs.v
theories/Proofs/IntegerProofs.v
theories/Proofs/JsonExists.v
theories/Proofs/Kzg.v
theories/Proofs/LotteryDemoProofs.v
theories/Proofs/LotteryProofs.v
theories/Proofs/Malicious.v
theories/Proofs/ModExpProofs.v
theories/Proofs/OnchainProofs.v
theories/Proofs/OpenComplete.v
theories/Proofs/OpenSound.v
theories/Proofs/PairingExists.v
theories/Proofs/PipelineProofs.v
theories/Proofs/PipelineRuns.v
theories/Proofs/PlonkCompleteFr.v
theories/Proofs/PlonkCompleteK.v
theories/Proofs/PlonkExample.v
theories/Proofs/PlonkSoundFr.v
theories/Proofs/PlonkSoundK.v
theories/Proofs/PoseidonProofs.v
theories/Proofs/ProveProofs.v
theories/Proofs/Rare.v
theories/Proofs/RowComplete.v
theories/Proofs/RowLagrange.v
theories/Proofs/RowSound.v
theories/Proofs/RunFrame.v
theories/Proofs/RunProofs.v
theories/Proofs/SatExt.v
theories/Proofs/SerialProofs.v
theories/Proofs/ServiceHex.v
theories/Proofs/ServiceProofs.v
theories/Proofs/Setup.v
theories/Proofs/ShuffleProofs.v
theories/Proofs/Stable.v
theories/Proofs/SvdwProofs.v
theories/Proofs/VerifierAlgebra.v
theories/Proofs/VerifierBatch.v
theories/Proofs/VerifierCallProofs.v
theories/Proofs/VerifierCosets.v
theories/Proofs/VerifierFront.v
theories/Proofs/VerifierGates.v
theories/Proofs/VerifierHead.v
theories/Proofs/VerifierInput.v
theories/Proofs/VerifierKey.v
theories/Proofs/VerifierKeyCert.v
theories/Proofs/VerifierLagAlg.v
theories/Proofs/VerifierLagRun.v
theories/Proofs/VerifierLagrange.v
theories/Proofs/VerifierMain.v
theories/Proofs/VerifierOldKey.v
theories/Proofs/VerifierOldKeyCert.v
theories/Proofs/VerifierOldMain.v
theories/Proofs/VerifierOldRun.v
theories/Proofs/VerifierOldSym.v
theories/Proofs/VerifierOpen.v
theories/Proofs/VerifierPoints.v
theories/Proofs/VerifierRun.v
theories/Proofs/VerifierSetup.v
theories/Proofs/VerifierSpec.v
theories/Proofs/VerifierTail.v
theories/Proofs/VerifierTools.v
theories/Proofs/VerifierTop.v
theories/Proofs/VerifyProofs.v
theories/Proofs/YulCon.v
theories/Proofs/YulFuel.v
theories/Proofs/YulMore.v
theories/Proofs/YulSim.v
theories/Proofs/YulSym.v
theories/Proofs/ZkdvrfInv1.v
theories/Proofs/ZkdvrfInv2.v
theories/Proofs/ZkdvrfInv3.v
theories/Proofs/ZkdvrfRefine.v
theories/Proofs/ZkdvrfStep.v
theories/Proofs/ZkdvrfThms.v
theories/Props/P_Admin.v
theories/Props/P_AdminRun.v
theories/Props/P_Cache.v
theories/Props/P_Chips.v
theories/Props/P_Circuit.v
theories/Props/P_Client.v
theories/Props/P_Contract.v
theories/Props/P_ContractDemo.v
theories/Props/P_Curves.v
theories/Props/P_Demo.v
theories/Props/P_Dvrf.v
theories/Props/P_EndToEnd.v
theories/Props/P_FixedBase.v
theories/Props/P_Gates.v
theories/Props/P_Live.v
theories/Props/P_Lottery.v
theories/Props/P_LotteryDemo.v
theories/Props/P_Malicious.v
theories/Props/P_Members.v
theories/Props/P_NodeDealing.v
theories/Props/P_NodeEval.v
theories/Props/P_NodeFirst.v
theories/Props/P_Onchain.v
theories/Props/P_Plonk.v
theories/Props/P_Poison.v
theories/Props/P_Poseidon.v
theories/Props/P_Prove.v
theories/Props/P_Refine.v
theories/Props/P_Run.v
theories/Props/P_Serial.v
theories/Props/P_Services.v
theories/Props/P_Startup.v
theories/Props/P_Svdw.v
theories/Props/P_Verifier.v
theories/Props/P_VerifierOld.v
theories/Spec/Accepts.v
theories/Spec/CacheSpec.v
theories/Spec/CircuitSpec.v
theories/Spec/ClientSpec.v
theories/Spec/DemoSpec.v
theories/Spec/Dvrf.v
theories/Spec/Few.v
theories/Spec/Grain.v
theories/Spec/Histories.v
theories/Spec/LotteryDemoSpec.v
theories/Spec/LotterySpec.v
theories/Spec/Onchain.v
theories/Spec/Plonk.v
theories/Spec/PlonkCall.v
theories/Spec/PlonkCircuit.v
theories/Spec/PlonkRegions.v
theories/Spec/PlonkSound.v
theories/Spec/PlonkVerifier.v
theories/Spec/Refinement.v
theories/Spec/Serial.v
theories/Spec/ServiceSpec.v
theories/Spec/Svdw.v
