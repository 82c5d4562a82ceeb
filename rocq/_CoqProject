-Q theories Verif
theories/Base.v
theories/BaseProofs.v
theories/WireModel.v
theories/WireSpec.v
theories/WireProofs.v
theories/PropertiesWire.v
theories/ScriptModel.v
theories/ScriptSpec.v
theories/ScriptProofs.v
theories/ProgramProofs.v
theories/PropertiesScript.v
theories/NumModel.v
theories/NumSpec.v
theories/NumProofs.v
theories/ShiftProofs.v
theories/PropertiesNum.v
theories/StackModel.v
theories/StackSpec.v
theories/StackProofs.v
theories/MachineModel.v
theories/MachineSpec.v
theories/MachineProofs.v
theories/OpcodeProofs.v
theories/RunProofs.v
theories/ControlProofs.v
theories/FlowProofs.v
theories/SpendProofs.v
theories/MultisigProofs.v
theories/MachineExamples.v
theories/TableProofs.v
theories/PropertiesStack.v
theories/PropertiesMachine.v
theories/SighashModel.v
theories/SighashSpec.v
theories/SighashProofs.v
theories/OriginalProofs.v
theories/SighashExamples.v
theories/PropertiesSighash.v
theories/MerkleModel.v
theories/MerkleSpec.v
theories/MerkleProofs.v
theories/MerkleTreeProofs.v
theories/MerkleValidProofs.v
theories/MerkleServerProofs.v
theories/DualProofs.v
theories/MerkleFacts.v
theories/MerkleExamples.v
theories/PropertiesMerkle.v
theories/BumpModel.v
theories/BumpSpec.v
theories/BumpProofs.v
theories/BumpPathProofs.v
theories/BumpBranchProofs.v
theories/BumpSumProofs.v
theories/BumpFacts.v
theories/BumpExamples.v
theories/PropertiesBump.v
theories/WorkModel.v
theories/WorkSpec.v
theories/WorkProofs.v
theories/WorkTargetProofs.v
theories/WorkBoostProofs.v
theories/WorkSolveProofs.v
theories/WorkExamples.v
theories/PropertiesWork.v
theories/TextModel.v
theories/TextSpec.v
theories/TextProofs.v
theories/TextFormProofs.v
theories/TextExamples.v
theories/PropertiesText.v
theories/HdModel.v
theories/HdSpec.v
theories/HdPathProofs.v
theories/HdKeyProofs.v
theories/HdTextProofs.v
theories/HdTight.v
theories/HdExamples.v
theories/PropertiesHd.v
theories/SecpModel.v
theories/SecpSpec.v
theories/SecpProofs.v
theories/SecpExamples.v
theories/PropertiesSecp.v
theories/ExtModel.v
theories/ExtSpec.v
theories/ExtProofs.v
theories/FeeProofs.v
theories/ExtTight.v
theories/ExtExamples.v
theories/PropertiesExt.v
theories/BeefModel.v
theories/BeefSpec.v
theories/BeefProofs.v
theories/BeefExamples.v
theories/PropertiesBeef.v
theories/SpvModel.v
theories/SpvSpec.v
theories/SpvProofs.v
theories/SpvChain.v
theories/SpvPaths.v
theories/SpvFacts.v
theories/SpvExamples.v
theories/PropertiesSpv.v
theories/AncModel.v
theories/AncSpec.v
theories/AncProofs.v
theories/AncGenerate.v
theories/AncDb.v
theories/AncExamples.v
theories/PropertiesAnc.v
theories/ConvModel.v
theories/ConvSpec.v
theories/ConvProofs.v
theories/ConvWrite.v
theories/ConvExamples.v
theories/PropertiesConv.v
theories/Bip39Words.v
theories/Bip39Model.v
theories/Bip39Spec.v
theories/Bip39Bits.v
theories/Bip39Proofs.v
theories/PropertiesBip39.v
theories/Bip44Model.v
theories/Bip44Spec.v
theories/Bip44Proofs.v
theories/PropertiesBip44.v
theories/PatternModel.v
theories/PatternSpec.v
theories/PatternProofs.v
theories/PatternTemplates.v
theories/PropertiesPattern.v
theories/BoostModel.v
theories/BoostSpec.v
theories/BoostProofs.v
theories/BoostWrite.v
theories/BoostInput.v
theories/BoostTotal.v
theories/BoostWork.v
theories/BoostExamples.v
theories/BoostRefuted.v
theories/PropertiesBoost.v
theories/StraightSpec.v
theories/StraightProofs.v
theories/StraightEval.v
theories/PayRunSpec.v
theories/PayRunProofs.v
theories/PropertiesPayRun.v
theories/BoostRunSpec.v
theories/BoostRunSteps.v
theories/BoostRunProofs.v
theories/BoostRunMain.v
theories/BoostRunRedeem.v
theories/BoostRunExamples.v
theories/PropertiesBoostRun.v
theories/JsonModel.v
theories/EnvelopeModel.v
theories/EnvelopeSpec.v
theories/EnvelopeProofs.v
theories/EnvelopeExamples.v
theories/PropertiesEnvelope.v
theories/StratumModel.v
theories/StratumSpec.v
theories/StratumProofs.v
theories/StratumFields.v
theories/StratumExamples.v
theories/PropertiesStratum.v
theories/StratumConfigModel.v
theories/StratumConfigSpec.v
theories/DictProofs.v
theories/StratumConfigProofs.v
theories/StratumConfigFields.v
theories/PropertiesStratumConfig.v
theories/StratumSessionModel.v
theories/StratumSessionSpec.v
theories/StratumSessionProofs.v
theories/StratumClientProofs.v
theories/PropertiesStratumSession.v
theories/PropertiesStratumClient.v
theories/TscModel.v
theories/TscSpec.v
theories/TscBinaryProofs.v
theories/TscJsonProofs.v
theories/TscProofs.v
theories/TscExamples.v
theories/PropertiesTsc.v
theories/BumpJsonModel.v
theories/BumpJsonSpec.v
theories/BumpJsonProofs.v
theories/PropertiesBumpJson.v
theories/RedeemModel.v
theories/RedeemSpec.v
theories/RedeemProofs.v
theories/RedeemExamples.v
theories/PropertiesRedeem.v
theories/MapiModel.v
theories/MapiSpec.v
theories/MapiProofs.v
theories/MapiWrite.v
theories/MapiMore.v
theories/MapiExamples.v
theories/PropertiesMapi.v
theories/SpvEnvModel.v
theories/SpvEnvSpec.v
theories/SpvEnvProofs.v
theories/SpvEnvBack.v
theories/SpvEnvJson.v
theories/SpvEnvExamples.v
theories/PropertiesSpvEnv.v
theories/ArcModel.v
theories/ArcSpec.v
theories/ArcProofs.v
theories/ArcRequests.v
theories/ArcBodies.v
theories/ArcPolicy.v
theories/ArcExamples.v
theories/PropertiesArc.v
theories/AsmModel.v
theories/AsmSpec.v
theories/AsmProofs.v
theories/AsmExamples.v
theories/PropertiesAsm.v
theories/TimeModel.v
theories/TimeSpec.v
theories/TimeProofs.v
theories/TimeExamples.v
theories/PropertiesTime.v
theories/StratumJobModel.v
theories/StratumJobSpec.v
theories/StratumJobProofs.v
theories/StratumJobExamples.v
theories/PropertiesStratumJob.v
theories/SpvRunModel.v
theories/SpvRunSpec.v
theories/SpvRunProofs.v
theories/SpvRunExamples.v
theories/PropertiesSpvRun.v
theories/BoostRedeemModel.v
theories/BoostRedeemSpec.v
theories/BoostRedeemProofs.v
theories/BoostRedeemExamples.v
theories/PropertiesBoostRedeem.v
theories/P2pModel.v
theories/P2pSpec.v
theories/P2pProofs.v
theories/P2pExamples.v
theories/PropertiesP2p.v
theories/DerModel.v
theories/DerSpec.v
theories/DerProofs.v
theories/DerStrict.v
theories/DerExamples.v
theories/PropertiesDer.v
theories/AsmMore.v
theories/TimeMore.v
theories/DifficultyModel.v
theories/DifficultySpec.v
theories/DoubleProofs.v
theories/DifficultyProofs.v
theories/DifficultyBack.v
theories/DifficultyNumber.v
theories/DifficultyExamples.v
theories/DifficultyMore.v
theories/PropertiesDifficulty.v
theories/RawModel.v
theories/RawSpec.v
theories/Sha256Spec.v
theories/RawProofs.v
theories/RawExamples.v
theories/PropertiesRaw.v
theories/Sha1Spec.v
theories/Ripemd160Spec.v
theories/Sha512Spec.v
theories/CurveSpec.v
theories/VectorsText.v
theories/VectorsHd.v
theories/VectorsMerkle.v
theories/VectorsScript.v
theories/VectorsWork.v
theories/VectorsTx.v
theories/VectorsStratum.v
theories/VectorsBoost.v
theories/BeefJsonModel.v
theories/BeefJsonSpec.v
theories/BeefJsonProofs.v
theories/PropertiesBeefJson.v
theories/ErrorModel.v
theories/ErrorSpec.v
theories/ErrorExamples.v
theories/ErrorProofs.v
theories/PropertiesError.v
theories/NumLibModel.v
theories/NumLibSpec.v
theories/NumLibProofs.v
theories/PropertiesNumLib.v
theories/LimitSpec.v
theories/LimitProofs.v
theories/PropertiesLimit.v
theories/MapiRequestModel.v
theories/MapiRequestSpec.v
theories/MapiRequestProofs.v
theories/PropertiesMapiRequest.v
theories/FurtherSpec.v
theories/FurtherProofs.v
theories/FurtherArcProofs.v
theories/PropertiesFurther.v
theories/SigErrorProofs.v
theories/PrefixSpec.v
theories/PrefixProofs.v
theories/PropertiesPrefix.v
theories/FurtherStratumProofs.v
theories/MultiSpec.v
theories/MultiProofs.v
theories/PropertiesMulti.v
theories/EdgeProofs.v
theories/PropertiesEdge.v
theories/MultiRunSpec.v
theories/MultiRunProofs.v
theories/PropertiesMultiRun.v
theories/CheckRunSpec.v
theories/CheckRunProofs.v
theories/CheckSpendProofs.v
theories/PropertiesCheckRun.v
theories/CheckLockProofs.v
theories/PropertiesCheckLock.v
theories/BranchProofs.v
theories/PropertiesBranch.v
theories/ConditionProofs.v
theories/PropertiesCondition.v
theories/PropertiesSeparator.v
theories/HashLockSpec.v
theories/HashLockProofs.v
theories/PropertiesHashLock.v
theories/PuzzleRunSpec.v
theories/PuzzleRunProofs.v
theories/PropertiesPuzzleRun.v
