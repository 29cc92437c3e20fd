-Q theories Verif
theories/Base.v
theories/ModelMap.v
theories/ModelStep.v
theories/ModelRegs6502.v
theories/ModelCpu6502.v
theories/ModelOperand.v
theories/ModelIsa6502.v
theories/ModelOps6502.v
theories/ModelRun6502.v
theories/Spec6502.v
theories/Arith.v
theories/Link6502.v
theories/ProofOperand.v
theories/ProofStep6502.v
theories/SpecMap.v
theories/ProofMap.v
theories/PropertiesMap.v
theories/ProofRun6502.v
theories/ProofBus.v
theories/SpecInstr.v
theories/ProofInstr.v
theories/Demo6502.v
theories/Properties6502.v
theories/Properties6502Alu.v
theories/Properties6502Mem.v
theories/Properties6502Ctl.v
theories/ProofReplay.v
theories/SpecUse.v
theories/PropertiesRun6502.v
theories/SpecStack.v
theories/ProofStack.v
theories/PropertiesStack.v
theories/ModelU12.v
theories/ModelDisplay.v
theories/ModelChip8.v
theories/ModelOpsChip8.v
theories/ModelRunChip8.v
theories/SpecChip8.v
theories/ProofDecode8.v
theories/ProofChip8.v
theories/ProofChip8Step.v
theories/SpecChip8Parts.v
theories/ProofChip8Parts.v
theories/PropertiesChip8Parts.v
theories/ProofChip8Reach.v
theories/PropertiesChip8.v
theories/SpecChip8Run.v
theories/ProofChip8Run.v
theories/PropertiesChip8Run.v
theories/ModelRng.v
theories/PropertiesRng.v
theories/ModelTrace.v
theories/ModelExamples.v
theories/PropertiesTrace.v
theories/PropertiesExamples.v
theories/Conformance6502.v
theories/ConformanceChip8.v
theories/ConformanceMisc.v
theories/ModelIo.v
theories/ModelOpsIo6502.v
theories/SpecBus.v
theories/ModelBus.v
theories/ProofBusStep.v
theories/ProofBusRun.v
theories/ProofBusMap.v
theories/ProofBusLog.v
theories/PropertiesBus.v
theories/ProofAlike.v
theories/PropertiesAlike.v
theories/SpecFrame.v
theories/ProofFrame.v
theories/PropertiesFrame.v
theories/SpecProfile.v
theories/ProofProfile.v
theories/ProofProfileChip8.v
theories/PropertiesProfile.v
theories/SpecDatasheet.v
theories/ProofDatasheet.v
theories/PropertiesDatasheet.v
theories/SpecReference8.v
theories/ProofReference8.v
theories/PropertiesReference8.v
theories/SpecMicrocode8.v
theories/ProofMicrocode8.v
theories/PropertiesMicrocode8.v
theories/SpecMicrocode.v
theories/PropertiesMicrocode.v
theories/SpecProgram.v
theories/ProofProgram.v
theories/PropertiesProgram.v
theories/SpecTouch.v
theories/PropertiesTouch.v
theories/SpecMove.v
theories/PropertiesMove.v
theories/ModelText.v
theories/SpecText.v
theories/PropertiesText.v
theories/PropertiesAnswers8.v
theories/SpecLive.v
theories/PropertiesLive.v
theories/SpecLive8.v
theories/PropertiesLive8.v
theories/SpecRoutines.v
theories/ProofRoutines.v
theories/PropertiesRoutines.v
theories/ModelOwnRng.v
theories/PropertiesOwnRng.v
theories/PropertiesRom.v
theories/SpecRoutines8.v
theories/ProofRoutines8.v
theories/PropertiesRoutines8.v
theories/SpecMove8.v
theories/PropertiesMove8.v
theories/ModelStep64.v
theories/PropertiesStep64.v
theories/SpecExchange.v
theories/ProofExchange.v
theories/PropertiesExchange.v
theories/ModelUnixRng.v
theories/PropertiesUnixRng.v
theories/SpecRepeat.v
theories/ProofRepeat.v
theories/PropertiesRepeat.v
theories/SpecRepeat8.v
theories/PropertiesRepeat8.v
theories/SpecKnown.v
theories/PropertiesKnown.v
theories/SpecUnused8.v
theories/PropertiesUnused8.v
theories/SpecBuild.v
theories/PropertiesBuild.v
theories/ModelGeneric.v
theories/SpecGeneric.v
theories/PropertiesGeneric.v
theories/SpecReplace.v
theories/PropertiesReplace.v
theories/ModelRange.v
theories/SpecRange.v
theories/PropertiesRange.v
theories/SpecReplace8.v
theories/PropertiesReplace8.v
theories/SpecLanguage.v
theories/ProofLanguage.v
theories/PropertiesLanguage.v
theories/SpecLanguage8.v
theories/ProofLanguage8.v
theories/PropertiesLanguage8.v
theories/SpecProcedures.v
theories/ProofProcedures.v
theories/PropertiesProcedures.v
theories/ProofWrites.v
theories/SpecOutput.v
theories/ProofOutput.v
theories/PropertiesOutput.v
theories/SpecTalk.v
theories/ProofTalk.v
theories/ProofTalkCode.v
theories/ProofTalkRun.v
theories/PropertiesTalk.v
theories/SpecHost8.v
theories/ProofHost8.v
theories/PropertiesHost8.v
theories/SpecStates8.v
theories/PropertiesStates8.v
theories/SpecStates6502.v
theories/PropertiesStates6502.v
theories/SpecFrames.v
theories/PropertiesFrames.v
theories/SpecFrames8.v
theories/PropertiesFrames8.v
theories/SpecBuffered8.v
theories/PropertiesBuffered8.v
theories/SpecCalls8.v
theories/PropertiesCalls8.v
theories/SpecPortable.v
theories/ProofPortable.v
theories/PropertiesPortable.v
theories/SpecPortable8.v
theories/ProofPortable8.v
theories/PropertiesPortable8.v
theories/SpecCheck.v
theories/ProofCheck.v
theories/PropertiesCheck.v
theories/SpecCheck8.v
theories/ProofCheck8.v
theories/PropertiesCheck8.v
theories/SpecSecret.v
theories/ProofSecret.v
theories/PropertiesSecret.v
theories/SpecBudget.v
theories/ProofBudget.v
theories/PropertiesBudget.v
theories/SpecPort.v
theories/ProofPort.v
theories/PropertiesPort.v
theories/PropertiesCapture.v
theories/SpecPort8.v
theories/ProofPort8.v
theories/PropertiesPort8.v
theories/PropertiesChip.v
theories/SpecTamper.v
theories/ProofTamper.v
theories/PropertiesTamper.v
theories/SpecTamper8.v
theories/PropertiesTamper8.v
theories/SpecPace.v
theories/ProofPace.v
theories/PropertiesPace.v
theories/SpecShared.v
theories/PropertiesShared.v
theories/SpecSecret8.v
theories/ProofSecret8.v
theories/PropertiesSecret8.v
theories/PropertiesSecretPort8.v
theories/SpecBudget8.v
theories/PropertiesBudget8.v
theories/PropertiesPace8.v
theories/SpecBeside8.v
theories/PropertiesBeside8.v
