-Q theories Verif
theories/Base.v
theories/Board.v
theories/Mem.v
theories/Cpu.v
theories/Asm.v
theories/SpecMach.v
theories/SpecIsa.v
theories/SpecBus.v
theories/BaseFacts.v
theories/RegFacts.v
theories/MemFacts.v
theories/AluFacts.v
theories/IsaFacts.v
theories/IsaStep.v
theories/MonoFacts.v
theories/SpecObs.v
theories/CycleFacts.v
theories/UndFacts.v
theories/HoareFacts.v
theories/CyclePost.v
theories/Tools.v
theories/Runner.v
theories/Counter.v
theories/SpecCounter.v
theories/Devices.v
theories/DevTyped.v
theories/InvFacts.v
theories/SpecMap.v
theories/MapFacts.v
theories/ReachFacts.v
theories/ExecFacts.v
theories/StepCases.v
theories/Demo.v
theories/ProofAlu.v
theories/ProofState.v
theories/ProofBoard.v
theories/SpecUtf8.v
theories/ProofUtf8.v
theories/ProofPanic.v
theories/SpecTools.v
theories/ProofReg.v
theories/ProofMem.v
theories/SpecMmu.v
theories/ProofMmu.v
theories/PropAlu.v
theories/PropBoard.v
theories/PropPanic.v
theories/PropState.v
theories/PropReg.v
theories/PropMem.v
theories/PropMmu.v
theories/ProofMap.v
theories/SpecAsm.v
theories/ProofAsm.v
theories/ProofTools.v
theories/SpecExt.v
theories/ProofExt.v
theories/SpecDev.v
theories/ProofHist.v
theories/ProofDev.v
theories/ProofIo.v
theories/ProofCrate.v
theories/SpecPanic.v
theories/ProofCrash.v
theories/PropMap.v
theories/PropAsm.v
theories/PropTools.v
theories/PropExt.v
theories/PropDev.v
theories/PropHist.v
theories/PropIo.v
theories/SpecRun.v
theories/SpecSim.v
theories/ProofRun.v
theories/ProofSim.v
theories/ProofRom.v
theories/SpecMemory.v
theories/ProofEffect.v
theories/ProofRam.v
theories/ProofStack.v
theories/PropRom.v
theories/PropRun.v
theories/ProofCounter.v
theories/PropCounter.v
theories/LasmRules.v
theories/Lasm.v
theories/SpecLasm.v
theories/LasmFacts.v
theories/ProofLasm.v
theories/SpecShort.v
theories/ProofShort.v
theories/Sources.v
theories/Examples.v
theories/SymFacts.v
theories/ProofExample.v
theories/ProofHello.v
theories/SpecExample.v
theories/DetectFacts.v
theories/ProofDetect.v
theories/ProofElapsed.v
theories/Async.v
theories/AsyncFacts.v
theories/ProofAsync.v
theories/SpecBf.v
theories/BfFacts.v
theories/BfRun.v
theories/ProofBf.v
theories/PropLasm.v
theories/PropCrash.v
theories/PropCrate.v
theories/PropRam.v
theories/PropStack.v
theories/PropShort.v
theories/PropUtf8.v
theories/PropExample.v
theories/PropHello.v
theories/PropDetect.v
theories/PropAsync.v
theories/PropElapsed.v
theories/PropBf.v
theories/SpecLabel.v
theories/LabelFacts.v
theories/ProofLabel.v
theories/SpecReasm.v
theories/ProofReasm.v
theories/PropLabel.v
theories/PropReasm.v
theories/Console.v
theories/SpecConsole.v
theories/ConsoleFacts.v
theories/ProofConsole.v
theories/ProofPrint.v
theories/PropConsole.v
theories/PropPrint.v
theories/SpecScript.v
theories/ProofScript.v
theories/ProofTests.v
theories/PropScript.v
theories/PropTests.v
theories/SpecTotal.v
theories/ProofTotal.v
theories/SpecUser.v
theories/ProofUser.v
theories/PropTotal.v
theories/PropUser.v
theories/ProofTutorial.v
theories/PropTutorial.v
theories/SpecGuard.v
theories/ProofGuard.v
theories/PropGuard.v
theories/Vals.v
theories/SpecVals.v
theories/ProofVals.v
theories/PropVals.v
theories/SpecMove.v
theories/ProofMove.v
theories/PropMove.v
theories/SpecExtText.v
theories/ProofExtText.v
theories/PropExtText.v
theories/Warn.v
theories/SpecWarn.v
theories/ProofWarn.v
theories/PropWarn.v
theories/SpecWire.v
theories/ProofWire.v
theories/PropWire.v
theories/Utf8.v
theories/SpecText.v
theories/ProofText.v
theories/ExampleText.v
theories/SpecExampleText.v
theories/ProofTextUse.v
theories/PropText.v
theories/PropTextUse.v
theories/Ids.v
theories/SpecSip.v
theories/ProofIds.v
theories/PropIds.v
theories/ProofDebug.v
theories/PropDebug.v
theories/Makers.v
theories/ProofMakers.v
theories/PropMakers.v
theories/SpecAsync.v
theories/ProofAsyncUse.v
theories/PropAsyncUse.v
theories/ProofMoveDebug.v
theories/PropMoveDebug.v
theories/ProofFuture.v
theories/PropFuture.v
