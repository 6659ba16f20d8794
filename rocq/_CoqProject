-Q theories Verif
theories/Py.v
theories/Leb128.v
theories/Arith.v
theories/Floatops.v
theories/Val.v
theories/Opcode.v
theories/Numeric.v
theories/Syntax.v
theories/Store.v
theories/Basic.v
theories/Machine.v
theories/SpecLeb.v
theories/SpecInt.v
theories/SpecNum.v
theories/SpecMachine.v
theories/SpecMem.v
theories/SpecRun.v
theories/SpecControl.v
theories/Utf8.v
theories/Decode.v
theories/SpecFormat.v
theories/SpecInst.v
theories/PyFacts.v
theories/LebFacts.v
theories/ArithFacts.v
theories/ValFacts.v
theories/StepFacts.v
theories/NumFacts.v
theories/LaneFacts.v
theories/MemFacts.v
theories/BulkFacts.v
theories/WfFacts.v
theories/RunFacts.v
theories/ControlFacts.v
theories/CallFacts.v
theories/InstFacts.v
theories/InitFacts.v
theories/DecodeFacts.v
theories/TreeFacts.v
theories/LocalFacts.v
theories/AcceptFacts.v
theories/ModuleFacts.v
theories/DecodeWitness.v
theories/Float.v
theories/SpecIeee.v
theories/IeeeFacts.v
theories/FloatFacts.v
theories/FloatOpFacts.v
theories/FloatArithFacts.v
theories/FloatConvFacts.v
theories/FloatSignFacts.v
theories/FloatWitness.v
theories/PropLeb.v
theories/PropArith.v
theories/PropVal.v
theories/PropNum.v
theories/PropMem.v
theories/PropRun.v
theories/PropControl.v
theories/PropDecode.v
theories/PropInst.v
theories/PropFloat.v
theories/SpecSimd.v
theories/SimdFacts.v
theories/SimdMoveFacts.v
theories/SimdWideFacts.v
theories/SimdStepFacts.v
theories/PropSimd.v
theories/Os.v
theories/Wasi.v
theories/SpecWasi.v
theories/SpecPath.v
theories/WasiFacts.v
theories/WasiTableFacts.v
theories/WasiMemFacts.v
theories/WasiIoFacts.v
theories/WasiCallFacts.v
theories/WasiGrowFacts.v
theories/PathFacts.v
theories/WasiMainFacts.v
theories/WasiPropFacts.v
theories/PropWasi.v
theories/SpecWasiMore.v
theories/WasiMoreFacts.v
theories/PropWasiMore.v
theories/SpecWasiPath.v
theories/WasiPathFacts.v
theories/WasiFrameFacts.v
theories/PropWasiPath.v
theories/WasiRun.v
theories/SpecWasiRun.v
theories/WasiKeepFacts.v
theories/WasiRunFacts.v
theories/WasiEndFacts.v
theories/NoExitFacts.v
theories/WasiOutcomeFacts.v
theories/WasiNamedFacts.v
theories/WasiAfterFacts.v
theories/PropWasiRun.v
theories/PropWasiMain.v
theories/SpecVecFloat.v
theories/VecFloatFacts.v
theories/VecFloatWitness.v
theories/PropVecFloat.v
theories/SpecType.v
theories/TypeOpFacts.v
theories/TypeBasicFacts.v
theories/TypeFacts.v
theories/TypeIeeeFacts.v
theories/PropType.v
theories/SpecLax.v
theories/LaxFacts.v
theories/PropLax.v
theories/SpecValid.v
theories/ValidFacts.v
theories/HistoryFacts.v
theories/PropValid.v
theories/SpecConverse.v
theories/ConverseFacts.v
theories/PropConverse.v
theories/SpecRef.v
theories/RefFacts.v
theories/RefHistoryFacts.v
theories/PropRef.v
theories/SpecStandard.v
theories/SpecInstantiate.v
theories/StandardFacts.v
theories/StandardRunFacts.v
theories/PropStandard.v
theories/InstantiateFacts.v
theories/PropInstantiate.v
theories/SpecWhole.v
theories/WholeFacts.v
theories/PropWhole.v
theories/WasiTypeFacts.v
theories/PropWasiType.v
theories/CommandLine.v
theories/SpecCommand.v
theories/CommandFacts.v
theories/PropCommand.v
theories/CommandRunFacts.v
theories/PropCommandRun.v
theories/SpecCode.v
theories/CodeFacts.v
theories/PropCode.v
theories/AnswerFacts.v
theories/PropAnswer.v
theories/SpecUnique.v
theories/UniqueFacts.v
theories/UniqueStepFacts.v
theories/UniqueOpFacts.v
theories/UniqueRunFacts.v
theories/PropUnique.v
theories/FollowFacts.v
theories/WholeFollowFacts.v
theories/PropTerminate.v
theories/SpecIsolate.v
theories/IsolateFacts.v
theories/IsolateRunFacts.v
theories/IsolateInitFacts.v
theories/PropIsolate.v
theories/InvalidFacts.v
theories/PropInvalid.v
theories/SpecAgree.v
theories/AgreeFacts.v
theories/AgreeRunFacts.v
theories/AgreeOwnFacts.v
theories/PropAgree.v
theories/SpecWasiInside.v
theories/WasiInsideFacts.v
theories/WasiInsideRunFacts.v
theories/PropWasiInside.v
theories/SpecEnds.v
theories/EndsFacts.v
theories/EndsRunFacts.v
theories/PropEnds.v
theories/SpecStacks.v
theories/StacksBasicFacts.v
theories/StacksFacts.v
theories/StacksRunFacts.v
theories/PropStacks.v
theories/SpecReach.v
theories/ReachBasicFacts.v
theories/ReachFacts.v
theories/PropReach.v
theories/SpecWasiAsk.v
theories/WasiAskFacts.v
theories/WasiGraphFacts.v
theories/PropWasiAsk.v
theories/SpecWasiLeave.v
theories/WasiLeaveFacts.v
theories/WasiLeaveRunFacts.v
theories/PropWasiLeave.v
theories/WasiEndsFacts.v
theories/PropWasiEnds.v
theories/SpecWasiEarn.v
theories/WasiEarnFacts.v
theories/PropWasiEarn.v
theories/SpecWasiErr.v
theories/WasiErrFacts.v
theories/WasiRaiseFacts.v
theories/PropWasiErr.v
