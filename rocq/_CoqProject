-Q theories Verif

theories/Base.v
theories/BaseProofs.v
theories/VectorModel.v
theories/VectorProofs.v
theories/TextModel.v
theories/TextProofs.v
theories/RangeModel.v
theories/RangeProofs.v
theories/StackModel.v
theories/StackProofs.v
theories/FieldModel.v
theories/FieldProofs.v
theories/DumpProofs.v
theories/BinaryProofs.v
theories/LibProofs.v
theories/World.v
theories/IpModel.v
theories/LoadModel.v
theories/DblModel.v
theories/FingModel.v
theories/CoreModel.v
theories/UniModel.v
theories/Smoke.v
theories/IpProofs.v
theories/ExecProofs.v
theories/FlowProofs.v
theories/States.v
theories/PropsData.v
theories/PropsMove.v
theories/PropsStack.v
theories/PropsIO.v
theories/PropsTurn.v
theories/PropsFlow.v
theories/PropsJump.v
theories/PropsString.v
theories/PropsBlocks.v
theories/Effects.v
theories/SchedProofs.v
theories/PropsSched.v
theories/PropsSpawn.v
theories/PropsOwn.v
theories/PropsPerm.v
theories/CoreProofs.v
theories/PropsLoad.v
theories/PropsSys.v
theories/PropsFing.v
theories/PropsStrn.v
theories/PropsSubr.v
theories/PropsIipc.v
theories/CopyProofs.v
theories/PropsCopy.v
theories/PropsMvrs.v
theories/PropsBase.v
theories/OptModel.v
theories/FileModel.v
theories/PropsOpt.v
theories/DebugModel.v
theories/PropsDebug.v
theories/PropsDebugCmd.v
theories/ThreadModel.v
theories/ThreadProofs.v
theories/ThreadLive.v
theories/ThreadOwn.v
theories/ThreadExample.v
theories/NativeModel.v
theories/NativeProofs.v
theories/PropsThread.v
theories/PropsKill.v
theories/DblProofs.v
theories/FishModel.v
theories/FishSmoke.v
theories/FishProofs.v
theories/PropsFish.v
theories/FishSafe.v
theories/PropsFishRun.v
theories/PropsFishFp.v
theories/PropsMath.v
theories/PropsSpace.v
theories/PropsAxes.v
theories/PropsToys.v
theories/PropsToyBox.v
theories/FileProofs.v
theories/PropsFile.v
theories/PropsStart.v
theories/LibModel.v
theories/LibTexts.v
theories/LibRun.v
theories/LibDyn.v
theories/PropsLib.v
theories/PropsRoma.v
theories/PropsTerm.v
theories/PropsDyn.v
theories/FloatSpec.v
theories/FloatProofs.v
theories/PropsFloat.v
theories/PropsFishFloat.v
theories/PropsPerl.v
theories/PropsFprt.v
theories/LibLoadModel.v
theories/PropsLoadLib.v
theories/DirModel.v
theories/PropsDir.v
theories/PropsFileIO.v
theories/PropsWhole.v
theories/PropsFishWhole.v
theories/PropsCompile.v
theories/PropsTwo.v
theories/MainModel.v
theories/PropsLaunch.v
