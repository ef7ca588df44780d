-Q theories Verif
theories/Base.v
theories/Env.v
theories/Time.v
theories/Hkdf.v
theories/Prng.v
theories/SubKey.v
theories/SecretKey.v
theories/Keys.v
theories/Sig.v
theories/IO.v
theories/Serdes.v
theories/Api.v
theories/Ffi.v
theories/Python.v
theories/Param.v
theories/Programs.v
theories/FfiMem.v
theories/Tests.v
theories/Bench.v
theories/SpecTime.v
theories/TimeFacts.v
theories/TimeProps.v
theories/Properties_Time.v
theories/NMod.v
theories/GroupFacts.v
theories/SpecPrng.v
theories/PrngFacts.v
theories/SpecKey.v
theories/SubKeyFacts.v
theories/SpecUpdate.v
theories/UpdateFacts.v
theories/KeyFacts.v
theories/SpecSer.v
theories/IOFacts.v
theories/SerFacts.v
theories/HistoryFacts.v
theories/Primality.v
theories/Sha512.v
theories/Toy.v
theories/ToyRun.v
theories/ShapeFacts.v
theories/KeyProps.v
theories/SpecDerive.v
theories/SubProps.v
theories/AlgProps.v
theories/WitProps.v
theories/SpecSig.v
theories/SigProps.v
theories/VerProps.v
theories/ValProps.v
theories/WitSigProps.v
theories/SerProps.v
theories/WitSerProps.v
theories/PrngProps.v
theories/SpecFfi.v
theories/FfiProps.v
theories/SpecLin.v
theories/LinProps.v
theories/SpecPy.v
theories/PyProps.v
theories/WitPyProps.v
theories/Properties_Key.v
theories/Properties_Sub.v
theories/Properties_Sig.v
theories/Properties_Verify.v
theories/Properties_Ser.v
theories/Properties_Prng.v
theories/Properties_Ffi.v
theories/Properties_Lin.v
theories/Properties_Py.v
theories/SpecAgg.v
theories/AggProps.v
theories/ModeProps.v
theories/WitAggProps.v
theories/Properties_Agg.v
theories/SpecProg.v
theories/ProgProps.v
theories/SpecMem.v
theories/MemProps.v
theories/Hygiene.v
theories/SpecHyg.v
theories/HygFacts.v
theories/HygProps.v
theories/Properties_Prog.v
theories/Properties_Hyg.v
theories/SpecRand.v
theories/RandProps.v
theories/Properties_Rand.v
theories/SpecColl.v
theories/CollProps.v
theories/Properties_Coll.v
theories/SpecTest.v
theories/TestProps.v
theories/Properties_Test.v
theories/SpecParam.v
theories/ParamProps.v
theories/Properties_Param.v
theories/SpecBench.v
theories/BenchProps.v
theories/Properties_Bench.v
theories/SpecRed.v
theories/RedProps.v
theories/Properties_Red.v
theories/SpecCtl.v
theories/CtlProps.v
theories/Properties_Ctl.v
theories/SpecHelp.v
theories/HelpProps.v
theories/Properties_Help.v
theories/SpecMulti.v
theories/MultiProps.v
theories/Properties_Multi.v
theories/SpecGrow.v
theories/GrowProps.v
theories/Properties_Grow.v
theories/SpecRom.v
theories/RomProps.v
theories/CountProps.v
theories/Properties_Rom.v
theories/Doc.v
theories/DocProps.v
theories/WitDocProps.v
theories/Properties_Doc.v
theories/Debug.v
theories/SpecDbg.v
theories/DbgProps.v
theories/WitDbgProps.v
theories/Properties_Dbg.v
theories/SpecArr.v
theories/ArrProps.v
theories/WitArrProps.v
theories/Properties_Arr.v
theories/SpecPop.v
theories/PopProps.v
theories/PopCountProps.v
theories/Properties_Pop.v
theories/SpecFwd.v
theories/FwdProps.v
theories/FwdCodeProps.v
theories/FwdGameProps.v
theories/FwdMainProps.v
theories/WitFwdProps.v
theories/Properties_Fwd.v
theories/SpecClean.v
theories/CleanProps.v
theories/CleanCountProps.v
theories/CleanMainProps.v
theories/Properties_Clean.v
theories/SpecIface.v
theories/IfaceProps.v
theories/Properties_Iface.v
theories/SpecCost.v
theories/CostProps.v
theories/CostMainProps.v
theories/Properties_Cost.v
theories/SpecAdv.v
theories/AdvProps.v
theories/AdvCountProps.v
theories/Properties_Adv.v
theories/VecMem.v
theories/SpecVec.v
theories/VecProps.v
theories/Properties_Vec.v
theories/Default.v
theories/DefProps.v
theories/Properties_Def.v
theories/SpecMany.v
theories/ManyProps.v
theories/ManyCountProps.v
theories/WitManyProps.v
theories/Properties_Many.v
theories/BufMem.v
theories/SpecBuf.v
theories/BufProps.v
theories/Properties_Buf.v
theories/SignProps.v
theories/OpTrace.v
theories/SpecOps.v
theories/OpsProps.v
theories/OpCountProps.v
theories/Properties_Ops.v
theories/SpecAny.v
theories/AnyProps.v
theories/WitAnyProps.v
theories/Properties_Any.v
theories/ReadMem.v
theories/SpecRead.v
theories/ReadProps.v
theories/Properties_Read.v
theories/HvMem.v
theories/SpecHv.v
theories/HvProps.v
theories/Properties_Hv.v
theories/SpecOwn.v
theories/OwnProps.v
theories/Properties_Own.v
theories/SpecDep.v
theories/DepProps.v
theories/Properties_Dep.v
theories/SpecMix.v
theories/MixProps.v
theories/Properties_Mix.v
theories/SpecSpare.v
theories/SpareProps.v
theories/Properties_Spare.v
theories/HashTrace.v
theories/SpecHash.v
theories/HashProps.v
theories/Properties_Hash.v
theories/World.v
theories/SpecWorld.v
theories/WorldProps.v
theories/Properties_World.v
theories/CWorld.v
theories/SpecCWorld.v
theories/CWorldProps.v
theories/Properties_CWorld.v
theories/SpecCAny.v
theories/CAnyProps.v
theories/WitCAnyProps.v
theories/Properties_CAny.v
theories/Scripts.v
theories/SpecScripts.v
theories/ScriptProps.v
theories/Properties_Script.v
theories/GenFs.v
theories/SpecGen.v
theories/GenProps.v
theories/Properties_Gen.v
theories/MakeTest.v
theories/SpecMake.v
theories/MakeProps.v
theories/Properties_Make.v
theories/KatTests.v
theories/SpecKat.v
theories/KatProps.v
theories/Properties_Kat.v
theories/FfiBuf.v
theories/SpecFfiBuf.v
theories/FfiBufProps.v
theories/Properties_FfiBuf.v
theories/BenchCurve.v
theories/SpecBenchCurve.v
theories/BenchCurveProps.v
theories/Properties_BenchCurve.v
theories/CallMem.v
theories/SpecCallMem.v
theories/CallMemProps.v
theories/Properties_CallMem.v
theories/SessionMem.v
theories/SpecSessionMem.v
theories/SessionMemProps.v
theories/Properties_SessionMem.v
theories/ReadStack.v
theories/SpecReadStack.v
theories/ReadStackProps.v
theories/Properties_ReadStack.v
theories/CallStack.v
theories/SpecCallStack.v
theories/CallStackProps.v
theories/Properties_CallStack.v
theories/HistStack.v
theories/SpecHistStack.v
theories/HistStackProps.v
theories/Properties_HistStack.v
