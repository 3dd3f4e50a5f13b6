-Q theories Verif
theories/Cpp.v
theories/BigNum.v
theories/Bit.v
theories/Logic.v
theories/Arr.v
theories/Util.v
theories/Sanity.v
theories/Spec.v
theories/ZBits.v
theories/Words.v
theories/BigNumProofs.v
theories/BigArith.v
theories/BitProofs.v
theories/BitSlice.v
theories/BitExt.v
theories/BitOps.v
theories/BitShift.v
theories/BitCmp.v
theories/BitArith.v
theories/BitMain.v
theories/BitMain2.v
theories/BitMain3.v
theories/BitMain4.v
theories/BitMain5.v
theories/LogicProofs.v
theories/LogicOps.v
theories/LogicRed.v
theories/LogicArith.v
theories/LogicArith2.v
theories/LogicConv.v
theories/LogicConv2.v
theories/LogicMain.v
theories/CounterProofs.v
theories/PropsLogic.v
theories/SpecArr.v
theories/ArrProofs.v
theories/PropsArr.v
theories/SpecText.v
theories/TextProofs.v
theories/TextBig.v
theories/FmtProofs.v
theories/FmtMain.v
theories/FmtDec.v
theories/FmtRound.v
theories/TextMain.v
theories/PropsText.v
theories/PropsBit.v
theories/PropsBit2.v
theories/More.v
theories/Client.v
theories/ClientProofs.v
theories/LawProofs.v
theories/Client4.v
theories/Client4Proofs.v
theories/PropsClient.v
theories/Program.v
theories/MoreProofs.v
theories/ProgramProofs.v
theories/MoreExamples.v
theories/PropsMore.v
theories/BigObj.v
theories/SpecBig.v
theories/BigObjProofs.v
theories/BigObjProofs2.v
theories/BigObjProofs3.v
theories/PropsBig.v
theories/SpecExact.v
theories/Exact.v
theories/Exact2.v
theories/Exact3.v
theories/Exact4.v
theories/Exact5.v
theories/PropsExact.v
theories/SpecExact4.v
theories/Exact6.v
theories/Program4.v
theories/Program4Proofs.v
theories/Algo.v
theories/AlgoProofs.v
theories/Program4Examples.v
theories/PropsProgram.v
theories/Rest.v
theories/RestProofs.v
theories/RestProofs2.v
theories/PropsRest.v
theories/Reach.v
theories/ReachProofs.v
theories/ReachProofs2.v
theories/ReachProofs3.v
theories/ReachProofs4.v
theories/ReachProofs5.v
theories/ReachProofs6.v
theories/ReachProofs7.v
theories/PropsReach.v
theories/SpecMachine.v
theories/MachineProofs.v
theories/MachineProofs2.v
theories/MachineProofs3.v
theories/MachineProofs4.v
theories/MachineProg.v
theories/MachineProofs5.v
theories/PropsMachine.v
theories/SpecWide.v
theories/WideProofs.v
theories/WideProofs2.v
theories/WideProofs3.v
theories/WideProofs4.v
theories/WideProg.v
theories/WideProofs5.v
theories/WideProofs6.v
theories/PropsWide.v
theories/SpecFour.v
theories/FourProofs.v
theories/FourProofs2.v
theories/FourProofs3.v
theories/FourProg.v
theories/FourProofs4.v
theories/PropsFour.v
theories/SpecRead.v
theories/ReadProofs.v
theories/ReadExact.v
theories/PropsRead.v
theories/SpecPrint.v
theories/PrintProofs.v
theories/PrintExact.v
theories/PropsPrint.v
theories/SpecIff.v
theories/Iff.v
theories/Iff2.v
theories/Iff3.v
theories/Iff4.v
theories/Iff5.v
theories/Iff6.v
theories/PropsIff.v
theories/Iff7.v
theories/Iff8.v
theories/Iff9.v
theories/Iff10.v
theories/PropsIff2.v
theories/SpecIff2.v
theories/Iff11.v
theories/Iff12.v
theories/Iff13.v
theories/Iff14.v
theories/PropsIff3.v
theories/SpecIff3.v
theories/SpecBigRef.v
theories/BigRef.v
theories/Iff15.v
theories/Iff16.v
theories/Iff17.v
theories/PropsIff4.v
theories/SpecArrRef.v
theories/ArrRef.v
theories/ArrRef2.v
theories/ArrRef3.v
theories/PropsArrRef.v
theories/SpecIff4.v
theories/Iff18.v
theories/Iff19.v
theories/Iff20.v
theories/Iff21.v
theories/Iff22.v
theories/PropsIff5.v
theories/SpecIff5.v
theories/Iff23.v
theories/Iff24.v
theories/Iff25.v
theories/PropsIff6.v
theories/Const.v
theories/SpecConst.v
theories/ConstProofs.v
theories/ConstProofs2.v
theories/PropsConst.v
theories/SpecProg.v
theories/ProgExact.v
theories/PropsProg.v
theories/SpecIff6.v
theories/Iff26.v
theories/Iff27.v
theories/PropsIff7.v
theories/Reduce.v
theories/SpecMem.v
theories/MemProofs.v
theories/MemProofs2.v
theories/ReduceProofs.v
theories/PropsMem.v
theories/PropsMem2.v
theories/Iff28.v
theories/PropsIff8.v
theories/SpecProg4.v
theories/ProgExact4.v
theories/PropsProg4.v
theories/SpecType.v
theories/TypeProofs.v
theories/TypeProofs4.v
theories/PropsType.v
theories/SpecSigned.v
theories/SignedProofs.v
theories/PropsSigned.v
theories/SpecSignedWide.v
theories/SignedWideProofs.v
theories/PropsSignedWide.v
theories/SpecChange.v
theories/ChangeProofs.v
theories/PropsChange.v
theories/Circuit.v
theories/SpecCircuit.v
theories/CircuitProofs.v
theories/CircuitExact.v
theories/PropsCircuit.v
theories/Crc.v
theories/SpecCrc.v
theories/CrcProofs.v
theories/DelayProofs.v
theories/PropsCrc.v
theories/MatchProofs.v
theories/SpecMono.v
theories/MonoProofs.v
theories/PropsMatch.v
theories/Lfsr.v
theories/LfsrProofs.v
theories/PropsLfsr.v
theories/OrderProofs.v
theories/PropsOrder.v
theories/MemberProofs.v
theories/MaskProofs.v
theories/PropsMembers.v
theories/SpecBoth.v
theories/BothProofs.v
theories/PropsBoth.v
theories/LawWidths.v
theories/PropsLawWidths.v
theories/SpecQueue.v
theories/Queue.v
theories/QueueProofs.v
theories/PropsQueue.v
theories/SpecVote.v
theories/Vote.v
theories/VoteProofs.v
theories/PropsVote.v
theories/SpecTrick.v
theories/Trick.v
theories/TrickProofs.v
theories/PropsTrick.v
theories/Saturate.v
theories/SaturateProofs.v
theories/PropsSaturate.v
theories/Permute.v
theories/PermuteProofs.v
theories/PropsPermute.v
theories/SpecLong.v
theories/Long.v
theories/LongProofs.v
theories/PropsLong.v
theories/SpecSqrt.v
theories/Sqrt.v
theories/SqrtProofs.v
theories/SqrtExact.v
theories/PropsSqrt.v
theories/SpecSerial.v
theories/Serial.v
theories/SerialProofs.v
theories/PropsSerial.v
theories/Sort.v
theories/SortProofs.v
theories/PropsSort.v
theories/SpecScan.v
theories/Scan.v
theories/ScanProofs.v
theories/PropsScan.v
theories/SpecDigits.v
theories/Digits.v
theories/DigitsProofs.v
theories/PropsDigits.v
theories/SpecAccum.v
theories/Accum.v
theories/AccumProofs.v
theories/PropsAccum.v
theories/Sext.v
theories/SextProofs.v
theories/PropsSext.v
theories/Horner.v
theories/HornerProofs.v
theories/PropsHorner.v
theories/Barrel.v
theories/BarrelProofs.v
theories/PropsBarrel.v
theories/Distance.v
theories/DistanceProofs.v
theories/PropsDistance.v
