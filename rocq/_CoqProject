-Q theories Verif
theories/Base.v
theories/ListAux.v
theories/Alg.v
theories/PermModel.v
theories/PermSpec.v
theories/PermSign.v
theories/PermProofs.v
theories/StringPermProofs.v
theories/TrilProofs.v
theories/SpinProofs.v
theories/CombineProofs.v
theories/PermProps.v
theories/ArrModel.v
theories/ArrProofs.v
theories/TensorModel.v
theories/TensorSpec.v
theories/GroupProofs.v
theories/PackProofs.v
theories/TensorProofs.v
theories/UnpackProofs.v
theories/RepackProofs.v
theories/SymmProofs.v
theories/TensorThms.v
theories/TensorProps.v
theories/EinsumModel.v
theories/EinsumSpec.v
theories/EinsumProofs.v
theories/EinsumThms.v
theories/EinsumParse.v
theories/EinsumApi.v
theories/EinsumProps.v
theories/SpaceModel.v
theories/SpaceSpec.v
theories/SpaceProofs.v
theories/SpaceThms.v
theories/SpaceProps.v
theories/MiscModel.v
theories/MiscSpec.v
theories/MiscProofs.v
theories/MiscProps.v
theories/AnsatzModel.v
theories/AnsatzSpec.v
theories/AnsatzProofs.v
theories/AnsatzRanks.v
theories/AnsatzProps.v
theories/DampModel.v
theories/DampSpec.v
theories/DampProofs.v
theories/DampThms.v
theories/DampProps.v
theories/KernelModel.v
theories/KernelSpec.v
theories/KernelProofs.v
theories/KernelProps.v
theories/VecModel.v
theories/VecSpec.v
theories/VecProofs.v
theories/VecThms.v
theories/VecProps.v
theories/EinAux.v
theories/CcModel.v
theories/CcSpec.v
theories/CcProofs.v
theories/CcThms.v
theories/CcUThms.v
theories/CcFix.v
theories/CcRdm.v
theories/CcShift.v
theories/CcEx.v
theories/CcProps.v
theories/CcInit.v
theories/CcUInit.v
theories/CcLam.v
theories/InitEx.v
theories/InitProps.v
theories/HamModel.v
theories/HamSpec.v
theories/HamProofs.v
theories/HamFock.v
theories/HamEris.v
theories/HamEx.v
theories/HamProps.v
theories/CoreModel.v
theories/CoreSpec.v
theories/CoreProofs.v
theories/CoreDump.v
theories/CoreEx.v
theories/CoreProps.v
theories/ExtModel.v
theories/ExtSpec.v
theories/ExtCtx.v
theories/ExtProofs.v
theories/ExtThms.v
theories/ExtCorr.v
theories/ExtEx.v
theories/ExtProps.v
theories/EinPathModel.v
theories/EinPathSpec.v
theories/EinPathThms.v
theories/EinPathParse.v
theories/EinPathProps.v
theories/OptModel.v
theories/OptSpec.v
theories/OptProofs.v
theories/OptTrans.v
theories/OptOrb.v
theories/OptLoop.v
theories/OptEx.v
theories/OptProps.v
theories/DavModel.v
theories/DavSpec.v
theories/DavProofs.v
theories/DavThms.v
theories/DavConv.v
theories/DavPick.v
theories/DavEx.v
theories/DavProps.v
theories/EomModel.v
theories/EomSpec.v
theories/EomThms.v
theories/EomVec.v
theories/EomDiag.v
theories/EomGuess.v
theories/EomEx.v
theories/EomProps.v
theories/FciModel.v
theories/FciSpec.v
theories/FciProofs.v
theories/FciThms.v
theories/FciAgree.v
theories/FciEx.v
theories/FciProps.v
theories/AntisymmSpec.v
theories/AntisymmProofs.v
theories/AntisymmProps.v
theories/CgModel.v
theories/CgSpec.v
theories/CgProofs.v
theories/CgRun.v
theories/CgNames.v
theories/Cg_GCC2.v
theories/Cg_GCC3.v
theories/Cg_GCCD.v
theories/Cg_GCCSD.v
theories/Cg_GCCSDT.v
theories/Cg_GCCSDTQ.v
theories/Cg_GCCSD_SD_1_1.v
theories/Cg_GCCSD_SD_1_2.v
theories/Cg_GCCSD_S_1_1.v
theories/Cg_GCCSDwtwp.v
theories/Cg_GCCSDxTx.v
theories/Cg_GLCCD.v
theories/Cg_GLCCSD.v
theories/Cg_GMP2.v
theories/Cg_GMP3.v
theories/Cg_GQCISD.v
theories/Cg_GecCC.v
theories/Cg_RCC2.v
theories/Cg_RCC3.v
theories/Cg_RCCD.v
theories/Cg_RCCSD.v
theories/Cg_RCCSDT.v
theories/Cg_RCCSD_SD_1_1.v
theories/Cg_RCCSD_SD_1_2.v
theories/Cg_RCCSD_S_1_1.v
theories/Cg_RCCSDwtwp.v
theories/Cg_RCCSDxTx.v
theories/Cg_RDCD.v
theories/Cg_RDCSD.v
theories/Cg_RDFCC2.v
theories/Cg_RDFCCD.v
theories/Cg_RDFCCSD.v
theories/Cg_RDFDCD.v
theories/Cg_RDFDCSD.v
theories/Cg_RDFLCCD.v
theories/Cg_RDFLCCSD.v
theories/Cg_RDFQCISD.v
theories/Cg_RLCCD.v
theories/Cg_RLCCSD.v
theories/Cg_RMP2.v
theories/Cg_RMP3.v
theories/Cg_RQCISD.v
theories/Cg_RecCC.v
theories/Cg_UCC2.v
theories/Cg_UCC3.v
theories/Cg_UCCD.v
theories/Cg_UCCSD.v
theories/Cg_UCCSDT.v
theories/Cg_UCCSD_SD_1_1.v
theories/Cg_UCCSD_SD_1_2.v
theories/Cg_UCCSD_S_1_1.v
theories/Cg_UCCSDwtwp.v
theories/Cg_UCCSDxTx.v
theories/Cg_UDCD.v
theories/Cg_UDCSD.v
theories/Cg_UDFCC2.v
theories/Cg_UDFCCD.v
theories/Cg_UDFCCSD.v
theories/Cg_UDFDCD.v
theories/Cg_UDFDCSD.v
theories/Cg_UDFLCCD.v
theories/Cg_UDFLCCSD.v
theories/Cg_UDFQCISD.v
theories/Cg_ULCCD.v
theories/Cg_ULCCSD.v
theories/Cg_UMP2.v
theories/Cg_UMP3.v
theories/Cg_UQCISD.v
theories/Cg_UecCC.v
theories/CgAll.v
theories/CgAllRun.v
theories/CgEx.v
theories/CgProps.v
theories/CgRot.v
theories/CgAllRot.v
theories/CgFormSpec.v
theories/CgPoly.v
theories/CgPolyProofs.v
theories/CgPolyDom.v
theories/CgCompare.v
theories/CgCompareProofs.v
theories/CgBuild.v
theories/CgTables.v
theories/CgPairs.v
theories/CgAgree.v
theories/CgAgreeEx.v
theories/CgAgreeProps.v
theories/CgOwn.v
theories/CgRename.v
theories/CgTables2.v
theories/CgTextbook.v
theories/CgPairs2.v
theories/CgAgree2.v
theories/CgAgree2Ex.v
theories/CgAgree2Props.v
theories/CgRelSpec.v
theories/CgRel.v
theories/CgRelProofs.v
theories/CgLagSpec.v
theories/CgLag.v
theories/CgLagEx.v
theories/CgLagProps.v
theories/CgPartSpec.v
theories/CgPart.v
theories/CgPartPairs.v
theories/CgPartThms.v
theories/CgPartEx.v
theories/CgPartProps.v
theories/CgDelta.v
theories/CgDensTables.v
theories/CgDensSpec.v
theories/CgDensPairs.v
theories/CgDens.v
theories/CgDensThms.v
theories/CgDensEx.v
theories/CgDensProps.v
theories/CgOrderSpec.v
theories/CgOrder.v
theories/ConvModel.v
theories/ConvSpec.v
theories/ConvProofs.v
theories/ConvThms.v
theories/ConvNames.v
theories/ConvRes.v
theories/ConvGen.v
theories/ConvAgree.v
theories/ConvTotal.v
theories/ConvExist.v
theories/ConvEx.v
theories/ConvProps.v
theories/CgChainSpec.v
theories/CgChain.v
theories/CgEomSpec.v
theories/CgEomPairs.v
theories/CgEom.v
theories/CgEomThms.v
theories/CgEomEx.v
theories/CgEomProps.v
theories/CgExpSpec.v
theories/CgExp.v
theories/CgExpEx.v
theories/CgExpProps.v
theories/FciConvModel.v
theories/FciConv1.v
theories/FciConv2.v
theories/FciConvSpec.v
theories/FciConv3.v
theories/FciConvSwap.v
theories/FciConv4.v
theories/FciConv5.v
theories/FciConvEx.v
theories/FciConvProps.v
theories/FciConvR.v
theories/FciConv6.v
theories/FciConv7.v
theories/HelpProofs.v
theories/HelpProps.v
theories/CgSlice.v
theories/CgEcSpec.v
theories/CgEc.v
theories/CgEcEx.v
theories/CgEcProps.v
theories/CcMerge.v
theories/AnsatzKind.v
theories/DavPre.v
