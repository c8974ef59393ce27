-Q theories Verif
theories/Bytes.v
theories/XdrLib.v
theories/Types.v
theories/Interp.v
theories/Spec.v
theories/Prim.v
theories/Meta.v
theories/Enc.v
theories/Dec.v
theories/Total.v
theories/Canon.v
theories/Local.v
theories/Runs.v
theories/Check.v
theories/Codec.v
theories/Codec2.v
theories/Alloc.v
theories/PrimProps.v
theories/Codec3.v
theories/Codec4.v
theories/Codec5.v
theories/Ex.v
theories/P_Prim.v
theories/RpcTypes.v
theories/RpcSpec.v
theories/Inv.v
theories/RpcWire.v
theories/RpcDec.v
theories/Io.v
theories/Client.v
theories/P_Codec.v
theories/CallSpec.v
theories/ClientP.v
theories/ExRpc.v
theories/ClientQ.v
theories/P_Client.v
theories/Server.v
theories/ServSpec.v
theories/ServerP.v
theories/ServerQ.v
theories/ServerX.v
theories/ServerEx.v
theories/P_Server.v
theories/E2E.v
theories/CliConc.v
theories/CliEx.v
theories/P_E2E.v
theories/Heap.v
theories/HeapP.v
theories/HeapX.v
theories/HeapS.v
theories/HeapQ.v
theories/P_Heap.v
theories/Conc.v
theories/ConcP.v
theories/ConcQ.v
theories/ConcR.v
theories/ConcEx.v
theories/P_Conc.v
theories/RepoText.v
theories/GoLex.v
theories/XLex.v
theories/Gram.v
theories/GParse.v
theories/GParseP.v
theories/GLexP.v
theories/Emit.v
theories/GEmitP.v
theories/GSync.v
theories/P_Gen.v
theories/FileSys.v
theories/FileSysP.v
theories/FileSysEx.v
theories/P_Files.v
theories/GoAst.v
theories/GoSem.v
theories/GElab.v
theories/GSimA.v
theories/GSimB.v
theories/GSimC.v
theories/GoSemP.v
theories/GSimD.v
theories/GenCommitted.v
theories/P_GenSem.v
theories/GoCst.v
theories/GoCstP.v
theories/GLexQ.v
theories/GoText.v
theories/GoTop.v
theories/GoRes.v
theories/GoPkg.v
theories/GoWf.v
theories/GoMono.v
theories/GenText.v
theories/NestA.v
theories/NestB.v
theories/NestC.v
theories/NestD.v
theories/NestE.v
theories/NestF.v
theories/NestG.v
theories/NestT.v
theories/P_Nest.v
theories/P_GenText.v
theories/GoStub.v
theories/GenStub.v
theories/P_GenStub.v
theories/GoType.v
theories/GoTypeS.v
theories/GoTypeP.v
theories/GoTypeQ.v
theories/GoTypeG.v
theories/GoTypeX.v
theories/P_GoType.v
theories/GoCap.v
theories/P_Caps.v
theories/GenFuzz.v
theories/P_GenFuzz.v
theories/E2EGen.v
theories/P_E2EGen.v
theories/ServerL.v
theories/ConcL.v
theories/ConcM.v
theories/P_ConcL.v
theories/XdrTypes.v
theories/P_XdrTypes.v
theories/Net.v
theories/NetP.v
theories/NetQ.v
theories/NetR.v
theories/NetL.v
theories/NetEx.v
theories/P_Net.v
theories/ReplySpec.v
theories/ReplyP.v
theories/ReplyQ.v
theories/ReplyEx.v
theories/P_Reply.v
theories/Prog.v
theories/ProgP.v
theories/ExProg.v
theories/ExProgP.v
theories/ExProgX.v
theories/P_Prog.v
theories/SrcAst.v
theories/SrcText.v
theories/SrcProg.v
theories/SrcTextP.v
theories/SrcSem.v
theories/SrcLib.v
theories/SrcLibB.v
theories/SrcLibC.v
theories/P_Src.v
theories/SrcRpc.v
theories/SrcMsg.v
theories/SrcCli.v
theories/SrcCliB.v
theories/SrcEnv.v
theories/P_SrcRpc.v
theories/SrcReg.v
theories/SrcSrv.v
theories/SrcSrvB.v
theories/SrcRun.v
theories/SrcSrvE.v
theories/P_SrcSrv.v
theories/MainAst.v
theories/MainText.v
theories/MainProg.v
theories/MainTextP.v
theories/MainSem.v
theories/MainOut.v
theories/MainEmit.v
theories/MainGen.v
theories/MainScan.v
theories/P_MainOut.v
theories/YaccAst.v
theories/YaccProg.v
theories/YaccTextP.v
theories/YaccSem.v
theories/YaccLR.v
theories/YaccTab.v
theories/YaccLRP.v
theories/YaccParse.v
theories/P_Yacc.v
theories/YaccRun.v
theories/MainRun.v
theories/P_MainRun.v
theories/P_YaccRun.v
theories/ExText.v
theories/ExTree.v
theories/ExTextP.v
theories/ExSem.v
theories/ExRun.v
theories/ExRunC.v
theories/ExRunS.v
theories/ExRunP.v
theories/P_ExRun.v
theories/GoSemH.v
theories/GoSemHP.v
theories/GoSemHM.v
theories/GoFit.v
theories/FlatT.v
theories/MsgText.v
theories/MsgTextE.v
theories/P_GoSemH.v
theories/GSimK.v
theories/GSimH.v
theories/SliceText.v
theories/SliceTextE.v
theories/P_SliceText.v
theories/TextE2E.v
theories/TextE2EX.v
theories/P_TextE2E.v
theories/TestText.v
theories/TestAst.v
theories/TestTree.v
theories/TestP.v
theories/TestQ.v
theories/P_Tests.v
theories/NumLit.v
theories/NumLitC.v
theories/NumLitX.v
theories/P_NumLit.v
theories/MakeText.v
theories/Make.v
theories/P_Make.v
