-Q theories Verif
theories/Fermat.v
theories/FastMod.v
theories/Pocklington.v
theories/Primes.v
theories/ZpField.v
theories/ECGroup.v
theories/ECOrder.v
theories/NoRoot.v
theories/ECCert.v
theories/CurveParams.v
theories/Cert_secp256r1.v
theories/Cert_bn254.v
theories/CurveFacts.v
theories/Outcome.v
theories/FieldModel.v
theories/SpecField.v
theories/FieldProofs.v
theories/Prop_Field.v
theories/EccModel.v
theories/SpecEcc.v
theories/EccProofs.v
theories/EccThms.v
theories/EccThms2.v
theories/Prop_Ecc.v
theories/Emb.v
theories/Poly.v
theories/ShamirModel.v
theories/SpecShamir.v
theories/ShamirProofs.v
theories/ShamirProofs2.v
theories/Prop_Shamir.v
theories/RF.v
theories/DmeModel.v
theories/SpecDme.v
theories/DmeProofs.v
theories/DmeProofs2.v
theories/Prop_Dme.v
theories/OtModel.v
theories/SpecOt.v
theories/OtProofs.v
theories/OtProofs2.v
theories/Prop_Ot.v
theories/PudaModel.v
theories/SpecPuda.v
theories/PudaProofs.v
theories/Prop_Puda.v
theories/SpecPuda2.v
theories/PudaProofs2.v
theories/Prop_Puda2.v
theories/SpecPuda3.v
theories/PudaProofs3.v
theories/Prop_Puda3.v
theories/CrcTables.v
theories/CrcModel.v
theories/SpecCrc.v
theories/CrcProofs.v
theories/CrcProofs2.v
theories/CrcProofs3.v
theories/CrcProofs4.v
theories/Prop_Crc.v
theories/AesModel.v
theories/SpecAes.v
theories/AesProofs.v
theories/AesProofs2.v
theories/Prop_Aes.v
theories/OpprfModel.v
theories/SpecOpprf.v
theories/OpprfProofs.v
theories/OpprfProofs2.v
theories/OpprfProofs3.v
theories/OpprfProofs4.v
theories/OpprfCase.v
theories/Prop_Opprf.v
theories/SpecOpprf2.v
theories/OpprfProofs5.v
theories/OpprfProofs6.v
theories/OpprfProofs7.v
theories/OpprfProofs8.v
theories/OpprfCase2.v
theories/Prop_Opprf2.v
theories/SpecOpprf3.v
theories/OpprfProofs9.v
theories/OpprfCase3.v
theories/Prop_Opprf3.v
theories/SpecOpprf4.v
theories/OpprfProofs10.v
theories/OpprfCase4.v
theories/Prop_Opprf4.v
theories/SpecOpprf5.v
theories/AesProofs3.v
theories/OpprfProofs11.v
theories/OpprfProofs12.v
theories/OpprfCase5.v
theories/Prop_Opprf5.v
theories/ElgamalModel.v
theories/SpecElgamal.v
theories/ElgamalProofs.v
theories/Prop_Elgamal.v
theories/SpecElgamal2.v
theories/ElgamalProofs2.v
theories/Prop_Elgamal2.v
theories/OwnModel.v
theories/SpecOwn.v
theories/OwnProofs.v
theories/Prop_Own.v
theories/RngModel.v
theories/SpecRng.v
theories/RngProofs.v
theories/Prop_Rng.v
theories/TextModel.v
theories/SpecText.v
theories/TextProofs.v
theories/TextProofs2.v
theories/Prop_Text.v
theories/TraceModel.v
theories/SpecTrace.v
theories/TraceProofs.v
theories/Prop_Trace.v
theories/TestModel.v
theories/TestCert.v
theories/TestProofs.v
theories/SpecDraw.v
theories/DrawProofs.v
theories/Prop_Draw.v
theories/HistModel.v
theories/SpecHist.v
theories/HistProofs.v
theories/Prop_Hist.v
theories/HeapModel.v
theories/SpecHeap.v
theories/HeapProofs.v
theories/HeapProofs2.v
theories/Prop_Heap.v
theories/SpecTest.v
theories/TestProofs2.v
theories/TestProofs3.v
theories/Prop_Test.v
theories/SpecErase.v
theories/EraseProofs.v
theories/Prop_Erase.v
theories/TraceModel2.v
theories/SpecTrace2.v
theories/TraceProofs2.v
theories/Prop_Trace2.v
theories/SpecTrace3.v
theories/TraceProofs3.v
theories/Prop_Trace3.v
theories/CounterModel.v
theories/CounterProofs.v
theories/Prop_Counter.v
theories/Kat.v
theories/OffMath.v
theories/SpecOff.v
theories/OffProofs.v
theories/OffProofs2.v
theories/Prop_Off.v
theories/SpecOpprf6.v
theories/OpprfProofs13.v
theories/OpprfProofs14.v
theories/OpprfProofs15.v
theories/OpprfCase6.v
theories/Prop_Opprf6.v
theories/SpecCount.v
theories/CountMath.v
theories/CountProofs.v
theories/Prop_Count.v
theories/SpecDdh.v
theories/DdhProofs.v
theories/DdhProofs2.v
theories/DdhProofs3.v
theories/DdhCases.v
theories/Prop_Ddh.v
theories/SpecDdh2.v
theories/DdhMany.v
theories/DdhMany2.v
theories/DdhCases2.v
theories/Prop_Ddh2.v
theories/SpecDdh3.v
theories/DdhServe.v
theories/DdhServeCase.v
theories/Prop_Ddh3.v
theories/SpecDdh4.v
theories/DdhHear.v
theories/DdhHear2.v
theories/DdhHear3.v
theories/DdhHear4.v
theories/DdhHear5.v
theories/DdhHear6.v
theories/DdhHearCase.v
theories/Prop_Ddh4.v
theories/SpecPair.v
theories/PairMath.v
theories/PairProofs.v
theories/Prop_Pair.v
theories/Aes128.v
theories/SpecAes2.v
theories/Aes128Proofs.v
theories/Aes128Proofs2.v
theories/Prop_Aes2.v
theories/SpecHd.v
theories/HdMath.v
theories/HdMath2.v
theories/HdProofs.v
theories/HdProofs2.v
theories/Prop_Hd.v
theories/SpecDdh5.v
theories/DdhChoose.v
theories/DdhChooseCase.v
theories/Prop_Ddh5.v
theories/SpecDdh6.v
theories/DdhWire.v
theories/DdhWire2.v
theories/DdhWire3.v
theories/DdhWireCase.v
theories/Prop_Ddh6.v
theories/SpecCheat.v
theories/CheatProofs.v
theories/CheatProofs2.v
theories/CheatProofs3.v
theories/CheatCase.v
theories/Prop_Cheat.v
theories/SpecTrick.v
theories/TrickRoots.v
theories/TrickMath.v
theories/TrickProofs.v
theories/TrickProofs2.v
theories/TrickCase.v
theories/Prop_Trick.v
theories/SpecIdeal.v
theories/IdealProofs.v
theories/IdealProofs2.v
theories/IdealCase.v
theories/Prop_Ideal.v
theories/SpecSend.v
theories/SendProofs.v
theories/SendProofs2.v
theories/Prop_Send.v
theories/SpecClient.v
theories/ClientMath.v
theories/ClientProofs.v
theories/ClientProofs2.v
theories/ClientProofs3.v
theories/ClientProofs4.v
theories/ClientCase.v
theories/Prop_Client.v
theories/ClientProofs5.v
theories/ClientCase2.v
theories/Prop_Client2.v
theories/ComposeProofs.v
theories/ComposeCase.v
theories/Prop_Compose.v
theories/SpecClient2.v
theories/ClientProofs6.v
theories/ClientCase3.v
theories/Prop_Client3.v
theories/SpecDot.v
theories/DotProofs.v
theories/DotProofs2.v
theories/DotCase.v
theories/Prop_Dot.v
theories/SpecDot2.v
theories/DotProofs3.v
theories/DotCase2.v
theories/Prop_Dot2.v
theories/DotProofs4.v
theories/Prop_Dot3.v
theories/DoubleProofs.v
theories/Prop_Double.v
