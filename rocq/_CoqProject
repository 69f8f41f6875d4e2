-Q theories Verif
theories/GoBase.v
theories/Out.v
theories/Json.v
theories/GroupIface.v
theories/Vector.v
theories/BIP.v
theories/BP.v
theories/MultiBP.v
theories/MultiPrint.v
theories/VoteProof.v
theories/ModP.v
theories/App.v
theories/ECJson.v
theories/P256k1.v
theories/Curve.v
theories/Marshal.v
theories/NumTh.v
theories/Alg.v
theories/VectorProofs.v
theories/BIPProofs.v
theories/BPProofs.v
theories/SetupProofs.v
theories/BytesProofs.v
theories/Toy.v
theories/ModPProofs.v
theories/Hom.v
theories/PropBP.v
theories/PropIP.v
theories/PropVec.v
theories/PropVote.v
theories/Roots.v
theories/PropMulti.v
theories/PropModP.v
theories/PropApp.v
theories/PropEC.v
theories/PropCurve.v
theories/PropJson.v
theories/PropRead.v
theories/Heap.v
theories/PropZK.v
theories/PropHeap.v
theories/PropKS.v
theories/Groups.v
theories/PropTransport.v
theories/PropMall.v
theories/PropGen.v
theories/Mulw.v
theories/Primes.v
theories/PropModSound.v
theories/Mixed.v
theories/PropMixed.v
theories/PropNew.v
theories/Pres.v
theories/PropK1.v
theories/Main.v
theories/PropMain.v
theories/PrimeCerts.v
theories/PropPrime.v
theories/Imp.v
theories/ImpProofs.v
theories/ImpFuns.v
theories/ImpBP.v
theories/ImpMulti.v
theories/ImpMultiProofs.v
theories/PropImp.v
theories/ImpVote.v
theories/ImpVoteProofs.v
theories/PropImpVote.v
theories/ImpJson.v
theories/ImpJsonProofs.v
theories/PropJsonRead.v
theories/PropJsonWrite.v
theories/PropImpJson.v
theories/Wire.v
theories/WireSpec.v
theories/WireProofs.v
theories/WirePrint.v
theories/PropWire.v
theories/PropAbort.v
theories/PropMultiVerify.v
theories/PropMultiPrint.v
theories/Fork.v
theories/PropFork.v
theories/PropMultiZK.v
theories/PropPrivacy.v
theories/PropCopy.v
theories/ECLaw.v
theories/ECPoints.v
theories/ECOrder.v
theories/ECStd.v
theories/ECCert.v
theories/FieldCerts.v
theories/FieldCerts384.v
theories/OrderCerts.v
theories/OrderCerts384.v
theories/PropECLaw.v
theories/PropK1Sound.v
theories/PropDeaf.v
theories/EdLaw.v
theories/EdPoints.v
theories/EdField.v
theories/EdCert.v
theories/EdChain.v
theories/PropRist.v
theories/PropReplay.v
theories/PropTally.v
theories/PropStrict.v
theories/PropChal.v
theories/PropRun.v
theories/NilScale.v
theories/PropNil.v
theories/PropCases.v
theories/PropUnif.v
theories/Limit.v
theories/PropLimit.v
theories/PropDDH.v
theories/PropTallyU.v
theories/PropShift.v
theories/PropShiftK1.v
theories/PropShiftM.v
theories/PropBlind.v
theories/PropBlindK1.v
