-Q theories Verif
theories/Base.v
theories/Memory.v
theories/Serial.v
theories/Packets.v
theories/Session.v
theories/Scanner.v
theories/Transport.v
theories/Threads.v
theories/Tests.v
theories/Tests2.v
theories/Spec.v
theories/Vocab.v
theories/PBase.v
theories/PMem.v
theories/PDec.v
theories/PPack.v
theories/PPack2.v
theories/PEnc.v
theories/PBuf.v
theories/PStream.v
theories/PCodec.v
theories/PCodec2.v
theories/PCodec3.v
theories/Vocab2.v
theories/PSend.v
theories/PSession.v
theories/PSession2.v
theories/PSession3.v
theories/PSend2.v
theories/PWitness.v
theories/PBare.v
theories/PropsCodec.v
theories/Vocab3.v
theories/PMemory.v
theories/PKeeps.v
theories/PWitness2.v
theories/PropsMemory.v
theories/Vocab4.v
theories/PHistory.v
theories/PHistory2.v
theories/PSession4.v
theories/PWitness3.v
theories/PropsSession.v
theories/Vocab5.v
theories/PScan.v
theories/PIo.v
theories/PThreads.v
theories/PTransport.v
theories/PGeneric.v
theories/PWitness4.v
theories/PIo2.v
theories/PWitness5.v
theories/PropsIO.v
theories/Vocab6.v
theories/PLeak.v
theories/PRaise.v
theories/PMore.v
theories/PropsMore.v
theories/Vocab7.v
theories/PTarget.v
theories/PLen.v
theories/PropsTarget.v
theories/Objects.v
theories/Vocab8.v
theories/PObjects.v
theories/PAlias.v
theories/PWitness6.v
theories/PropsObjects.v
theories/PAssign.v
theories/PropsAssign.v
theories/Procs.v
theories/Vocab9.v
theories/PProcs.v
theories/PLocal.v
theories/PLocal2.v
theories/PTurns.v
theories/PTurns2.v
theories/PWitness7.v
theories/PropsThreads.v
theories/Vocab10.v
theories/PRest.v
theories/PropsRest.v
theories/Net.v
theories/Vocab11.v
theories/PNet.v
theories/PropsNet.v
theories/Log.v
theories/Vocab12.v
theories/PLog.v
theories/PLog2.v
theories/PLog3.v
theories/PLog4.v
theories/PropsLog.v
theories/Refs.v
theories/Vocab13.v
theories/PRefs.v
theories/PropsRefs.v
theories/Types.v
theories/Vocab14.v
theories/PTypes.v
theories/PropsTypes.v
theories/Life.v
theories/Vocab15.v
theories/PLife.v
theories/PLife2.v
theories/PropsLife.v
theories/Cuts.v
theories/Vocab16.v
theories/PCuts.v
theories/PCuts2.v
theories/PropsCuts.v
theories/Fresh.v
theories/Vocab17.v
theories/PFresh.v
theories/PFresh2.v
theories/PFresh3.v
theories/PropsFresh.v
theories/Vocab18.v
theories/PAsk.v
theories/PAsk2.v
theories/PropsAsk.v
theories/PMany.v
theories/PropsMany.v
theories/Vocab19.v
theories/PMachine.v
theories/PropsMachine.v
theories/Vocab20.v
theories/PShare.v
theories/PropsShare.v
theories/Random.v
theories/PRandom.v
theories/PropsRandom.v
theories/Endian.v
theories/Vocab21.v
theories/PEndian.v
theories/PropsEndian.v
theories/Vocab22.v
theories/PWhole.v
theories/PropsWhole.v
theories/Vocab23.v
theories/PPlant.v
theories/PropsPlant.v
theories/Owners.v
theories/Vocab24.v
theories/POwners.v
theories/PropsOwners.v
theories/Vocab25.v
theories/PIds.v
theories/PropsIds.v
theories/Vocab26.v
theories/PGuests.v
theories/PropsGuests.v
theories/Fresh2.v
theories/PFresh4.v
theories/PFresh5.v
theories/PropsFresh2.v
theories/Vocab27.v
theories/PLinear.v
theories/PropsLinear.v
theories/Vocab28.v
theories/PScanLog.v
theories/PropsScanLog.v
theories/Tower.v
theories/Vocab29.v
theories/PTower.v
theories/PropsTower.v
theories/Vocab30.v
theories/PMixed.v
theories/PropsMixed.v
theories/Vocab31.v
theories/PSays.v
theories/PropsSays.v
theories/Scarce.v
theories/Vocab32.v
theories/PScarce.v
theories/PropsScarce.v
theories/Copies.v
theories/Vocab33.v
theories/PCopies.v
theories/PropsCopies.v
theories/Vocab34.v
theories/PSent.v
theories/PropsSent.v
theories/Strict.v
theories/Vocab35.v
theories/PStrict.v
theories/PropsStrict.v
theories/StrictOut.v
theories/Vocab36.v
theories/PStrictOut.v
theories/PropsStrictOut.v
theories/Vocab37.v
theories/PPipe.v
theories/PropsPipe.v
theories/Descr.v
theories/Vocab38.v
theories/PDescr.v
theories/PropsDescr.v
theories/Width.v
theories/Vocab39.v
theories/PWidth.v
theories/PropsWidth.v
theories/ScanNet.v
theories/Vocab40.v
theories/PScanNet.v
theories/PropsScanNet.v
theories/ScanFrom.v
theories/PScanFrom.v
theories/PropsScanFrom.v
