-Q theories Verif
theories/Base.v
theories/Utils.v
theories/Ber.v
theories/Asn1.v
theories/OidText.v
theories/SpecUtils.v
theories/PrfBase.v
theories/PrfSub.v
theories/PrfBer.v
theories/SpecBer.v
theories/SpecAsn1.v
theories/PrfSim.v
theories/PrfBerSpec.v
theories/PrfAsn1.v
theories/PrfOid.v
theories/PrfUtils.v
theories/PrfCodec.v
theories/PropertiesCodec.v
theories/Pdu.v
theories/Msg.v
theories/MsgV3.v
theories/UsmParams.v
theories/SpecPdu.v
theories/SpecMsg.v
theories/PrfDec.v
theories/PrfPdu.v
theories/PrfPduDec.v
theories/PrfMsg.v
theories/PrfParams.v
theories/PrfMsgDec.v
theories/PrfMsgProps.v
theories/PropertiesMsg.v
theories/TimeKeeper.v
theories/Crypto.v
theories/Users.v
theories/Usm.v
theories/SpecUsers.v
theories/SpecUsm.v
theories/PrfDict.v
theories/PrfTime.v
theories/PrfUsers.v
theories/PrfCrypto.v
theories/PrfUsm.v
theories/PrfUsmProps.v
theories/PropertiesUsm.v
theories/Processor.v
theories/ProcConc.v
theories/SpecProc.v
theories/PrfCache.v
theories/PrfProcConc.v
theories/PrfProcRace.v
theories/Dispatcher.v
theories/PrfProc.v
theories/PropertiesProc.v
theories/Heap.v
theories/PrfHeap.v
theories/Sched.v
theories/ManagerV1.v
theories/PrfEnc.v
theories/PrfMgr1.v
theories/PrfMgr1b.v
theories/PrfMgr1c.v
theories/PropertiesMgr.v
theories/SpecMgr3.v
theories/ManagerV3.v
theories/PrfMgr3.v
theories/PrfMgr3a.v
theories/PrfMgr3b.v
theories/PrfMgr3c.v
theories/PrfMgr3d.v
theories/PrfMgr3e.v
theories/PrfMgr3f.v
theories/PrfMgr3g.v
theories/PrfMgr3h.v
theories/PrfMgr3i.v
theories/PropertiesMgr3.v
theories/Transport.v
theories/SpecTrans.v
theories/PrfTrans.v
theories/PrfTrans2.v
theories/PrfTrans3.v
theories/PropertiesTrans.v
theories/Engine.v
theories/SpecEngine.v
theories/PrfEngine.v
theories/PrfEngine2.v
theories/PrfEngine3.v
theories/PrfEngine4.v
theories/PropertiesEngine.v
theories/SpecWire.v
theories/PrfWire.v
theories/PrfWire2.v
theories/PrfWire3.v
theories/PropertiesWire.v
theories/PrfMgr1d.v
theories/SpecApi.v
theories/PrfMgr1e.v
theories/Api.v
theories/PrfApi.v
theories/PrfMgr1f.v
theories/PrfAgree.v
theories/PropertiesApi.v
theories/PrfNet.v
theories/PrfMgr1g.v
theories/PropertiesWait.v
theories/PropertiesEq.v
theories/SpecReg.v
theories/PrfReg.v
theories/PrfReg2.v
theories/PropertiesReg.v
theories/Api3.v
theories/SpecUse.v
theories/PrfUse.v
theories/PrfUse2.v
theories/PropertiesUse.v
theories/PrfHear.v
theories/PrfHear2.v
theories/PropertiesHear.v
theories/PrfOpen.v
theories/PrfOpen2.v
theories/SpecAnswer.v
theories/PrfSeq3.v
theories/PrfAnswer.v
theories/PrfState.v
theories/PropertiesAnswer.v
theories/RegConc.v
theories/SpecRegConc.v
theories/PropertiesRegConc.v
theories/PropertiesReport.v
theories/PropertiesOnce.v
theories/Repr.v
theories/PrfRepr.v
theories/SpecRepr.v
theories/PropertiesRepr.v
theories/PropertiesNet.v
theories/PrfNet3.v
theories/PrfLost3.v
theories/PropertiesNet3.v
theories/Envelope.v
theories/SpecPriv.v
theories/PrfPriv.v
theories/PropertiesPriv.v
theories/PrfTimeout.v
theories/PrfLeak1.v
theories/PrfLeak3.v
theories/LeakConc.v
theories/SpecLeak.v
theories/PrfLeakC.v
theories/PropertiesLeak.v
theories/SpecFail.v
theories/PrfFail1.v
theories/PrfFail2.v
theories/PropertiesFail.v
theories/SpecDefaults.v
theories/PrfDefaults.v
theories/PropertiesDefaults.v
theories/PrfShare.v
theories/PropertiesShare.v
theories/SpecSync.v
theories/PrfSync.v
theories/PrfSync2.v
theories/PropertiesSync.v
theories/SpecHeal.v
theories/PropertiesHeal.v
theories/PrfSeq4.v
theories/SpecCold.v
theories/PropertiesCold.v
theories/PropertiesContact.v
