-Q theories Verif
theories/Base/Go.v
theories/Base/GoFacts.v
theories/Base/IO.v
theories/Base/Float64.v
theories/Proofs/Float64.v
theories/Model/AmfTypes.v
theories/Model/Amf3.v
theories/Model/Amf0.v
theories/Model/Metadata.v
theories/Spec/Amf.v
theories/Proofs/IOFacts.v
theories/Proofs/AmfFacts.v
theories/Proofs/Amf0Enc.v
theories/Proofs/Amf0RT.v
theories/Proofs/AmfTerm.v
theories/Proofs/AmfTame.v
theories/Proofs/AmfWith.v
theories/Proofs/Amf0More.v
theories/Proofs/Amf0Sim.v
theories/Proofs/AmfHeap.v
theories/Proofs/Amf0Fin.v
theories/Props/Amf0.v
theories/Props/AmfSource.v
theories/Proofs/Amf3Enc.v
theories/Proofs/Amf3RT.v
theories/Proofs/Amf3More.v
theories/Props/Amf3.v
theories/Proofs/Metadata.v
theories/Props/Metadata.v
theories/Model/Packet.v
theories/Model/Gop.v
theories/Model/Flv.v
theories/Spec/Gop.v
theories/Spec/Flv.v
theories/Proofs/Gop.v
theories/Props/Gop.v
theories/Model/GopPtr.v
theories/Spec/GopPtr.v
theories/Proofs/GopPtr.v
theories/Props/GopPtr.v
theories/Model/GopLive.v
theories/Spec/GopLive.v
theories/Proofs/GopLive.v
theories/Props/GopLive.v
theories/Proofs/Flv.v
theories/Props/Flv.v
theories/Model/Parsers.v
theories/Spec/Parsers.v
theories/Proofs/Parsers.v
theories/Props/Parsers.v
theories/Model/Crc32.v
theories/Spec/Crc32.v
theories/Proofs/Crc32.v
theories/Props/Crc32.v
theories/Model/Ts.v
theories/Spec/Ts.v
theories/Proofs/TsPackets.v
theories/Proofs/TsTables.v
theories/Proofs/TsMore.v
theories/Props/Ts.v
theories/Props/TsMixer.v
theories/Base/Text.v
theories/Proofs/Text.v
theories/Model/Sip.v
theories/Model/SipShare.v
theories/Model/SipSrc.v
theories/Spec/Sip.v
theories/Spec/SipShare.v
theories/Proofs/Sip.v
theories/Proofs/SipMsg.v
theories/Proofs/SipRead.v
theories/Proofs/SipText.v
theories/Proofs/SipParse.v
theories/Proofs/SipMore.v
theories/Proofs/SipHeaders.v
theories/Proofs/SipArgs.v
theories/Props/Sip.v
theories/Props/SipCseq.v
theories/Proofs/SipFields.v
theories/Proofs/SipShare.v
theories/Proofs/SipSrc.v
theories/Props/SipMsg.v
theories/Props/SipStream.v
theories/Props/SipShare.v
theories/Props/SipArgs.v
theories/Props/SipSrc.v
theories/Conform/Media.v
theories/Conform/Amf.v
theories/Conform/Sip.v
theories/Model/TsAlias.v
theories/Spec/TsAlias.v
theories/Proofs/TsAlias.v
theories/Proofs/TsShare.v
theories/Props/TsAlias.v
theories/Conform/Alias.v
theories/Model/Amf3Ext.v
theories/Proofs/Amf3Ext.v
theories/Props/Amf3Ext.v
theories/Spec/AmfDoc.v
theories/Proofs/Amf0Doc.v
theories/Proofs/AmfContr.v
theories/Proofs/AmfKeep.v
theories/Proofs/AmfNoPanic.v
theories/Proofs/Amf0Acc.v
theories/Proofs/Amf0Panic.v
theories/Proofs/Amf0Ref.v
theories/Proofs/Amf0Spec.v
theories/Props/AmfDoc.v
theories/Props/AmfRefs.v
theories/Spec/Amf3Doc.v
theories/Proofs/Amf3Doc.v
theories/Proofs/Amf3Acc.v
theories/Proofs/Amf3Spec.v
theories/Props/Amf3Doc.v
theories/Props/Fan.v
theories/Props/Remux.v
theories/Spec/Amf3Ref.v
theories/Proofs/Amf3Ref.v
theories/Proofs/Amf3RefAcc.v
theories/Proofs/Amf3Common.v
theories/Props/Amf3Ref.v
theories/Props/Serve.v
theories/Props/ServeTs.v
theories/Spec/SipLine.v
theories/Proofs/SipLine.v
theories/Props/SipLine.v
theories/Spec/SipAddr.v
theories/Proofs/SipAddr.v
theories/Props/SipAddr.v
theories/Spec/SipParams.v
theories/Proofs/SipParams.v
theories/Props/SipParams.v
theories/Spec/SipWhole.v
theories/Proofs/SipWhole.v
theories/Props/SipWhole.v
theories/Props/SipCompact.v
theories/Spec/Pes.v
theories/Proofs/Pes.v
theories/Props/Pes.v
theories/Model/AmfAlloc.v
theories/Spec/AmfAlloc.v
theories/Proofs/AmfAlloc.v
theories/Proofs/AmfAllocLow.v
theories/Props/AmfAlloc.v
theories/Model/Float32.v
theories/Spec/Float32.v
theories/Proofs/Float32.v
theories/Props/Float32.v
theories/Spec/TsClock.v
theories/Spec/Mixer.v
theories/Props/TsClock.v
theories/Spec/AmfCut.v
theories/Proofs/AmfCut.v
theories/Props/AmfCut.v
theories/Spec/AmfAll.v
theories/Proofs/AmfAll.v
theories/Props/AmfAll.v
theories/Spec/AmfVal.v
theories/Proofs/AmfVal.v
theories/Proofs/AmfCycle.v
theories/Props/AmfVal.v
theories/Spec/AmfPad.v
theories/Proofs/AmfPad.v
theories/Props/AmfPad.v
theories/Props/TsGaps.v
theories/Model/Relay.v
theories/Spec/Relay.v
theories/Proofs/Relay.v
theories/Props/Relay.v
theories/Props/Recording.v
theories/Props/RelayTs.v
theories/Spec/AmfTrunc.v
theories/Proofs/AmfTrunc.v
theories/Props/AmfTrunc.v
theories/Props/AmfStable.v
theories/Spec/Amf3Trunc.v
theories/Proofs/Amf3Trunc.v
theories/Proofs/Amf3Pieces.v
theories/Props/Amf3Trunc.v
theories/Spec/H264.v
theories/Props/H264.v
theories/Spec/Codec.v
theories/Props/Codec.v
theories/Spec/Player.v
theories/Props/Player.v
theories/Spec/Pcr.v
theories/Props/TsPcr.v
theories/Props/Mixer.v
theories/Spec/Command.v
theories/Props/Command.v
theories/Spec/AmfRaw.v
theories/Props/AmfRaw.v
theories/Spec/FlvMixer.v
theories/Props/FlvMixer.v
theories/Spec/AmfRaw3.v
theories/Props/AmfRaw3.v
theories/Spec/Amf3Cut.v
theories/Proofs/Amf3Cut.v
theories/Props/Amf3Cut.v
theories/Spec/SipAgain.v
theories/Proofs/SipAgain.v
theories/Props/SipAgain.v
theories/Spec/SipBytes.v
theories/Proofs/SipBytes.v
theories/Props/SipBytes.v
theories/Spec/FlvWriters.v
theories/Props/FlvWriters.v
theories/Spec/TsWriters.v
theories/Props/TsWriters.v
theories/Props/SipReply.v
theories/Spec/SipHops.v
theories/Props/SipHops.v
theories/Spec/SipNames.v
theories/Proofs/SipNames.v
theories/Props/SipNames.v
theories/Spec/SipUtf8.v
theories/Proofs/SipUtf8.v
theories/Props/SipUtf8.v
theories/Spec/Nearest.v
theories/Proofs/Nearest.v
theories/Props/Nearest.v
theories/Spec/SipQuote.v
theories/Proofs/SipQuote.v
theories/Props/SipQuote.v
theories/Spec/SipBreaks.v
theories/Proofs/SipBreaks.v
theories/Props/SipBreaks.v
theories/Spec/SipMany.v
theories/Proofs/SipMany.v
theories/Props/SipMany.v
theories/Spec/FlvTag.v
theories/Proofs/FlvTag.v
theories/Props/FlvTag.v
theories/Spec/AmfFail.v
theories/Proofs/AmfFail.v
theories/Props/AmfFail.v
theories/Model/SipMaps.v
theories/Spec/SipMaps.v
theories/Proofs/SipMaps.v
theories/Props/SipMaps.v
theories/Spec/SipBuilt.v
theories/Proofs/SipBuilt.v
theories/Props/SipBuilt.v
theories/Spec/SipPipe.v
theories/Proofs/SipPipe.v
theories/Props/SipPipe.v
theories/Spec/TsSize.v
theories/Proofs/TsSize.v
theories/Props/TsSize.v
theories/Spec/AnnexB.v
theories/Proofs/AnnexB.v
theories/Props/AnnexB.v
theories/Props/MetaFlow.v
theories/Spec/AmfAgain.v
theories/Proofs/AmfAgain.v
theories/Props/AmfAgain.v
theories/Spec/TsLoss.v
theories/Proofs/TsLoss.v
theories/Props/TsLoss.v
theories/Spec/AdtsStream.v
theories/Props/AdtsStream.v
theories/Spec/Amf3Again.v
theories/Proofs/Amf3Again.v
theories/Proofs/AmfHistory.v
theories/Props/Amf3Again.v
theories/Spec/FanMeta.v
theories/Props/FanMeta.v
theories/Model/SipConv.v
theories/Spec/SipConv.v
theories/Proofs/SipConv.v
theories/Props/SipConv.v
theories/Props/ServeMeta.v
theories/Proofs/SipLast.v
theories/Props/SipLast.v
theories/Spec/SipRelay.v
theories/Props/SipRelay.v
theories/Proofs/AmfAllocUp.v
theories/Props/AmfAllocUp.v
theories/Model/AmfCalls.v
theories/Proofs/AmfCalls.v
theories/Props/AmfCalls.v
theories/Model/AmfLife.v
theories/Props/AmfLife.v
theories/Spec/Failed.v
theories/Proofs/IOFail.v
theories/Spec/SipCopied.v
theories/Proofs/SipTrim.v
theories/Props/SipCopied.v
theories/Spec/TsShown.v
theories/Proofs/TsShown.v
theories/Props/TsShown.v
theories/Spec/AmfGrow.v
theories/Proofs/AmfGrow.v
theories/Props/AmfGrow.v
theories/Proofs/Amf3Grow.v
theories/Props/Amf3Grow.v
theories/Props/AmfKeys.v
theories/Props/AmfEcma.v
theories/Props/SipSet.v
theories/Proofs/AmfBound.v
theories/Props/AmfBound.v
theories/Props/AmfClass.v
theories/Model/SipAddrObj.v
theories/Props/SipAddrObj.v
