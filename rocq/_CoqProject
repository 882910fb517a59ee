-Q theories Verif
theories/Base.v
theories/Types.v
theories/Dma.v
theories/Dirty.v
theories/DmaOps.v
theories/Spec.v
theories/SpecDma.v
theories/DmaProofs.v
theories/DmaDisjoint.v
theories/DmaSgl.v
theories/DmaMap.v
theories/DmaRemap.v
theories/PropDma.v
theories/DirtyProofs.v
theories/DirtyScale.v
theories/DirtyHist.v
theories/PropDirty.v
theories/Conc.v
theories/PropConc.v
theories/Bytes.v
theories/BytesProofs.v
theories/Migr.v
theories/SpecMigr.v
theories/PropMigr.v
theories/Irq.v
theories/SpecIrq.v
theories/IrqProofs.v
theories/PropIrq.v
theories/Pci.v
theories/BufProofs.v
theories/SpecPci.v
theories/PciProofs.v
theories/PciWrite.v
theories/PciCapWrite.v
theories/PciLoop.v
theories/PropPci.v
theories/SpecCaps.v
theories/CapsProofs.v
theories/CapsAdd.v
theories/PropCaps.v
theories/Handlers.v
theories/SpecHandlers.v
theories/HandlersProofs.v
theories/PropHandlers.v
theories/PropFeature.v
theories/HandlersDma.v
theories/Server.v
theories/SpecServer.v
theories/ServerProofs.v
theories/PropServer.v
theories/PropQuiesce.v
theories/PropFds.v
theories/Wire.v
theories/Tran.v
theories/SpecWire.v
theories/Xfer.v
theories/WireProofs.v
theories/PropWire.v
theories/PropTran.v
theories/XferProofs.v
theories/SpecXfer.v
theories/PropXfer.v
theories/SpecMsg.v
theories/ServerDma.v
theories/PropDmaMsg.v
theories/Setup.v
theories/SpecSetup.v
theories/PropSetup.v
theories/SpecSafe.v
theories/SafeProofs.v
theories/SafeDispatch.v
theories/PropSafe.v
theories/SoundProofs.v
theories/PropCalls.v
theories/Pipe.v
theories/SpecPipe.v
theories/PropPipe.v
theories/Sock.v
theories/SpecSock.v
theories/PropSock.v
theories/SpecReport.v
theories/ReportProofs.v
theories/PropReport.v
theories/SpecIdent.v
theories/IdentProofs.v
theories/PropIdent.v
theories/SpecPlace.v
theories/CapsPlace.v
theories/PropPlace.v
theories/SpecBind.v
theories/BindProofs.v
theories/PropBind.v
theories/SpecFlow.v
theories/FlowProofs.v
theories/PropFlow.v
theories/DirtyExact.v
theories/PropConst.v
theories/Debug.v
theories/PropDebug.v
theories/SglProofs.v
theories/PropSgl.v
theories/SpecCfg.v
theories/CfgPieces.v
theories/PropCfg.v
theories/CfgFrame.v
theories/SpecReg.v
theories/CfgHist.v
theories/PropReg.v
theories/DmaSg.v
theories/SpecSpur.v
theories/SpurProofs.v
theories/PropSpur.v
theories/SpecOnly.v
theories/OnlyProofs.v
theories/PropOnly.v
theories/PropPoke.v
theories/PropRun.v
theories/Reenter.v
theories/SpecReenter.v
theories/ReenterProofs.v
theories/ReenterReach.v
theories/PropReenter.v
theories/Heap.v
theories/SpecHeap.v
theories/HeapProofs.v
theories/PropHeap.v
theories/Mem.v
theories/SpecMem.v
theories/MemProofs.v
theories/PropMem.v
theories/Life.v
theories/SpecLife.v
theories/LifeProofs.v
theories/PropLife.v
theories/SpecExact.v
theories/PropExact.v
theories/PropTouch.v
theories/PropMapX.v
theories/PropPast.v
theories/PropLogging.v
theories/PropCapsExact.v
theories/PropReset.v
theories/PropQuiesceX.v
theories/PropPlaceX.v
theories/PropConnX.v
theories/PropFdsX.v
theories/PropWireX.v
theories/PropFindX.v
theories/ReenterLost.v
theories/ReenterLostProofs.v
theories/PropReenterLost.v
theories/ReenterCfg.v
theories/ReenterCfgProofs.v
theories/PropReenterCfg.v
theories/PropPipeX.v
theories/PropTranX.v
theories/PropMigrX.v
theories/PropSafeX.v
theories/PropServerX.v
theories/PropSafeW.v
theories/PropDestroyX.v
theories/PropAnon.v
theories/PropLogFree.v
theories/PropLogMap.v
