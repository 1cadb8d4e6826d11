-Q theories Verif
theories/Base.v
theories/Kernel.v
theories/CoreModel.v
theories/DecodeModel.v
theories/OpsModel.v
theories/DecodeSpec.v
theories/DecodeProofs.v
theories/OpsSafety.v
theories/OpsCut.v
theories/WireSpec.v
theories/OpsRoundTrip.v
theories/PropDecode.v
theories/PropHeader.v
theories/ReplyModel.v
theories/ListingModel.v
theories/ReplySpec.v
theories/ReplyProofs.v
theories/PropReply.v
theories/PropListing.v
theories/ServerModel.v
theories/ServerSpec.v
theories/PropServer.v
theories/PropValues.v
theories/HostModel.v
theories/HostSpec.v
theories/PropHost.v
theories/VfsModel.v
theories/VfsSpec.v
theories/VfsRun.v
theories/PropTables.v
theories/PropStatic.v
theories/VfsProofs.v
theories/PropVfs.v
theories/PropAnswers.v
theories/ThreadModel.v
theories/PropThreads.v
theories/HelloModel.v
theories/PropHello.v
theories/FlagsModel.v
theories/PropFlags.v
theories/DebugModel.v
theories/DebugProofs.v
theories/DebugRead.v
theories/PropDebug.v
theories/OptionsModel.v
theories/PropOptions.v
theories/ShowModel.v
theories/ShowProofs.v
theories/PropShow.v
theories/DeviceSpec.v
theories/PropDevice.v
theories/ClientSpec.v
theories/PropClient.v
theories/PanicModel.v
theories/PropPanic.v
theories/PropFootprint.v
theories/NamesModel.v
theories/PropNames.v
theories/PropHeld.v
theories/LayoutModel.v
theories/PropLayout.v
theories/PropTree.v
theories/IoctlSpec.v
theories/PropIoctl.v
theories/TakenSpec.v
theories/PropTaken.v
theories/FileSpec.v
theories/PropFile.v
theories/XattrSpec.v
theories/PropXattr.v
theories/CallSpec.v
theories/PropCalls.v
theories/PropMissing.v
theories/PropDisk.v
theories/PropDir.v
theories/PropCuse.v
theories/PropStart.v
theories/PropBusy.v
theories/PropLocks.v
theories/PropWait.v
theories/PropNotify.v
theories/PropPoll.v
theories/PropCache.v
theories/PropAttrs.v
theories/RepoTests.v
theories/InteropTests.v
