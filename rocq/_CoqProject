-Q theories Verif
theories/Base.v
theories/BaseLemmas.v
theories/Checksum.v
theories/ChecksumSpec.v
theories/ChecksumProofs.v
theories/PropChecksum.v
theories/BitStream.v
theories/Huffman.v
theories/Deflate.v
theories/DeflateSpec.v
theories/BitProofs.v
theories/HuffProofs.v
theories/DeflateProofs.v
theories/DeflateDynProofs.v
theories/DeflateTop.v
theories/PropDeflate.v
theories/Compressed.v
theories/CompressedSpec.v
theories/CompressedProofs.v
theories/CompressedRead.v
theories/CompressedTop.v
theories/PropCompressed.v
theories/At.v
theories/BTree.v
theories/BTreeSpec.v
theories/BTreeProofs.v
theories/PropBTree.v
theories/Walk.v
theories/WalkProofs.v
theories/TreeSpec.v
theories/TreeProofs.v
theories/Omap.v
theories/OmapSpec.v
theories/OmapProofs.v
theories/OmapTop.v
theories/PropOmap.v
theories/Records.v
theories/RecordsSpec.v
theories/RecordsProofs.v
theories/PropRecords.v
theories/FsTree.v
theories/FsSpec.v
theories/FsProofs.v
theories/FsTop.v
theories/FsLookup.v
theories/PropFs.v
theories/NameTables.v
theories/Name.v
theories/NameSpec.v
theories/NameProofs.v
theories/PropName.v
theories/FsName.v
theories/FsNameProofs.v
theories/FsNameTop.v
theories/FsNameSpec.v
theories/PropFsName.v
theories/Crypt.v
theories/CryptSpec.v
theories/CryptProofs.v
theories/Sha256.v
theories/Aes.v
theories/PropCrypt.v
theories/Checksummed.v
theories/KeyBag.v
theories/KeyBagSpec.v
theories/KeyBagProofs.v
theories/KekProofs.v
theories/PropKeyBag.v
theories/Volume.v
theories/VolumeSpec.v
theories/UnlockProofs.v
theories/VolumeProofs.v
theories/AesProofs.v
theories/PropVolume.v
theories/Container.v
theories/ContainerSpec.v
theories/ContainerProofs.v
theories/ContainerTop.v
theories/ContainerCrash.v
theories/PropContainer.v
theories/PropOpen.v
theories/DataRead.v
theories/DataSpec.v
theories/DataProofs.v
theories/DataSplit.v
theories/PropData.v
theories/Snapshot.v
theories/VolumeSuper.v
theories/SnapSpec.v
theories/SnapProofs.v
theories/VSuperSpec.v
theories/VSuperProofs.v
theories/PropSnap.v
theories/PropVSuper.v
theories/Locks.v
theories/LockSpec.v
theories/LockTable.v
theories/LockProofs.v
theories/PropLocks.v
theories/Threads.v
theories/PropThreads.v
theories/NodeCache.v
theories/NodeCacheProofs.v
theories/PropNodeCache.v
theories/FileEntry.v
theories/FileNames.v
theories/FileSpec.v
theories/FileProofs.v
theories/FileTop.v
theories/PropFile.v
theories/EntryName.v
theories/EntrySpec.v
theories/PropEntry.v
theories/Session.v
theories/SessionSpec.v
theories/SessionProofs.v
theories/PropSession.v
theories/EndSpec.v
theories/EndProofs.v
theories/PropEnd.v
theories/ToolPath.v
theories/ToolPathSpec.v
theories/ToolPathProofs.v
theories/ToolMount.v
theories/ToolMountProofs.v
theories/ToolExample.v
theories/PropToolPath.v
theories/ToolInfo.v
theories/ToolInfoSpec.v
theories/ToolLine.v
theories/ToolHier.v
theories/PropToolInfo.v
theories/PyTime.v
theories/PyTimeSpec.v
theories/PyTimeProofs.v
theories/PropPyTime.v
theories/PyFile.v
theories/PyFileSpec.v
theories/PropPyFile.v
theories/ToolFuse.v
theories/ToolFuseSpec.v
theories/PropFuse.v
theories/Lifetime.v
theories/LifetimeSpec.v
theories/LifetimeProofs.v
theories/LifetimeOrder.v
theories/PropLifetime.v
theories/PyLife.v
theories/PyLifeSpec.v
theories/PyLifeProofs.v
theories/PropPyLife.v
theories/Support.v
theories/SupportSpec.v
theories/PropSupport.v
theories/ToolOpt.v
theories/ToolOptSpec.v
theories/PropToolOpt.v
theories/ToolMain.v
theories/ToolMainSpec.v
theories/PropToolMain.v
theories/ToolWin.v
theories/ToolWinSpec.v
theories/ToolWinProofs.v
theories/PropToolWin.v
theories/FaultSpec.v
theories/Faults.v
theories/FaultProofs.v
theories/PropFault.v
theories/PropSize.v
theories/Reopen.v
theories/ReopenSpec.v
theories/ReopenProofs.v
theories/PropReopen.v
theories/SafeSource.v
theories/SafeUse.v
theories/SafeSession.v
theories/ExtAttr.v
theories/ExtAttrSpec.v
theories/PropAttr.v
theories/Use.v
theories/PropUse.v
theories/ToolText.v
theories/ToolTextSpec.v
theories/ToolTextProofs.v
theories/ToolEntryText.v
theories/ToolTextInj.v
theories/PropToolText.v
theories/PropEndPath.v
theories/Verbose.v
theories/VerboseSpec.v
theories/VerboseProofs.v
theories/PropVerbose.v
theories/PyVol.v
theories/PyVolSpec.v
theories/PropPyVol.v
theories/PyAttr.v
theories/PropPyAttr.v
theories/ToolWinVol.v
theories/PropToolWinVol.v
theories/Memory.v
theories/MemorySpec.v
theories/MemoryProofs.v
theories/MemoryEntry.v
theories/MemoryTop.v
theories/MemorySame.v
theories/PropMemory.v
theories/Secrets.v
theories/SecretsSpec.v
theories/SecretsProofs.v
theories/SecretsTop.v
theories/PropSecrets.v
theories/ToolPass.v
theories/ToolPassSpec.v
theories/ToolPassProofs.v
theories/PropToolPass.v
theories/PyRefs.v
theories/PyRefsSpec.v
theories/PyRefsProofs.v
theories/PropPyRefs.v
theories/PyMake.v
theories/PyMakeSpec.v
theories/PropPyMake.v
