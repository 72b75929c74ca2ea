-Q theories Verif
theories/Base.v
theories/Device.v
theories/Crc32.v
theories/Uuid.v
theories/Utf16.v
theories/PartTypes.v
theories/Lb.v
theories/Header.v
theories/Partition.v
theories/Mbr.v
theories/Disk.v
theories/Fixture.v
theories/BaseFacts.v
theories/DeviceFacts.v
theories/Frame.v
theories/CrcFacts.v
theories/EntryFacts.v
theories/HeaderFacts.v
theories/TableFacts.v
theories/BuildFacts.v
theories/WriteFacts.v
theories/OpenFacts.v
theories/ReopenFacts.v
theories/IdemFacts.v
theories/Spec.v
theories/SpecFacts.v
theories/LayoutFacts.v
theories/Samples.v
theories/Props_Entry.v
theories/AcceptFacts.v
theories/Props_Header.v
theories/MapFacts.v
theories/Props_Open.v
theories/HistoryFacts.v
theories/RetryFacts.v
theories/Props_Write.v
theories/AllocFacts.v
theories/Props_Alloc.v
theories/CreateFacts.v
theories/Props_Build.v
theories/CountFacts.v
theories/Props_Count.v
theories/Props_More.v
theories/SpecMbr.v
theories/MbrFacts.v
theories/Props_Mbr.v
theories/SpecTypes.v
theories/TypeFacts.v
theories/Props_Types.v
theories/PanicFacts.v
theories/SpecPanic.v
theories/RefineFacts.v
theories/BigFacts.v
theories/Props_Panic.v
theories/SpecFault.v
theories/FaultFacts.v
theories/TraceFacts.v
theories/Props_Fault.v
theories/SpecSession.v
theories/SessionFacts.v
theories/Props_Session.v
theories/SpecQuery.v
theories/QueryFacts.v
theories/Props_Query.v
theories/SpecBlocks.v
theories/Props_Blocks.v
theories/SpecResize.v
theories/Props_Resize.v
theories/Text.v
theories/SpecText.v
theories/TextFacts.v
theories/Props_Text.v
theories/SpecCrash.v
theories/CrashFacts.v
theories/Props_Crash.v
theories/RefuseFacts.v
theories/Props_Refuse.v
theories/SpecUefi.v
theories/UefiFacts.v
theories/Props_Uefi.v
theories/CrateTests.v
theories/SpecCrc.v
theories/CrcPoly.v
theories/CrcBits.v
theories/BitFacts.v
theories/FlipFacts.v
theories/Props_Crc.v
theories/FixtureUefi.v
theories/SpecPublished.v
theories/Props_Published.v
theories/StdIo.v
theories/StdIoFacts.v
theories/StdProgFacts.v
theories/SpecPieces.v
theories/Props_Pieces.v
theories/SpecBlock0.v
theories/Block0Facts.v
theories/Props_Block0.v
theories/UndoFacts.v
theories/SpecUndo.v
theories/Props_Undo.v
theories/SpecIdle.v
theories/IdleFacts.v
theories/Props_Idle.v
theories/SpecRival.v
theories/RivalFacts.v
theories/Props_Rival.v
theories/SpecByHand.v
theories/ByHandFacts.v
theories/Props_ByHand.v
theories/SpecBuilder.v
theories/Props_Builder.v
theories/SpecClone.v
theories/CloneFacts.v
theories/Props_Clone.v
theories/SpecReport.v
theories/ReportFacts.v
theories/Props_Report.v
theories/Logging.v
theories/Props_Logging.v
theories/Files.v
theories/SpecFiles.v
theories/FilesFacts.v
theories/Props_Files.v
theories/Memory.v
theories/SpecMemory.v
theories/MemoryFacts.v
theories/CallFacts.v
theories/Props_Memory.v
theories/WordFacts.v
theories/Props_Word.v
theories/Props_Exact.v
theories/SpecCopies.v
theories/CopyFacts.v
theories/Props_Copies.v
theories/Props_Success.v
theories/SpecSettings.v
theories/SettingsFacts.v
theories/Props_Settings.v
theories/Props_CrashReadonly.v
theories/RoomFacts.v
theories/Props_Room.v
theories/Props_Again.v
theories/Props_AddPanic.v
theories/SpecPacking.v
theories/Props_Packing.v
theories/Props_Workflow.v
theories/SpecContents.v
theories/Props_Contents.v
theories/SpecIdentity.v
theories/Props_Identity.v
theories/SpecAccount.v
theories/Props_Account.v
theories/SpecAnyTable.v
theories/Props_AnyTable.v
theories/SpecAnyLayout.v
theories/Props_AnyLayout.v
theories/SpecBlame.v
theories/BlameFacts.v
theories/Props_Blame.v
theories/SpecWrap.v
theories/Props_Wrap.v
theories/SpecCareful.v
theories/CarefulFacts.v
theories/Props_Careful.v
theories/SpecRebuilt.v
theories/RebuiltFacts.v
theories/Props_Rebuilt.v
theories/SpecMoved.v
theories/MovedFacts.v
theories/Props_Moved.v
theories/SpecCount.v
theories/EmptyFacts.v
theories/Props_Empty.v
theories/SpecMoody.v
theories/Props_Moody.v
theories/SpecCalls.v
theories/Props_BadBlock.v
theories/Props_Offsets.v
