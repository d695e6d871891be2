-Q theories Verif
theories/Base.v
theories/BaseFacts.v
theories/Segs.v
theories/Utf.v
theories/UtfFacts.v
theories/Str.v
theories/StrFacts.v
theories/PropStr.v
theories/Schema.v
theories/SchemaFacts.v
theories/StrGood.v
theories/Oa.v
theories/OaFacts.v
theories/OaSpec.v
theories/PropOa.v
theories/Rows.v
theories/RowFacts.v
theories/RowSpec.v
theories/EnumFacts.v
theories/PropRows.v
theories/Page.v
theories/BitFacts.v
theories/PropBits.v
theories/PageFacts.v
theories/PageRw.v
theories/PageSpec.v
theories/IndexSpec.v
theories/PropPage.v
theories/Alloc.v
theories/AllocFacts.v
theories/AllocSpec.v
theories/PropAlloc.v
theories/Db.v
theories/DbFacts.v
theories/DbFlush.v
theories/DbFresh.v
theories/PropDb.v
theories/Xor.v
theories/XorFacts.v
theories/Anlz.v
theories/AnlzFacts.v
theories/AnlzSpec.v
theories/AnlzCodec.v
theories/AnlzSong.v
theories/AnlzSections.v
theories/AnlzLoop.v
theories/AnlzPanic.v
theories/AnlzFile.v
theories/XorRun.v
theories/PropXor.v
theories/PropAnlz.v
theories/Crc.v
theories/CrcFacts.v
theories/Setting.v
theories/SettingFacts.v
theories/SettingSpec.v
theories/PropSetting.v
theories/RowShape.v
theories/Device.v
theories/DeviceFacts.v
theories/DeviceTree.v
theories/PropDevice.v
theories/Cli.v
theories/CliFacts.v
theories/CliList.v
theories/PropCli.v
theories/Xml.v
theories/XmlFacts.v
theories/XmlDoc.v
theories/PropXml.v
theories/Util.v
theories/PropUtil.v
theories/Writable.v
theories/PropWrite.v
theories/Layout.v
theories/LayoutStr.v
theories/LayoutDb.v
theories/PropLayout.v
theories/LayoutAnlz.v
theories/LayoutSetting.v
theories/Columns.v
theories/PropFiles.v
theories/Show.v
theories/ShowFacts.v
theories/PropShow.v
theories/Dump.v
theories/DumpFacts.v
theories/PropDump.v
theories/Robust.v
theories/PropRobust.v
theories/Reread.v
theories/Progress.v
theories/Insert.v
theories/Session.v
theories/PropSession.v
theories/Listing.v
theories/PropListing.v
theories/Delete.v
theories/Revise.v
theories/PropRevise.v
theories/PropDelete.v
theories/Cut.v
theories/PropCut.v
theories/Relink.v
theories/PropRelink.v
theories/Tune.v
theories/PropTune.v
theories/PropFresh.v
theories/PropRefuse.v
theories/Local.v
theories/Trunc.v
theories/PropLocal.v
theories/PropTrunc.v
theories/Untouched.v
theories/PropUntouched.v
theories/Remains.v
theories/PropRemains.v
theories/Saves.v
theories/PropSaves.v
theories/Spare.v
theories/PropSpare.v
theories/CutLink.v
theories/PropCutLink.v
theories/Append.v
theories/PropAppend.v
theories/Life.v
theories/PropLife.v
theories/Accept.v
theories/PropAccept.v
theories/AcceptAll.v
theories/PropAcceptAll.v
theories/AcceptCue.v
theories/PropAcceptCue.v
theories/Grammar.v
theories/PropGrammar.v
theories/AcceptStr.v
theories/PropAcceptStr.v
theories/AcceptPage.v
theories/PropAcceptPage.v
theories/AcceptDb.v
theories/PropAcceptDb.v
theories/PropBytes.v
theories/Confine.v
theories/PropConfine.v
theories/Window.v
theories/Conc.v
theories/PropConc.v
theories/Many.v
theories/PropMany.v
theories/PropSmall.v
theories/PropDumpBytes.v
theories/PropScratch.v
theories/PropScratchCli.v
theories/PropScratchDump.v
theories/PropScratchAll.v
theories/Builds.v
theories/PropBuilds.v
theories/PropStored.v
theories/XmlRead.v
theories/PropXmlRead.v
theories/PropString.v
theories/PropAnlzEdit.v
theories/Fs.v
theories/FsFacts.v
theories/FsExport.v
theories/PropExport.v
theories/Main.v
theories/PropMain.v
theories/Player.v
theories/PropPlayer.v
theories/Compose.v
theories/PropCompose.v
theories/Graft.v
theories/PropGraft.v
theories/Cache.v
theories/PropCache.v
theories/Check.v
theories/PropCheck.v
theories/ModelTests.v
theories/ListText.v
theories/PropListText.v
theories/ComposeList.v
theories/PropComposeList.v
theories/ComposeEdit.v
theories/PropComposeEdit.v
theories/ComposeDelete.v
theories/PropComposeDelete.v
theories/PropOrder.v
theories/ExportLog.v
theories/PropExportLog.v
