-Q theories Verif
theories/M_Avl.v
theories/M_Base.v
theories/M_Browser.v
theories/M_Build.v
theories/M_Check.v
theories/M_Cli.v
theories/M_Complines.v
theories/M_Copyout.v
theories/M_Cso.v
theories/M_Desk.v
theories/M_Dev.v
theories/M_Dirtab.v
theories/M_Dry.v
theories/M_Exiso.v
theories/M_Extract.v
theories/M_Float.v
theories/M_Fold.v
theories/M_Fuse.v
theories/M_Gui.v
theories/M_Host.v
theories/M_Img.v
theories/M_Jobs.v
theories/M_Layout.v
theories/M_Lin.v
theories/M_Lines.v
theories/M_Live.v
theories/M_Loud.v
theories/M_Main.v
theories/M_Message.v
theories/M_Mount.v
theories/M_Moving.v
theories/M_Narrow.v
theories/M_Offset.v
theories/M_Parts.v
theories/M_Pathvec.v
theories/M_Picker.v
theories/M_Rawmem.v
theories/M_Read.v
theories/M_Remap.v
theories/M_Sector.v
theories/M_Short.v
theories/M_Special.v
theories/M_Stdfs.v
theories/M_Streams.v
theories/M_Trace.v
theories/M_Trie.v
theories/M_Trouble.v
theories/M_Unpack.v
theories/M_Util.v
theories/M_Web.v
theories/M_Win.v
theories/M_Xfs.v
theories/M_Zip.v
theories/S_Again.v
theories/S_Atop.v
theories/S_Avl.v
theories/S_Bomb.v
theories/S_Buffer.v
theories/S_Build.v
theories/S_Check.v
theories/S_Cli.v
theories/S_Codec.v
theories/S_Complines.v
theories/S_Copyout.v
theories/S_Cso.v
theories/S_Cycle.v
theories/S_Desk.v
theories/S_Dev.v
theories/S_Dotdot.v
theories/S_Dry.v
theories/S_Exiso.v
theories/S_Extract.v
theories/S_Fault.v
theories/S_Flaky.v
theories/S_Float.v
theories/S_Fold.v
theories/S_Fuse.v
theories/S_Generic.v
theories/S_Gui.v
theories/S_Img.v
theories/S_Inplace.v
theories/S_Jobs.v
theories/S_Lin.v
theories/S_Lines.v
theories/S_Live.v
theories/S_Loud.v
theories/S_Main.v
theories/S_Message.v
theories/S_Mixed.v
theories/S_Mount.v
theories/S_Moving.v
theories/S_Noimage.v
theories/S_Pages.v
theories/S_Parts.v
theories/S_Picker.v
theories/S_Read.v
theories/S_Remap.v
theories/S_Reply.v
theories/S_Sectors.v
theories/S_Short.v
theories/S_Special.v
theories/S_Stdfs.v
theories/S_Streams.v
theories/S_Swap.v
theories/S_Table.v
theories/S_Target.v
theories/S_Total.v
theories/S_Trie.v
theories/S_Trouble.v
theories/S_Unpack.v
theories/S_Web.v
theories/S_Whole.v
theories/S_Win.v
theories/S_Xfs.v
theories/S_Zip.v
theories/P_Again.v
theories/P_Asks.v
theories/P_Atop.v
theories/P_Avl.v
theories/P_AvlIns.v
theories/P_AvlPre.v
theories/P_AvlTree.v
theories/P_Back.v
theories/P_Base.v
theories/P_Bomb.v
theories/P_Browser.v
theories/P_Buf.v
theories/P_Buffer.v
theories/P_Build.v
theories/P_Bytes.v
theories/P_Check.v
theories/P_Cli.v
theories/P_Codec.v
theories/P_Complines.v
theories/P_Compress.v
theories/P_Copyout.v
theories/P_Cso.v
theories/P_Cycle.v
theories/P_Desk.v
theories/P_Dev.v
theories/P_Dirtab.v
theories/P_Disk.v
theories/P_Dotdot.v
theories/P_Dry.v
theories/P_Dump.v
theories/P_Events.v
theories/P_Exiso.v
theories/P_Ext.v
theories/P_Extra.v
theories/P_Extract.v
theories/P_Fault.v
theories/P_File.v
theories/P_Find.v
theories/P_Flaky.v
theories/P_Float.v
theories/P_Flush.v
theories/P_Fold.v
theories/P_Fuse.v
theories/P_Generic.v
theories/P_Geom.v
theories/P_Gui.v
theories/P_Host.v
theories/P_Image.v
theories/P_Inplace.v
theories/P_Into.v
theories/P_Jobs.v
theories/P_Layout.v
theories/P_Lin.v
theories/P_Lines.v
theories/P_Live.v
theories/P_Loud.v
theories/P_Main.v
theories/P_Map.v
theories/P_Message.v
theories/P_Mixed.v
theories/P_Mono.v
theories/P_More.v
theories/P_Mount.v
theories/P_Moving.v
theories/P_Narrow.v
theories/P_Noimage.v
theories/P_Order.v
theories/P_Overlay.v
theories/P_Pack.v
theories/P_Packed.v
theories/P_Pages.v
theories/P_Panic.v
theories/P_Param.v
theories/P_Parts.v
theories/P_Path.v
theories/P_Picker.v
theories/P_Place.v
theories/P_Plan.v
theories/P_Progress.v
theories/P_Rawmem.v
theories/P_Read.v
theories/P_Remap.v
theories/P_Repack.v
theories/P_Reply.v
theories/P_Repro.v
theories/P_Run.v
theories/P_Scan.v
theories/P_Sectors.v
theories/P_Short.v
theories/P_Special.v
theories/P_Src.v
theories/P_Stdfs.v
theories/P_Streams.v
theories/P_Swap.v
theories/P_Table.v
theories/P_Tabs.v
theories/P_Target.v
theories/P_Template.v
theories/P_Term.v
theories/P_Tidy.v
theories/P_Tidyfs.v
theories/P_Total.v
theories/P_Trace.v
theories/P_Tree.v
theories/P_Trie.v
theories/P_Trouble.v
theories/P_Twice.v
theories/P_Unpack.v
theories/P_Vm.v
theories/P_Web.v
theories/P_WebUnpack.v
theories/P_Whole.v
theories/P_Win.v
theories/P_Witness.v
theories/P_Xfs.v
theories/P_Zip.v
theories/Prop_Again.v
theories/Prop_Atop.v
theories/Prop_Avl.v
theories/Prop_Bomb.v
theories/Prop_Browser.v
theories/Prop_Buffer.v
theories/Prop_Build.v
theories/Prop_Check.v
theories/Prop_Cli.v
theories/Prop_Codec.v
theories/Prop_Complines.v
theories/Prop_Copyout.v
theories/Prop_Cso.v
theories/Prop_Cycle.v
theories/Prop_Desk.v
theories/Prop_Dev.v
theories/Prop_Dry.v
theories/Prop_Exiso.v
theories/Prop_Extract.v
theories/Prop_Fault.v
theories/Prop_Flaky.v
theories/Prop_Float.v
theories/Prop_Fold.v
theories/Prop_Fs.v
theories/Prop_Fuse.v
theories/Prop_Generic.v
theories/Prop_Geom.v
theories/Prop_Gui.v
theories/Prop_Img.v
theories/Prop_Inplace.v
theories/Prop_Into.v
theories/Prop_Jobs.v
theories/Prop_Lin.v
theories/Prop_Lines.v
theories/Prop_Live.v
theories/Prop_Loud.v
theories/Prop_Main.v
theories/Prop_Message.v
theories/Prop_Mixed.v
theories/Prop_Mount.v
theories/Prop_Moving.v
theories/Prop_Narrow.v
theories/Prop_Noimage.v
theories/Prop_Pages.v
theories/Prop_Parts.v
theories/Prop_Pathvec.v
theories/Prop_Picker.v
theories/Prop_Rawmem.v
theories/Prop_Read.v
theories/Prop_Remap.v
theories/Prop_Repack.v
theories/Prop_Reply.v
theories/Prop_Repro.v
theories/Prop_Sectors.v
theories/Prop_Short.v
theories/Prop_Special.v
theories/Prop_Stdfs.v
theories/Prop_Streams.v
theories/Prop_Swap.v
theories/Prop_Table.v
theories/Prop_Target.v
theories/Prop_Total.v
theories/Prop_Trace.v
theories/Prop_Trouble.v
theories/Prop_Twice.v
theories/Prop_Unpack.v
theories/Prop_Web.v
theories/Prop_Whole.v
theories/Prop_Win.v
theories/Prop_Zip.v
