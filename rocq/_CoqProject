-Q theories Verif
theories/Base.v
theories/L_Asked.v
theories/L_Backup.v
theories/L_Charset.v
theories/L_Cloud.v
theories/L_Cloud2.v
theories/L_Cloud3.v
theories/L_Cmds.v
theories/L_Cmds10.v
theories/L_Cmds2.v
theories/L_Cmds3.v
theories/L_Cmds4.v
theories/L_Cmds5.v
theories/L_Cmds6.v
theories/L_Cmds7.v
theories/L_Cmds8.v
theories/L_Cmds9.v
theories/L_Count.v
theories/L_Crc.v
theories/L_Csv.v
theories/L_Csv2.v
theories/L_Csv3.v
theories/L_CsvDump.v
theories/L_Dirent.v
theories/L_Display.v
theories/L_Dump.v
theories/L_Each.v
theories/L_Effect.v
theories/L_Effect2.v
theories/L_Effect3.v
theories/L_Effect4.v
theories/L_Effect5.v
theories/L_EffectX.v
theories/L_Encodings.v
theories/L_Ext.v
theories/L_Frame.v
theories/L_Fs.v
theories/L_History.v
theories/L_Id3v1.v
theories/L_Id3v1b.v
theories/L_Id3v1c.v
theories/L_Ints.v
theories/L_Ios.v
theories/L_Ios2.v
theories/L_Ios3.v
theories/L_Ios4.v
theories/L_Ios5.v
theories/L_Json.v
theories/L_Json2.v
theories/L_Json3.v
theories/L_Json4.v
theories/L_JsonDump.v
theories/L_Lang.v
theories/L_Lookup.v
theories/L_Lookup2.v
theories/L_Lookup3.v
theories/L_M3u.v
theories/L_M3u2.v
theories/L_M3u3.v
theories/L_M3u4.v
theories/L_Main.v
theories/L_Many.v
theories/L_Match.v
theories/L_Match2.v
theories/L_Match3.v
theories/L_Match4.v
theories/L_Match5.v
theories/L_Move.v
theories/L_Move2.v
theories/L_Mp3.v
theories/L_Mp3b.v
theories/L_Mp3c.v
theories/L_Mp3d.v
theories/L_Naming.v
theories/L_Open.v
theories/L_Options.v
theories/L_Outputs.v
theories/L_Payload.v
theories/L_Po.v
theories/L_Po2.v
theories/L_Po3.v
theories/L_Popm.v
theories/L_Process.v
theories/L_Program.v
theories/L_Program2.v
theories/L_Program3.v
theories/L_Program4.v
theories/L_Read.v
theories/L_Register.v
theories/L_Rename.v
theories/L_Rename2.v
theories/L_Rename3.v
theories/L_Report.v
theories/L_Report2.v
theories/L_Report3.v
theories/L_Report4.v
theories/L_Report5.v
theories/L_Row.v
theories/L_Saved.v
theories/L_Scheme.v
theories/L_Scheme2.v
theories/L_Scheme3.v
theories/L_Scheme4.v
theories/L_Scheme5.v
theories/L_Scheme6.v
theories/L_Scheme7.v
theories/L_Scheme8.v
theories/L_Scheme9.v
theories/L_Split.v
theories/L_Split2.v
theories/L_Stream.v
theories/L_Sync.v
theories/L_Tag22.v
theories/L_Tag23.v
theories/L_Tag23b.v
theories/L_Tag23c.v
theories/L_Tag23d.v
theories/L_Tag23e.v
theories/L_Tag24.v
theories/L_Tag24b.v
theories/L_Tagset.v
theories/L_Tagset2.v
theories/L_Tagset3.v
theories/L_Tagset4.v
theories/L_Tagset5.v
theories/L_Tagset6.v
theories/L_Tagset7.v
theories/L_Tagset8.v
theories/L_Tbt.v
theories/L_Tbt2.v
theories/L_Tbt3.v
theories/L_Tbt4.v
theories/L_Tbt5.v
theories/L_Tbt6.v
theories/L_Tbt7.v
theories/L_TextId.v
theories/L_Track.v
theories/L_Unsync.v
theories/L_Unwind.v
theories/L_Url.v
theories/L_Vbr.v
theories/L_What.v
theories/L_Wire.v
theories/L_Xtag.v
theories/L_Xtag2.v
theories/M_Charset.v
theories/M_Cloud.v
theories/M_Cmds.v
theories/M_Copy.v
theories/M_Count.v
theories/M_Crc.v
theories/M_Csv.v
theories/M_CsvDump.v
theories/M_Dirent.v
theories/M_Display.v
theories/M_Dump.v
theories/M_Each.v
theories/M_Encodings.v
theories/M_Frame.v
theories/M_Fs.v
theories/M_Genres.v
theories/M_Id3v1.v
theories/M_Ints.v
theories/M_Ios.v
theories/M_Json.v
theories/M_JsonDump.v
theories/M_Lang.v
theories/M_Lookup.v
theories/M_M3u.v
theories/M_Main.v
theories/M_Match.v
theories/M_Move.v
theories/M_Mp3.v
theories/M_Naming.v
theories/M_Open.v
theories/M_Open1.v
theories/M_Options.v
theories/M_Outputs.v
theories/M_Payload.v
theories/M_Po.v
theories/M_Popm.v
theories/M_Process.v
theories/M_Program.v
theories/M_Read.v
theories/M_Register.v
theories/M_Rename.v
theories/M_Report.v
theories/M_Row.v
theories/M_Scheme.v
theories/M_Scheme2.v
theories/M_Split.v
theories/M_Start.v
theories/M_Stream.v
theories/M_Tag22.v
theories/M_Tag23.v
theories/M_Tag24.v
theories/M_Tagset.v
theories/M_Tbt.v
theories/M_TextId.v
theories/M_Track.v
theories/M_Unsync.v
theories/M_Unwind.v
theories/M_Url.v
theories/M_Vbr.v
theories/M_What.v
theories/M_Xtag.v
theories/P_AskedDump.v
theories/P_AskedFiles.v
theories/P_Charset.v
theories/P_Cloud.v
theories/P_Cloud2.v
theories/P_Cmds.v
theories/P_Count.v
theories/P_Crc.v
theories/P_Csv.v
theories/P_CsvDump.v
theories/P_Dirent.v
theories/P_Display.v
theories/P_Dump.v
theories/P_Each.v
theories/P_Effect.v
theories/P_EffectX.v
theories/P_Encodings.v
theories/P_Ext.v
theories/P_History.v
theories/P_Id3v1.v
theories/P_Ints.v
theories/P_Ios.v
theories/P_Json.v
theories/P_JsonCloud.v
theories/P_JsonDump.v
theories/P_Lang.v
theories/P_Lookup.v
theories/P_M3u.v
theories/P_Main.v
theories/P_Many.v
theories/P_Match.v
theories/P_Move.v
theories/P_Mp3.v
theories/P_Naming.v
theories/P_Needs.v
theories/P_Open.v
theories/P_Open1.v
theories/P_Options.v
theories/P_Outputs.v
theories/P_Payload.v
theories/P_Po.v
theories/P_Po2.v
theories/P_Po3.v
theories/P_Popm.v
theories/P_Process.v
theories/P_Program.v
theories/P_Read.v
theories/P_Register.v
theories/P_Rename.v
theories/P_Report.v
theories/P_ReportFile.v
theories/P_Row.v
theories/P_Saved.v
theories/P_Scheme.v
theories/P_Scheme2.v
theories/P_Scheme3.v
theories/P_Scheme4.v
theories/P_SchemePriv.v
theories/P_Session.v
theories/P_Split.v
theories/P_Start.v
theories/P_Stream.v
theories/P_Sync.v
theories/P_Tag22.v
theories/P_Tag23.v
theories/P_Tag24.v
theories/P_Tagset.v
theories/P_Tbt.v
theories/P_Tbt2.v
theories/P_Text24.v
theories/P_TextId.v
theories/P_Unsync.v
theories/P_Unwind.v
theories/P_Url.v
theories/P_Vbr.v
theories/P_What.v
theories/P_Wide.v
theories/P_Wire.v
theories/P_Xtag.v
theories/S_Asked.v
theories/S_Charset.v
theories/S_Cloud.v
theories/S_Cmds.v
theories/S_Count.v
theories/S_Crc.v
theories/S_Csv.v
theories/S_CsvDump.v
theories/S_Dirent.v
theories/S_Display.v
theories/S_Dump.v
theories/S_Effect.v
theories/S_EffectX.v
theories/S_Ext.v
theories/S_History.v
theories/S_Id3v1.v
theories/S_Ints.v
theories/S_Ios.v
theories/S_Json.v
theories/S_JsonDump.v
theories/S_JsonTag.v
theories/S_Lang.v
theories/S_Lookup.v
theories/S_M3u.v
theories/S_Main.v
theories/S_Many.v
theories/S_Match.v
theories/S_Move.v
theories/S_Mp3.v
theories/S_Naming.v
theories/S_Needs.v
theories/S_Open.v
theories/S_Open1.v
theories/S_Options.v
theories/S_Outputs.v
theories/S_Payload.v
theories/S_Po.v
theories/S_Popm.v
theories/S_Process.v
theories/S_Program.v
theories/S_Read.v
theories/S_Register.v
theories/S_Rename.v
theories/S_Report.v
theories/S_Row.v
theories/S_Saved.v
theories/S_Scheme.v
theories/S_Scheme2.v
theories/S_Scheme3.v
theories/S_Scheme4.v
theories/S_Session.v
theories/S_Split.v
theories/S_Start.v
theories/S_Stream.v
theories/S_Sync.v
theories/S_Tag.v
theories/S_Tag22.v
theories/S_Tag23.v
theories/S_Tag24.v
theories/S_Tagset.v
theories/S_Tbt.v
theories/S_Tbt2.v
theories/S_Tdf.v
theories/S_Text24.v
theories/S_TextId.v
theories/S_Unsync.v
theories/S_Unwind.v
theories/S_Url.v
theories/S_Vbr.v
theories/S_What.v
theories/S_Wide.v
theories/S_Wire.v
theories/S_Xtag.v
