-Q theories Verif
theories/Base.v
theories/M_Stream.v
theories/M_Helpers.v
theories/M_Text.v
theories/S_Stream.v
theories/S_Bits.v
theories/S_Text.v
theories/Lib.v
theories/P_Stream.v
theories/P_Helpers.v
theories/P_Text.v
theories/P_Text2.v
theories/Prop_Stream.v
theories/Prop_Bits.v
theories/Prop_Text.v
theories/M_Container.v
theories/S_File.v
theories/P_Container.v
theories/Prop_Container.v
theories/Prop_Cut.v
theories/M_Py.v
theories/M_Simple.v
theories/P_Loop.v
theories/S_Entry.v
theories/P_Simple.v
theories/P_Simple2.v
theories/P_Simple3.v
theories/Prop_Simple.v
theories/M_Bitmap.v
theories/S_Bitmap.v
theories/P_Bitmap.v
theories/Prop_Bitmap.v
theories/M_TrueType.v
theories/S_TrueType.v
theories/P_TrueType.v
theories/P_TrueType2.v
theories/Prop_TrueType.v
theories/M_Glyph.v
theories/S_Glyph.v
theories/P_Glyph.v
theories/P_Glyph2.v
theories/P_Glyph3.v
theories/P_Glyph4.v
theories/P_Glyph5.v
theories/Prop_Glyph.v
theories/Prop_Gdef.v
theories/M_Float.v
theories/M_Options.v
theories/S_Options.v
theories/P_Float.v
theories/P_Options.v
theories/Prop_Options.v
theories/M_Table.v
theories/S_Table.v
theories/P_Table.v
theories/Prop_Table.v
theories/P_Dec.v
theories/P_File.v
theories/Prop_File.v
theories/M_Groups.v
theories/S_Groups.v
theories/P_Groups.v
theories/P_Groups2.v
theories/P_Kerning.v
theories/Prop_Groups.v
theories/M_Info.v
theories/S_Info.v
theories/P_Info.v
theories/Prop_Info.v
theories/M_Labels.v
theories/S_Labels.v
theories/P_Labels.v
theories/Prop_Labels.v
theories/M_Paths.v
theories/S_Paths.v
theories/P_Paths.v
theories/P_Names.v
theories/Prop_Paths.v
theories/M_PsHints.v
theories/S_PsHints.v
theories/P_PsHints.v
theories/Prop_PsHints.v
theories/M_Tth.v
theories/S_Tth.v
theories/P_Tth.v
theories/P_TthXml.v
theories/Prop_Tth.v
theories/M_Builder.v
theories/S_Builder.v
theories/P_Builder.v
theories/Prop_Builder.v
theories/M_GlyphAccess.v
theories/S_GlyphAccess.v
theories/P_GlyphAccess.v
theories/Prop_GlyphAccess.v
theories/M_Pens.v
theories/S_Pens.v
theories/P_Pens.v
theories/Prop_Pens.v
theories/M_Len.v
theories/Prop_Len.v
theories/M_Encoding.v
theories/S_Encoding.v
theories/Prop_Encoding.v
theories/M_TthExtract.v
theories/S_TthExtract.v
theories/P_TthExtract.v
theories/Prop_TthExtract.v
theories/M_Features.v
theories/S_Features.v
theories/P_Features.v
theories/Prop_Features.v
theories/M_Guides.v
theories/S_Guides.v
theories/P_Guides.v
theories/Prop_Guides.v
theories/M_Designspace.v
theories/S_Designspace.v
theories/P_Designspace.v
theories/Prop_Designspace.v
theories/M_Master.v
theories/S_Master.v
theories/P_Master.v
theories/Prop_Master.v
theories/M_Programs.v
theories/S_Programs.v
theories/P_Programs.v
theories/Prop_Programs.v
theories/M_Tools.v
theories/S_Tools.v
theories/P_Tools.v
theories/Prop_Tools.v
theories/M_Export.v
theories/S_Export.v
theories/P_Export.v
theories/Prop_Export.v
theories/M_FontInfo.v
theories/S_FontInfo.v
theories/P_FontInfo.v
theories/Prop_FontInfo.v
theories/M_Classes.v
theories/S_Classes.v
theories/Prop_Classes.v
theories/M_Build.v
theories/S_Build.v
theories/P_Build.v
theories/P_Build2.v
theories/P_Build3.v
theories/Prop_Build.v
theories/M_Ufo.v
theories/S_Ufo.v
theories/S_Base64.v
theories/S_Hinting.v
theories/P_Ufo.v
theories/P_Ufo2.v
theories/Prop_Ufo.v
theories/Prop_Ufo2.v
theories/P_Ufo3.v
theories/P_Base64.v
theories/Prop_Ufo3.v
theories/M_Rename.v
theories/Prop_Rename.v
theories/S_Fine.v
theories/P_Fine.v
theories/Prop_Fine.v
theories/M_Cu2qu.v
theories/Prop_Cu2qu.v
theories/M_HintsV1.v
theories/S_HintsV1.v
theories/Prop_HintsV1.v
theories/S_Resave.v
theories/P_Resave.v
theories/Prop_Resave.v
theories/Prop_Twice.v
theories/Prop_Edit.v
theories/Prop_History.v
theories/S_Document.v
theories/M_Document.v
theories/P_Document.v
theories/Prop_Document.v
theories/S_Json.v
theories/M_Json.v
theories/S_Dump.v
theories/S_Keys.v
theories/P_Json.v
theories/P_JsonData.v
theories/P_JsonFile.v
theories/Prop_Json.v
theories/P_JsonKeys.v
theories/Prop_JsonKeys.v
theories/P_Dumpable.v
theories/Prop_Dumpable.v
theories/S_MacRoman.v
theories/Prop_Names.v
theories/S_Hex.v
theories/Prop_Hex.v
theories/Prop_Keeps.v
theories/Prop_Color.v
theories/M_Assemble.v
theories/S_Assemble.v
theories/Prop_Assemble.v
theories/M_Diff.v
theories/S_Diff.v
theories/P_Diff.v
theories/Prop_Diff.v
theories/M_TthFile.v
theories/S_TthFile.v
theories/P_TthFile.v
theories/Prop_TthFile.v
theories/M_Vfb2ufo.v
theories/S_Vfb2ufo.v
theories/P_Vfb2ufo.v
theories/Prop_Vfb2ufo.v
theories/S_Raises.v
theories/P_Raises.v
theories/Prop_Raises.v
theories/S_Meaning.v
theories/Prop_Meaning.v
theories/S_Preview.v
theories/Prop_Preview.v
theories/S_Size.v
theories/P_Size.v
theories/P_Size2.v
theories/Prop_Size.v
theories/S_CompileRaises.v
theories/P_CompileRaises.v
theories/P_CompileRaises2.v
theories/Prop_CompileRaises.v
theories/S_Angle.v
theories/P_Angle.v
theories/Prop_Angle.v
theories/Prop_NoHints.v
theories/Prop_Flags.v
theories/Prop_JsonOptions.v
theories/Prop_Minimal.v
theories/Prop_Pixels.v
theories/Prop_Local.v
theories/M_Hash.v
theories/S_Hash.v
theories/Prop_Hash.v
theories/Prop_Local2.v
theories/Prop_Indep.v
theories/Prop_Indep2.v
theories/Prop_Indep3.v
theories/Prop_Indep4.v
