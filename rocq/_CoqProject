-Q theories Verif

theories/Base.v
theories/M_Alphabet.v
theories/M_Geometry.v
theories/M_Xml.v
theories/M_Cell.v
theories/M_Grid.v
theories/S_Geometry.v
theories/P_Geometry.v
theories/S_Alphabet.v
theories/P_Alphabet.v
theories/S_Cell.v
theories/P_Cell.v
theories/T_Geometry.v
theories/S_Grid.v
theories/P_Grid.v
theories/P_GridFacts.v
theories/T_Grid.v
theories/M_Table.v
theories/S_Table.v
theories/P_Table.v
theories/P_TableStep.v
theories/P_TableFacts.v
theories/P_TableMore.v
theories/P_TableRefine.v
theories/T_Table.v
theories/M_Drawing.v
theories/S_Drawing.v
theories/P_Drawing.v
theories/T_Drawing.v
theories/M_Regex.v
theories/M_Units.v
theories/S_Units.v
theories/P_Units.v
theories/T_Units.v
theories/M_Heap.v
theories/S_Heap.v
theories/P_Heap.v
theories/T_Heap.v
theories/M_Builder.v
theories/S_Builder.v
theories/P_Builder.v
theories/T_Builder.v
theories/M_Str.v
theories/M_Cals.v
theories/M_CalsParser.v
theories/S_Int.v
theories/P_Int.v
theories/S_Cals.v
theories/P_Str.v
theories/P_Cals.v
theories/T_Cals.v
theories/S_CalsParser.v
theories/P_CalsParser.v
theories/P_CalsLayout.v
theories/P_CalsEvents.v
theories/P_CalsSim.v
theories/P_CalsTable.v
theories/P_CalsMore.v
theories/P_CalsWithin.v
theories/S_RoundTrip.v
theories/S_Axes.v
theories/P_RoundTrip.v
theories/P_RoundTripAttrs.v
theories/T_CalsParser.v
theories/P_RoundTripMain.v
theories/T_RoundTrip.v
theories/M_Transform.v
theories/S_Transform.v
theories/P_Transform.v
theories/T_Transform.v
theories/M_Formex.v
theories/S_Formex.v
theories/P_Formex.v
theories/P_FormexStyle.v
theories/M_FormexParser.v
theories/T_Formex.v
theories/M_FormexFinal.v
theories/S_FormexFinal.v
theories/P_FormexNumber.v
theories/P_FormexBlk.v
theories/T_FormexFinal.v
theories/M_Ooxml.v
theories/S_Ooxml.v
theories/P_OoxmlPath.v
theories/P_OoxmlEvents.v
theories/P_OoxmlRegions.v
theories/P_OoxmlLayout.v
theories/P_OoxmlRun.v
theories/P_OoxmlTable.v
theories/S_OoxmlStyle.v
theories/P_OoxmlStyle.v
theories/P_OoxmlCell.v
theories/T_Ooxml.v
theories/T_OoxmlCell.v
theories/M_FormexFinish.v
theories/S_FormexFinish.v
theories/P_FormexFinish.v
theories/T_FormexFinish.v
theories/S_Attrs.v
theories/P_Attrs.v
theories/T_Attrs.v
theories/P_Reading.v
theories/M_FormexRead.v
theories/S_FormexRead.v
theories/P_FormexEvents.v
theories/P_FormexSim.v
theories/P_FormexTable.v
theories/P_FormexMore.v
theories/P_FormexTight.v
theories/T_FormexRead.v
theories/S_FormexTrip.v
theories/S_FormexFinished.v
theories/P_FormexTrip.v
theories/P_FormexTripRead.v
theories/P_Axes.v
theories/P_FAxes.v
theories/P_FormexTripMain.v
theories/P_FormexFinished.v
theories/P_FormexFinishedMain.v
theories/T_FormexTrip.v
theories/T_FormexFinished.v
theories/P_Fit.v
theories/P_Height.v
theories/M_Convert.v
theories/P_Parsed.v
theories/S_Convert.v
theories/S_ConvertWord.v
theories/P_Rect.v
theories/T_Convert.v
theories/T_ConvertBack.v
theories/T_Options.v
theories/M_ConvertDoc.v
theories/S_ConvertDoc.v
theories/P_ConvertDoc.v
theories/P_Source.v
theories/P_ConvertFinish.v
theories/P_ConvertFormex.v
theories/P_NoneLeft.v
theories/T_ConvertDoc.v
theories/T_ConvertFormex.v
theories/M_Nested.v
theories/S_Nested.v
theories/P_Nested.v
theories/P_NestedKept.v
theories/P_FinishNames.v
theories/P_NestedFlat.v
theories/T_Nested.v
theories/P_NestedSect.v
theories/T_NestedSect.v
theories/S_ThereBack.v
theories/P_ThereBack.v
theories/T_ThereBack.v
theories/S_Twice.v
theories/P_Twice.v
theories/P_TwiceDoc.v
theories/T_Twice.v
theories/M_NestedFormex.v
theories/S_NestedFormex.v
theories/P_NestedFormex.v
theories/P_NestedTops.v
theories/T_NestedFormex.v
theories/P_NoSeq.v
theories/M_Files.v
theories/S_Files.v
theories/P_Files.v
theories/T_Files.v
theories/P_NestedFirst.v
theories/P_FormexFirst.v
theories/S_FirstError.v
theories/T_FirstError.v
theories/M_Tiles.v
theories/S_Tiles.v
theories/P_Tiles.v
theories/T_Tiles.v
theories/M_Views.v
theories/S_Views.v
theories/P_Views.v
theories/T_Views.v
theories/M_Loops.v
theories/S_Loops.v
theories/P_Loops.v
theories/T_Loops.v
theories/M_NotesLoop.v
theories/S_NotesLoop.v
theories/P_NotesLoop.v
theories/T_NotesLoop.v
theories/S_Spacing.v
theories/P_Spacing.v
theories/T_Spacing.v
theories/M_Repr.v
theories/S_Repr.v
theories/T_Repr.v
theories/T_Pictures.v
theories/M_Names.v
theories/S_Names.v
theories/T_Names.v
theories/S_Through.v
theories/T_Through.v
theories/M_Walk.v
theories/S_Walk.v
theories/T_Walk.v
theories/S_Again.v
theories/T_Again.v
theories/T_Mapping.v
theories/T_FormexAgain.v
theories/S_ThroughFormex.v
theories/T_ThroughFormex.v
theories/S_Inserted.v
theories/T_Inserted.v
