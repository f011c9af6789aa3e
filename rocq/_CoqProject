-Q theories Verif
theories/Base.v
theories/BaseFacts.v
theories/CalendarSpec.v
theories/XldateModel.v
theories/CalendarFacts.v
theories/PyFloat.v
theories/PyFloatFacts.v
theories/XldateFloat.v
theories/XldateProofs.v
theories/PropDates.v
theories/Text.v
theories/TextFacts.v
theories/CellNames.v
theories/PropNames.v
theories/Utf16.v
theories/Strings.v
theories/Framing.v
theories/SstModel.v
theories/StringFacts.v
theories/PropBytes.v
theories/PropSst.v
theories/RkModel.v
theories/PropRk.v
theories/GridModel.v
theories/GridFacts.v
theories/PropGrid.v
theories/SheetObjects.v
theories/SheetModel.v
theories/SheetFacts.v
theories/SheetSteps.v
theories/LinkBytes.v
theories/NoteBytes.v
theories/PropSheet.v
theories/PropRead.v
theories/SheetTrace.v
theories/PropView.v
theories/PropLinks.v
theories/PropNotes.v
theories/CompDoc.v
theories/CompDocFacts.v
theories/CompDocOpen.v
theories/PropChain.v
theories/PropDir.v
theories/FormatModel.v
theories/BitFields.v
theories/FormatFacts.v
theories/PropXf.v
theories/PropDateFormat.v
theories/PropFormat.v
theories/PropColour.v
theories/PropNumType.v
theories/OpenModel.v
theories/PropOpen.v
theories/FormulaTables.v
theories/FormulaModel.v
theories/Decompile.v
theories/FormulaFacts.v
theories/FormulaExpr.v
theories/FormulaRefs.v
theories/PropFormulaText.v
theories/PropFormulaRefs.v
theories/PropFormulaEnd.v
theories/PropFormulaBox.v
theories/PropFormulaValue.v
theories/PropFormulaAmbig.v
theories/BookModel.v
theories/BookFacts.v
theories/BookApi.v
theories/BookEnds.v
theories/PropBof.v
theories/PropEnc.v
theories/PropGlobals.v
theories/SheetShare.v
theories/BookSheets.v
theories/BookHistory.v
theories/PropDemand.v
theories/PropSheetList.v
theories/BookRefs.v
theories/PropRefs.v
theories/NameFacts.v
theories/NameMaps.v
theories/PropDefined.v
theories/BookNames.v
theories/NameRefs.v
theories/SheetDims.v
theories/PropNameRefs.v
theories/NameValues.v
theories/PropNameValues.v
theories/NameMeaning.v
theories/PropNameMeaning.v
theories/PropNameBook.v
theories/OldSheet.v
theories/OldXf.v
theories/OldContent.v
theories/OldSteps.v
theories/OldTurns.v
theories/OldRead.v
theories/PropOldSheet.v
theories/OldEnds.v
theories/PropEnds.v
theories/BookContent.v
theories/BookFormats.v
theories/BookFollow.v
theories/PropWorkbook.v
theories/BookFine.v
theories/PropRoundTrip.v
theories/CompDocFull.v
theories/PropFile.v
theories/CellAccess.v
theories/PropCells.v
theories/DumpModel.v
theories/PropDump.v
theories/PropRowCol.v
theories/OldTrace.v
theories/PropOldView.v
theories/FormatRun.v
theories/PropFonts.v
theories/PropCellFormat.v
theories/PropRich.v
theories/PropCodes.v
theories/PropDatetime.v
theories/SheetOwn.v
theories/PropAttrs.v
theories/PropSheetNotes.v
theories/PropBookAttrs.v
theories/PropStorage.v
theories/PropIsolation.v
theories/PropPadding.v
theories/PropFmtSheet.v
theories/PropFmtInfo.v
theories/PropRagSheet.v
theories/PropRagged.v
theories/PropCutSheet.v
theories/PropTruncated.v
theories/PropIgnore.v
theories/PropOverride.v
theories/PropErrors.v
theories/PropOldOwn.v
theories/PropFourW.v
theories/PropPalette.v
theories/PropOldCut.v
theories/OldFine.v
theories/PropOldOpens.v
theories/PropFourWOpens.v
