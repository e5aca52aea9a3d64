-Q theories Verif
theories/Model/Calls.v
theories/Model/Cast.v
theories/Model/Codec.v
theories/Model/Column.v
theories/Model/ColumnOps.v
theories/Model/ColumnSelect.v
theories/Model/ColumnStats.v
theories/Model/Csv.v
theories/Model/DateRange.v
theories/Model/Dates.v
theories/Model/Dict.v
theories/Model/Diff.v
theories/Model/Display.v
theories/Model/Dtype.v
theories/Model/EncFile.v
theories/Model/Export.v
theories/Model/Expressions.v
theories/Model/FileTracker.v
theories/Model/FileWrites.v
theories/Model/Filter.v
theories/Model/FilterDict.v
theories/Model/Groupby.v
theories/Model/Guess.v
theories/Model/GuessImport.v
theories/Model/Hdf5.v
theories/Model/HeaderCalls.v
theories/Model/Headers.v
theories/Model/Heap.v
theories/Model/Imputation.v
theories/Model/Infer.v
theories/Model/Intercept.v
theories/Model/Iterate.v
theories/Model/JoinMerge.v
theories/Model/Joins.v
theories/Model/JsonTable.v
theories/Model/Match.v
theories/Model/Merge.v
theories/Model/Names.v
theories/Model/Nearest.v
theories/Model/NimCmp.v
theories/Model/Npy.v
theories/Model/NpySlice.v
theories/Model/PageLife.v
theories/Model/PageSteps.v
theories/Model/Pickle.v
theories/Model/PicklePage.v
theories/Model/PivotGrid.v
theories/Model/Pivots.v
theories/Model/Predominant.v
theories/Model/PyInfer.v
theories/Model/Rank.v
theories/Model/Redux.v
theories/Model/Reindex.v
theories/Model/Repaginate.v
theories/Model/Rounding.v
theories/Model/SaveLoad.v
theories/Model/SelectRequests.v
theories/Model/Settings.v
theories/Model/SheetDims.v
theories/Model/SheetHeaders.v
theories/Model/SheetReader.v
theories/Model/SheetWriter.v
theories/Model/Sheets.v
theories/Model/Sort.v
theories/Model/Stats.v
theories/Model/Summary.v
theories/Model/Table.v
theories/Model/TableReplace.v
theories/Model/TaskSettings.v
theories/Model/TextImport.v
theories/Model/ToSql.v
theories/Model/TypedDict.v
theories/Model/Words.v
theories/Model/Workers.v
theories/Proof/Binary64Proofs.v
theories/Proof/CallsFiles.v
theories/Proof/CallsMethods.v
theories/Proof/CallsProofs.v
theories/Proof/CallsText.v
theories/Proof/CastProofs.v
theories/Proof/CastTexts.v
theories/Proof/CodecProofs.v
theories/Proof/ColumnFinal.v
theories/Proof/ColumnMisc.v
theories/Proof/ColumnRead.v
theories/Proof/ColumnRefute.v
theories/Proof/ColumnStatsProofs.v
theories/Proof/ColumnTwoPages.v
theories/Proof/ColumnWrite.v
theories/Proof/CompactDates.v
theories/Proof/CsvProofs.v
theories/Proof/CsvScan.v
theories/Proof/DatesProofs.v
theories/Proof/DictLemmas.v
theories/Proof/DiffProofs.v
theories/Proof/DisplayProofs.v
theories/Proof/EncFileProofs.v
theories/Proof/ExportProofs.v
theories/Proof/ExpressionsProofs.v
theories/Proof/FileTrackerProofs.v
theories/Proof/FileWritesProofs.v
theories/Proof/FilterDictProofs.v
theories/Proof/FilterObsolete.v
theories/Proof/FilterProofs.v
theories/Proof/FloatFinal.v
theories/Proof/FloatProofs.v
theories/Proof/FloatValues.v
theories/Proof/GridBase.v
theories/Proof/GridFinal.v
theories/Proof/GridTable.v
theories/Proof/GroupbyAcc.v
theories/Proof/GroupbyHist.v
theories/Proof/GroupbyProofs.v
theories/Proof/GroupbyTable.v
theories/Proof/GuessImportProofs.v
theories/Proof/GuessKinds.v
theories/Proof/GuessNumbers.v
theories/Proof/GuessProofs.v
theories/Proof/GuessWords.v
theories/Proof/Hdf5Proofs.v
theories/Proof/HeaderCallsProofs.v
theories/Proof/HeadersProofs.v
theories/Proof/HeapFinal.v
theories/Proof/HeapProofs.v
theories/Proof/ImputationProofs.v
theories/Proof/ImputeFinal.v
theories/Proof/ImputeStats.v
theories/Proof/ImputeTables.v
theories/Proof/InferProofs.v
theories/Proof/InterceptProofs.v
theories/Proof/IterateProofs.v
theories/Proof/JoinBase.v
theories/Proof/JoinFinal.v
theories/Proof/JoinMergeProofs.v
theories/Proof/JoinProofs.v
theories/Proof/JsonTableProofs.v
theories/Proof/LookupProofs.v
theories/Proof/MatchProofs.v
theories/Proof/MergeProofs.v
theories/Proof/NamesProofs.v
theories/Proof/NearestFinal.v
theories/Proof/NearestProofs.v
theories/Proof/NpyFileProofs.v
theories/Proof/NpyProofs.v
theories/Proof/NpySliceFinal.v
theories/Proof/NpySliceProofs.v
theories/Proof/PageLifeProofs.v
theories/Proof/PickleFormatProofs.v
theories/Proof/PicklePageProofs.v
theories/Proof/PivotFinal.v
theories/Proof/PivotsProofs.v
theories/Proof/PredominantProofs.v
theories/Proof/PyGuessCases.v
theories/Proof/PyInferProofs.v
theories/Proof/PyIso.v
theories/Proof/PyKinds.v
theories/Proof/PyKinds2.v
theories/Proof/PyKinds3.v
theories/Proof/PyMoments.v
theories/Proof/PyTextProofs.v
theories/Proof/PythonPageProofs.v
theories/Proof/RankProofs.v
theories/Proof/ReduxProofs.v
theories/Proof/ReindexProofs.v
theories/Proof/RepaginateProofs.v
theories/Proof/Retype.v
theories/Proof/RoundingProofs.v
theories/Proof/SaveLoadProofs.v
theories/Proof/SelectFinal.v
theories/Proof/SelectLemmas.v
theories/Proof/SelectMask.v
theories/Proof/SelectPage.v
theories/Proof/SelectRequestsProofs.v
theories/Proof/SelectTable.v
theories/Proof/SettingsProofs.v
theories/Proof/SheetDimsProofs.v
theories/Proof/SheetFinal.v
theories/Proof/SheetHeadersProofs.v
theories/Proof/SheetOds.v
theories/Proof/SheetPack.v
theories/Proof/SheetProofs.v
theories/Proof/SheetWriterProofs.v
theories/Proof/SliceLemmas.v
theories/Proof/SmallProofs.v
theories/Proof/SortBase.v
theories/Proof/SortExamples.v
theories/Proof/SortProofs.v
theories/Proof/SortRanks.v
theories/Proof/SqlProofs.v
theories/Proof/SqlScript.v
theories/Proof/StatsProofs.v
theories/Proof/SummaryProofs.v
theories/Proof/SummaryTypes.v
theories/Proof/TableBase.v
theories/Proof/TableMisc.v
theories/Proof/TableProofs.v
theories/Proof/TableReplaceProofs.v
theories/Proof/TableRows.v
theories/Proof/TableSelect.v
theories/Proof/TableStack.v
theories/Proof/TaskSettingsProofs.v
theories/Proof/TextMisc.v
theories/Proof/TypedDictProofs.v
theories/Proof/WordsProofs.v
theories/Proof/WorkersProofs.v
theories/Props/Calls.v
theories/Props/Cast.v
theories/Props/Codec.v
theories/Props/ColumnSelect.v
theories/Props/Columns.v
theories/Props/Diff.v
theories/Props/Display.v
theories/Props/EncFile.v
theories/Props/Export.v
theories/Props/Expressions.v
theories/Props/FileTracker.v
theories/Props/FileWrites.v
theories/Props/Filter.v
theories/Props/FilterDict.v
theories/Props/FloatText.v
theories/Props/Groupby.v
theories/Props/Guess.v
theories/Props/GuessImport.v
theories/Props/Hdf5.v
theories/Props/HeaderCalls.v
theories/Props/Headers.v
theories/Props/Imputation.v
theories/Props/Infer.v
theories/Props/Iterate.v
theories/Props/JoinMerge.v
theories/Props/Joins.v
theories/Props/JsonTable.v
theories/Props/Match.v
theories/Props/Merge.v
theories/Props/Npy.v
theories/Props/NpySlice.v
theories/Props/ObjectPages.v
theories/Props/Pages.v
theories/Props/Paging.v
theories/Props/PivotGrid.v
theories/Props/Pivots.v
theories/Props/Predominant.v
theories/Props/PyGuess.v
theories/Props/PythonPages.v
theories/Props/Reindex.v
theories/Props/SaveLoad.v
theories/Props/SelectRequests.v
theories/Props/Settings.v
theories/Props/Sharing.v
theories/Props/Sheet.v
theories/Props/SheetHeaders.v
theories/Props/SheetWriter.v
theories/Props/Small.v
theories/Props/Sort.v
theories/Props/Summary.v
theories/Props/TableReplace.v
theories/Props/Tables.v
theories/Props/TaskSettings.v
theories/Props/Text.v
theories/Props/ToSql.v
theories/Props/TypedDict.v
theories/Props/Words.v
theories/Props/Workers.v
theories/Spec/Base.v
theories/Spec/Binary64.v
theories/Spec/Calendar.v
theories/Spec/Calls.v
theories/Spec/Cast.v
theories/Spec/CodecValues.v
theories/Spec/ColumnTerms.v
theories/Spec/Counts.v
theories/Spec/Csv.v
theories/Spec/Display.v
theories/Spec/Encoding.v
theories/Spec/Export.v
theories/Spec/Expressions.v
theories/Spec/FileWrites.v
theories/Spec/Filter.v
theories/Spec/FilterDict.v
theories/Spec/FilterTerms.v
theories/Spec/FloatText.v
theories/Spec/Grid.v
theories/Spec/GroupTerms.v
theories/Spec/Groupby.v
theories/Spec/GuessedPage.v
theories/Spec/Hdf5.v
theories/Spec/HeaderCalls.v
theories/Spec/Headers.v
theories/Spec/HeapTerms.v
theories/Spec/Impute.v
theories/Spec/Iterate.v
theories/Spec/Join.v
theories/Spec/JoinMerge.v
theories/Spec/JsonTable.v
theories/Spec/Match.v
theories/Spec/Merge.v
theories/Spec/Neighbour.v
theories/Spec/Npy.v
theories/Spec/ObjectPage.v
theories/Spec/PageTerms.v
theories/Spec/Pick.v
theories/Spec/PickleFormat.v
theories/Spec/Pivot.v
theories/Spec/Predominant.v
theories/Spec/PyHash.v
theories/Spec/PyList.v
theories/Spec/PySort.v
theories/Spec/PyTexts.v
theories/Spec/PyValue.v
theories/Spec/PythonPage.v
theories/Spec/Rows.v
theories/Spec/Select.v
theories/Spec/SelectRequests.v
theories/Spec/SeqMatch.v
theories/Spec/Settings.v
theories/Spec/SheetCells.v
theories/Spec/SheetRefs.v
theories/Spec/SheetShown.v
theories/Spec/SheetWritten.v
theories/Spec/SortOrder.v
theories/Spec/Sql.v
theories/Spec/Statistics.v
theories/Spec/Summary.v
theories/Spec/TableTerms.v
theories/Spec/TaskSettings.v
theories/Spec/TypedDict.v
theories/Spec/TypedText.v
theories/Spec/Words.v
theories/Spec/Workers.v
theories/Spec/Written.v
