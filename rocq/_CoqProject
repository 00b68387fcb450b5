-Q theories Verif
theories/Base/Py.v
theories/Base/PyFacts.v
theories/Base/Value.v
theories/Base/ValueFacts.v
theories/Model/Adapters.v
theories/Model/BigQuery.v
theories/Model/Collections.v
theories/Model/Collector.v
theories/Model/Columns.v
theories/Model/Context.v
theories/Model/Cursor.v
theories/Model/Database.v
theories/Model/DateFunctions.v
theories/Model/Dates.v
theories/Model/Decoders.v
theories/Model/DictSet.v
theories/Model/Errors.v
theories/Model/Evaluator.v
theories/Model/Expression.v
theories/Model/Filters.v
theories/Model/Formats.v
theories/Model/Frames.v
theories/Model/GroupBy.v
theories/Model/Html.v
theories/Model/Json.v
theories/Model/Paths.v
theories/Model/Query.v
theories/Model/ReadRange.v
theories/Model/Reader.v
theories/Model/Sources.v
theories/Model/Splitter.v
theories/Model/Sql.v
theories/Model/Statistics.v
theories/Model/Storage.v
theories/Model/Stream.v
theories/Model/Threaded.v
theories/Model/Threads.v
theories/Model/ToDnf.v
theories/Model/Tokens.v
theories/Model/Utils.v
theories/Model/Views.v
theories/Model/Workers.v
theories/Model/WriterNames.v
theories/Model/Writers.v
theories/Proofs/Adapters.v
theories/Proofs/AdaptersUse.v
theories/Proofs/Batch.v
theories/Proofs/BatchBeside.v
theories/Proofs/BatchFolder.v
theories/Proofs/BatchRange.v
theories/Proofs/BigQuery.v
theories/Proofs/CollectedOnce.v
theories/Proofs/CollectedOnceCases.v
theories/Proofs/CollectedViews.v
theories/Proofs/Collections.v
theories/Proofs/Collector.v
theories/Proofs/CollectorCases.v
theories/Proofs/Columns.v
theories/Proofs/ColumnsCases.v
theories/Proofs/Context.v
theories/Proofs/ContextCases.v
theories/Proofs/Cursor.v
theories/Proofs/CursorExample.v
theories/Proofs/CursorGrowth.v
theories/Proofs/DataBlobs.v
theories/Proofs/Database.v
theories/Proofs/DateFunctions.v
theories/Proofs/DateRange.v
theories/Proofs/DateShape.v
theories/Proofs/DateText.v
theories/Proofs/Dates.v
theories/Proofs/Decoders.v
theories/Proofs/DecodersCases.v
theories/Proofs/DictSet.v
theories/Proofs/Discarded.v
theories/Proofs/Errors.v
theories/Proofs/Evaluator.v
theories/Proofs/EvaluatorCases.v
theories/Proofs/Expression.v
theories/Proofs/ExpressionCases.v
theories/Proofs/FailingField.v
theories/Proofs/FailingFieldCases.v
theories/Proofs/FailingLevels.v
theories/Proofs/FailingLevelsCases.v
theories/Proofs/FailingRead.v
theories/Proofs/FailingReadCases.v
theories/Proofs/FailingSessions.v
theories/Proofs/FailingSessionsCases.v
theories/Proofs/FailingStore.v
theories/Proofs/FailingStoreCases.v
theories/Proofs/FieldStore.v
theories/Proofs/FieldStoreCases.v
theories/Proofs/Filters.v
theories/Proofs/FolderBatch.v
theories/Proofs/FolderBatchCases.v
theories/Proofs/FolderStream.v
theories/Proofs/FolderStreamCases.v
theories/Proofs/FolderTail.v
theories/Proofs/FolderTailCases.v
theories/Proofs/Formats.v
theories/Proofs/FormatsCases.v
theories/Proofs/Frames.v
theories/Proofs/Functions.v
theories/Proofs/GroupBy.v
theories/Proofs/Html.v
theories/Proofs/Iterators.v
theories/Proofs/Json.v
theories/Proofs/Labels.v
theories/Proofs/Letters.v
theories/Proofs/LevelsCases.v
theories/Proofs/LevelsSessions.v
theories/Proofs/LevelsStore.v
theories/Proofs/LooseHidden.v
theories/Proofs/Namespaces.v
theories/Proofs/Overlap.v
theories/Proofs/OverlapCases.v
theories/Proofs/Paths.v
theories/Proofs/Query.v
theories/Proofs/QueryBatch.v
theories/Proofs/QueryCases.v
theories/Proofs/QueryFailing.v
theories/Proofs/QueryFailingCases.v
theories/Proofs/QueryGroups.v
theories/Proofs/QueryRange.v
theories/Proofs/QueryUntil.v
theories/Proofs/QueryUntilCases.v
theories/Proofs/RangeDays.v
theories/Proofs/RangeDaysCases.v
theories/Proofs/ReadRange.v
theories/Proofs/Reader.v
theories/Proofs/ReaderCases.v
theories/Proofs/ReaderDataset.v
theories/Proofs/Repeats.v
theories/Proofs/RoundTrip.v
theories/Proofs/Sessions.v
theories/Proofs/SessionsCases.v
theories/Proofs/Sorting.v
theories/Proofs/Sources.v
theories/Proofs/Splitter.v
theories/Proofs/Sql.v
theories/Proofs/SqlAnswer.v
theories/Proofs/SqlAnswerCases.v
theories/Proofs/SqlCases.v
theories/Proofs/SqlEnds.v
theories/Proofs/SqlParse.v
theories/Proofs/SqlReader.v
theories/Proofs/SqlStatement.v
theories/Proofs/SqlText.v
theories/Proofs/Statistics.v
theories/Proofs/StepBack.v
theories/Proofs/Storage.v
theories/Proofs/StorageCases.v
theories/Proofs/Stream.v
theories/Proofs/StreamField.v
theories/Proofs/StreamFieldCases.v
theories/Proofs/StreamLevels.v
theories/Proofs/StreamPaths.v
theories/Proofs/StreamPool.v
theories/Proofs/StreamRange.v
theories/Proofs/StreamRead.v
theories/Proofs/StreamReadCases.v
theories/Proofs/StreamStore.v
theories/Proofs/StreamStoreCases.v
theories/Proofs/SubBatch.v
theories/Proofs/SubBatchCases.v
theories/Proofs/SubBatchStore.v
theories/Proofs/System.v
theories/Proofs/SystemBatch.v
theories/Proofs/SystemCases.v
theories/Proofs/Texts.v
theories/Proofs/Threaded.v
theories/Proofs/Threads.v
theories/Proofs/ThreadsCases.v
theories/Proofs/ToDnf.v
theories/Proofs/Tokens.v
theories/Proofs/Unpartitioned.v
theories/Proofs/UnpartitionedCases.v
theories/Proofs/Utils.v
theories/Proofs/Views.v
theories/Proofs/Workers.v
theories/Proofs/WriterNames.v
theories/Proofs/Writers.v
theories/Props/Adapters.v
theories/Props/BatchRange.v
theories/Props/BigQuery.v
theories/Props/Collections.v
theories/Props/Collector.v
theories/Props/Columns.v
theories/Props/Context.v
theories/Props/Cursor.v
theories/Props/CursorGrowth.v
theories/Props/Database.v
theories/Props/DateFunctions.v
theories/Props/Dates.v
theories/Props/Decoders.v
theories/Props/DictSet.v
theories/Props/Errors.v
theories/Props/Evaluator.v
theories/Props/Expression.v
theories/Props/FailingField.v
theories/Props/FailingLevels.v
theories/Props/FailingRead.v
theories/Props/FailingSessions.v
theories/Props/FailingStore.v
theories/Props/FieldStore.v
theories/Props/Filters.v
theories/Props/FolderBatch.v
theories/Props/FolderStream.v
theories/Props/FolderTail.v
theories/Props/Formats.v
theories/Props/Frames.v
theories/Props/GroupBy.v
theories/Props/Html.v
theories/Props/Overlap.v
theories/Props/Paths.v
theories/Props/Query.v
theories/Props/QueryFailing.v
theories/Props/QueryUntil.v
theories/Props/RangeDays.v
theories/Props/Reader.v
theories/Props/Sessions.v
theories/Props/Sources.v
theories/Props/Sql.v
theories/Props/SqlAnswer.v
theories/Props/Statistics.v
theories/Props/StepBack.v
theories/Props/Storage.v
theories/Props/Stream.v
theories/Props/StreamField.v
theories/Props/StreamLevels.v
theories/Props/StreamRead.v
theories/Props/StreamStore.v
theories/Props/SubBatch.v
theories/Props/System.v
theories/Props/Threaded.v
theories/Props/Threads.v
theories/Props/ToDnf.v
theories/Props/Unpartitioned.v
theories/Props/Utils.v
theories/Props/Views.v
theories/Props/Workers.v
theories/Props/WriterNames.v
theories/Props/Writers.v
theories/Spec/Adapters.v
theories/Spec/BigQuery.v
theories/Spec/Collections.v
theories/Spec/Collector.v
theories/Spec/Columns.v
theories/Spec/Context.v
theories/Spec/Cursor.v
theories/Spec/Database.v
theories/Spec/DateFunctions.v
theories/Spec/DateRange.v
theories/Spec/Dates.v
theories/Spec/Decoders.v
theories/Spec/DictSet.v
theories/Spec/Errors.v
theories/Spec/Evaluator.v
theories/Spec/Expression.v
theories/Spec/FailingLevels.v
theories/Spec/FailingSessions.v
theories/Spec/FailingStore.v
theories/Spec/Filters.v
theories/Spec/Formats.v
theories/Spec/Frames.v
theories/Spec/GroupBy.v
theories/Spec/Html.v
theories/Spec/Json.v
theories/Spec/Letters.v
theories/Spec/Namespaces.v
theories/Spec/Paths.v
theories/Spec/Query.v
theories/Spec/QueryUntil.v
theories/Spec/Reader.v
theories/Spec/Sources.v
theories/Spec/Sql.v
theories/Spec/SqlAnswer.v
theories/Spec/Statistics.v
theories/Spec/Storage.v
theories/Spec/Stream.v
theories/Spec/StreamField.v
theories/Spec/StreamLevels.v
theories/Spec/StreamRead.v
theories/Spec/StreamStore.v
theories/Spec/SubBatch.v
theories/Spec/System.v
theories/Spec/Threaded.v
theories/Spec/Threads.v
theories/Spec/ToDnf.v
theories/Spec/Tokens.v
theories/Spec/Unpartitioned.v
theories/Spec/Utils.v
theories/Spec/Views.v
theories/Spec/Workers.v
theories/Spec/WriterNames.v
theories/Spec/Writers.v
theories/Spec/Xml.v
