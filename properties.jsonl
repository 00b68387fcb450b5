{"id": "C01", "title": "Resuming from a cursor continues exactly where reading stopped", "statement": "If a client reads k records from a Reader, saves reader.cursor and later opens a new Reader over the same blobs with that cursor (passed as an object, a dictionary or its JSON text), then the records read before the interruption followed by the records read after it are exactly the records of one uninterrupted read, in the same order, with none missing and none repeated.", "quantifier": "every set of blobs, every content of every blob (including empty blobs), every interruption point k (including 0, blob boundaries and the very end), both cursor transports", "why_tests_cant": "The interruption point and the blob layout are unbounded and interact (boundary of a blob, empty blobs, last record); tests try one or two layouts.", "anchors": ["mabel/data/readers/internals/cursor.py:Cursor", "mabel/data/readers/reader.py:_LowLevelReader._create_line_reader"]}
{"id": "C02", "title": "Any number of interruptions still yields one complete read", "statement": "Reading a dataset in any number of sessions, each session resuming from the cursor text saved by the one before and stopping after an arbitrary number of records, yields in total exactly a prefix of the uninterrupted read whose length is the sum of the session lengths, and the whole read once the sessions are long enough.", "quantifier": "every list of session lengths, every blob layout", "why_tests_cant": "Histories of sessions of unbounded length; a state kept wrongly by the second resume is invisible to a single-resume test.", "anchors": ["mabel/data/readers/internals/cursor.py:Cursor.load_cursor", "mabel/data/readers/internals/cursor.py:Cursor.get", "mabel/data/readers/reader.py:_LowLevelReader._create_line_reader"]}
{"id": "C03", "title": "The cursor's blob map survives its text encoding", "statement": "For every subset of blobs already read, the hexadecimal map in a saved cursor decodes to exactly that subset for any number of blobs (including numbers not divisible by eight).", "quantifier": "every number of blobs and every subset", "why_tests_cant": "The padding cases depend on the number of blobs modulo eight and on every bit pattern; tests check one.", "anchors": ["mabel/data/readers/internals/cursor.py:Cursor.get", "mabel/data/readers/internals/cursor.py:Cursor.load_cursor"]}
{"id": "C04", "title": "Each distinct blob is read exactly once, in name order", "statement": "A serial read delivers the records of every distinct listed blob exactly once, blobs in ascending name order, even when the store's listing names a blob more than once or in any order.", "quantifier": "every listing, with repetitions, in every order, and every blob content", "why_tests_cant": "Needs all permutations and duplications of listings.", "anchors": ["mabel/data/readers/internals/cursor.py:Cursor.next_blob", "mabel/data/readers/reader.py:_LowLevelReader._create_line_reader", "mabel/adapters/minio/minio_reader.py:MinIoReader.get_blobs_at_path"]}
{"id": "C05", "title": "Only the newest complete frame is read", "statement": "When a dated folder holds frames, the reader returns exactly the data blobs of the newest frame that has a frame.complete marker and no frame.ignore marker, and returns nothing from that folder when no frame qualifies; blobs of older, incomplete or ignored frames are never returned.", "quantifier": "every folder content: any number of frames, blobs and markers in any order", "why_tests_cant": "Any combination of complete / incomplete / ignored frames; tests have a handful of fixture folders.", "anchors": ["mabel/data/readers/internals/base_inner_reader.py:BaseInnerReader.get_list_of_blobs", "mabel/data/readers/internals/base_inner_reader.py:BaseInnerReader._extract_as_at", "mabel/data/readers/internals/base_inner_reader.py:BaseInnerReader._is_complete_and_not_invalid"]}
{"id": "C06", "title": "Backed-out records and markers are never served", "statement": "No blob whose name contains BACKOUT and no frame.complete marker of a selected frame is ever in the list of blobs to read; the list only contains blobs the store reported, in ascending order.", "quantifier": "every store content, date range and partitioning scheme", "why_tests_cant": "Quantifies over all store contents.", "anchors": ["mabel/data/readers/internals/base_inner_reader.py:BaseInnerReader.get_list_of_blobs"]}
{"id": "C07", "title": "Sub-partitions select their frames independently", "statement": "With a by_ partition, each sub-folder (by_x/x=v/) contributes exactly the data of its own newest complete frame, whatever frames its sibling sub-folders hold.", "quantifier": "every set of sub-folder names and frames", "why_tests_cant": "The failure needs two sub-folder names of which one is a prefix of the other (hour=1, hour=10); fixtures use zero padded hours.", "anchors": ["mabel/data/readers/internals/base_inner_reader.py:BaseInnerReader.get_list_of_blobs"]}
{"id": "C08", "title": "A batch is visible to readers all at once or not at all", "statement": "Whatever the point at which a batch write is cut off (crash after any storage operation), a reader of that folder sees either the previous complete frame unchanged or all records appended to the new batch, never part of it.", "quantifier": "every sequence of appended records, every blob rollover point, every crash point, every previous content of the folder", "why_tests_cant": "Crash points cannot be enumerated by running the code; the property joins the writer's and the reader's protocol.", "anchors": ["mabel/data/writers/batch_writer.py:BatchWriter.finalize", "mabel/data/writers/internals/blob_writer.py:BlobWriter.commit", "mabel/data/readers/internals/base_inner_reader.py:BaseInnerReader.get_list_of_blobs"]}
{"id": "C09", "title": "A batch once reported as failed is never marked complete", "statement": "After finalize(has_failure=True) no later finalize of that batch writer writes frame.complete; and finalize writes it only when records were appended or always_complete was requested.", "quantifier": "every sequence of append and finalize calls", "why_tests_cant": "Histories of calls of unbounded length.", "anchors": ["mabel/data/writers/batch_writer.py:BatchWriter.finalize"]}
{"id": "C10", "title": "Appended records are stored once each and in order", "statement": "At every moment the records in the committed blobs, in commit order, followed by the records still buffered are exactly the records accepted by append, in order; after a successful finalize everything is in committed blobs. A storage failure during a commit never discards a record that was accepted before.", "quantifier": "every sequence of appends, commits and finalizes, every record size, every pattern of storage failures", "why_tests_cant": "Every interleaving of sizes, rollovers and failures.", "anchors": ["mabel/data/writers/internals/blob_writer.py:BlobWriter.text_append", "mabel/data/writers/internals/blob_writer.py:BlobWriter.arrow_append", "mabel/data/writers/internals/blob_writer.py:BlobWriter.commit", "mabel/data/writers/internals/blob_writer.py:BlobWriter.open_buffer"]}
{"id": "C11", "title": "Blob size limit", "statement": "A committed text blob, before compression, is at most blob_size plus one record long, contains at least one record, and a blob is rolled over only once it is larger than blob_size.", "quantifier": "every sequence of record sizes and every blob_size", "why_tests_cant": "Boundary depends on all running sums of sizes.", "anchors": ["mabel/data/writers/internals/blob_writer.py:BlobWriter.text_append", "mabel/data/writers/internals/blob_writer.py:BlobWriter.arrow_append"]}
{"id": "C12", "title": "A record that fails the schema leaves no trace in a batch", "statement": "Writer.append of a record that fails validation raises, and neither the stored data nor the record count changes; a valid record is stored and counted exactly once.", "quantifier": "every schema predicate, every history of appends", "why_tests_cant": "Histories with arbitrary mixes of valid and invalid records.", "anchors": ["mabel/data/writers/writer.py:Writer.append"]}
{"id": "C13", "title": "Stream writes survive every interleaving with the pool attendant", "statement": "Whatever the interleaving of appends, background evictions (stale or over capacity) and finalize, every record accepted by a stream writer is afterwards in exactly one committed blob of its own partition, in per-partition append order, as long as the storage does not fail. (When it does, finalize swallows the failure and the pool no longer has the records: see C99.)", "quantifier": "every schedule of appends, attendant passes and clock values, any number of partitions, any pool capacity", "why_tests_cant": "Thread schedules cannot be enumerated by tests.", "anchors": ["mabel/data/writers/stream_writer.py:StreamWriter.append", "mabel/data/writers/stream_writer.py:StreamWriter.pool_attendant", "mabel/data/writers/stream_writer.py:StreamWriter.finalize", "mabel/data/writers/internals/writer_pool.py:WriterPool"]}
{"id": "C14", "title": "Invalid stream records go to BACKOUT and only there", "statement": "A record which fails the stream writer's schema is written below the BACKOUT folder of its partition, a valid one is not, so readers of the dataset see exactly the valid records.", "quantifier": "every schema predicate, record and date", "why_tests_cant": "Quantifies over all schemas, records and templates; joins writer and reader.", "anchors": ["mabel/data/writers/stream_writer.py:StreamWriter.append", "mabel/data/readers/internals/base_inner_reader.py:BaseInnerReader.get_list_of_blobs"]}
{"id": "C15", "title": "Record values cannot steer a stream write outside its folder", "statement": "When record values are substituted into the partition template, the resulting path has the same folder depth as the template: no record value can add, remove or climb a path component; and the append writes one copy per distinct combination of values.", "quantifier": "every template, every record value (any characters)", "why_tests_cant": "Adversarial values; tests use benign ones.", "anchors": ["mabel/data/writers/stream_writer.py:StreamWriter.append", "mabel/utils/text.py:sanitize"]}
{"id": "C16", "title": "Over-capacity eviction picks the least recently used writers", "statement": "When more writers are open than the pool size, the nominated writers are the least recently used ones, as many as the excess (but never more than the pool size), and no writer that stays was used earlier than one that goes.", "quantifier": "every pool content, capacity and access history", "why_tests_cant": "All access orders and sizes.", "anchors": ["mabel/data/writers/internals/writer_pool.py:WriterPool.nominate_writers_to_evict", "mabel/data/writers/internals/writer_pool.py:WriterPool.get_stale_writers"]}
{"id": "C17", "title": "A pool that is within capacity evicts nothing", "statement": "If no more writers are open than the pool size, no writer is nominated for eviction.", "quantifier": "every pool content and capacity", "why_tests_cant": "The violation needs a pool between half and fully used; the unit test only tries a full pool.", "anchors": ["mabel/data/writers/internals/writer_pool.py:WriterPool.nominate_writers_to_evict"]}
{"id": "C18", "title": "Database writer sends every row once, in full batches", "statement": "For every sequence of appends followed by finalize, the rows sent to the database are exactly the appended rows in order, in batches of exactly the batch size except possibly the last, no batch is empty, finalize reports the number of rows and the finalizer runs exactly once; a failed batch stays queued and is retried with the next commit.", "quantifier": "every number of rows, every pattern of database failures", "why_tests_cant": "All lengths and all failure patterns.", "anchors": ["mabel/data/writers/database_writer.py:DatabaseWriter", "mabel/adapters/database/base_database_writer.py"]}
{"id": "C19", "title": "A date range visits every hour once", "statement": "date_range(start, end) yields start, start+1h, ... in strictly increasing order, every value not later than the end, leaves out no hour that fits, and rejects an end before the start; hence every calendar day between the two dates is visited.", "quantifier": "every pair of dates, including leap days and year ends", "why_tests_cant": "Infinitely many ranges.", "anchors": ["mabel/utils/dates.py:date_range", "mabel/data/readers/internals/base_inner_reader.py:BaseInnerReader.__init__"]}
{"id": "C20", "title": "Dated folders are distinct and each is listed once", "statement": "With day level placeholders in the path, two moments give the same folder iff they are on the same day, and reading a range lists every day's folder exactly once in date order.", "quantifier": "every template with day placeholders, every range of dates", "why_tests_cant": "Injectivity over all pairs of dates.", "anchors": ["mabel/utils/paths.py:date_format", "mabel/utils/paths.py:build_path", "mabel/data/readers/internals/base_inner_reader.py:BaseInnerReader.get_list_of_blobs"]}
{"id": "C21", "title": "Freshness limit: the newest day within the limit, or an error", "statement": "With a freshness limit the reader reads the most recent day, going back at most the limit, that has any blob; it raises DataNotFoundError if there is none within the limit; the search always terminates.", "quantifier": "every limit, every history of days with and without data", "why_tests_cant": "All histories and limits; includes termination.", "anchors": ["mabel/data/readers/reader.py:_LowLevelReader._create_line_reader", "mabel/data/readers/internals/base_inner_reader.py:BaseInnerReader.step_back_a_day"]}
{"id": "C22", "title": "Dataset whitelisting", "statement": "With a non-empty valid_dataset_prefixes, Reader gives access only to datasets starting with one of the prefixes and raises AccessDenied otherwise, before anything is listed; an absent or empty list allows everything.", "quantifier": "every dataset name and prefix list", "why_tests_cant": "All strings.", "anchors": ["mabel/data/readers/reader.py:Reader"]}
{"id": "C23", "title": "Filtering and selecting while reading", "statement": "Reader(select=..., filters=...) returns the selected columns of exactly the records which satisfy the filter.", "quantifier": "every blob, filter predicate and column selection", "why_tests_cant": "The failing combination (filter on a column which is not selected) is not in the test-suite.", "anchors": ["mabel/data/readers/internals/parallel_reader.py:ParallelReader.__call__"]}
{"id": "C24", "title": "What is written is what is read", "statement": "Records written by the writer are read back by the reader as the same records in the same order, for any blob boundaries and in every format: jsonl and zstd give the records themselves, flat gives the records without nesting, Parquet gives the rows of the table, and the text format gives the texts.", "quantifier": "every list of records, every format, every rollover pattern", "why_tests_cant": "All contents (including values with newlines and empty strings) and all rollover points.", "anchors": ["mabel/data/writers/internals/blob_writer.py:BlobWriter.text_append", "mabel/data/readers/internals/decompressors.py:lines", "mabel/data/readers/internals/decompressors.py:zstd", "mabel/data/readers/internals/parallel_reader.py:ParallelReader.__call__"]}
{"id": "C25", "title": "A damaged record costs at most the rest of its own blob", "statement": "If a record cannot be parsed the reader still delivers every record before it in that blob and every record of every other blob; it never delivers a record that is not in the data and never raises.", "quantifier": "every position of damage in every blob layout", "why_tests_cant": "All damage positions.", "anchors": ["mabel/data/readers/internals/parallel_reader.py:ParallelReader.__call__", "mabel/data/readers/reader.py:_LowLevelReader._create_line_reader"]}
{"id": "C26", "title": "Multi-process reads deliver every blob exactly once under every schedule", "statement": "In multiprocess mode, for every interleaving of the parent and the workers, every blob is processed by exactly one worker and its records are delivered exactly once; the parent stops only when all are delivered and every schedule terminates, provided no worker gives up waiting for its first item.", "quantifier": "every number of blobs and workers, every schedule", "why_tests_cant": "Schedules cannot be enumerated.", "anchors": ["mabel/data/readers/internals/multiprocess_wrapper.py:processed_reader", "mabel/data/readers/internals/multiprocess_wrapper.py:_inner_process"]}
{"id": "C27", "title": "DNF filters mean what they say", "statement": "A tuple filter selects records whose field is present, not null and satisfies the operator; a list of tuples selects records satisfying all; a list of lists selects records satisfying any; no filter selects everything; any other shape is an error. Filtering keeps the order and is idempotent.", "quantifier": "every filter expression of any nesting, every record", "why_tests_cant": "Unbounded nesting, all records.", "anchors": ["mabel/data/internals/dnf_filters.py:evaluate", "mabel/data/internals/dnf_filters.py:DnfFilters"]}
{"id": "C28", "title": "Expression precedence", "statement": "Parsing the text of an expression gives the tree in which NOT binds tighter than AND, AND tighter than OR, and parentheses override; every tree has a text that parses back to it.", "quantifier": "every expression of any depth", "why_tests_cant": "Unbounded nesting.", "anchors": ["mabel/data/internals/expression.py:Expression.parse_expression", "mabel/data/internals/expression.py:Expression.parse_and_term", "mabel/data/internals/expression.py:Expression.parse_condition", "mabel/data/internals/expression.py:Expression.parse_terminal"]}
{"id": "C29", "title": "Every condition of an expression is applied", "statement": "No part of an accepted filter expression is ignored: if the text has conditions after the first, they influence the outcome as written.", "quantifier": "every accepted token sequence", "why_tests_cant": "The failing shape (IS NULL followed by AND) is one of infinitely many.", "anchors": ["mabel/data/internals/expression.py:Expression.parse_terminal"]}
{"id": "C30", "title": "LIKE follows SQL wildcards", "statement": "x LIKE p is true iff x (ignoring case) can be split to match p where % stands for any text and _ for exactly one character and every other character stands for itself.", "quantifier": "every pattern and text", "why_tests_cant": "All pattern/text pairs, including regex metacharacters.", "anchors": ["mabel/utils/text.py:like", "mabel/utils/text.py:_sql_like_fragment_to_regex", "mabel/utils/text.py:not_like"]}
{"id": "C31", "title": "sort_and_take is a stable sort followed by take", "statement": "sort_and_take(column, n, descending) returns the same records in the same order as sorting the entire set with a stable sort on the column (nulls first when ascending, last when descending) and keeping the first n.", "quantifier": "every set of records whose column holds numbers or holds texts (nulls and missing values allowed; Python does not compare the two), every n, both directions", "why_tests_cant": "The cache is trimmed at data dependent moments; all arrival orders matter.", "anchors": ["mabel/data/internals/dictset.py:DictSet.sort_and_take"]}
{"id": "C32", "title": "take returns the first n records", "statement": "take(n) returns the first n records (all of them if there are fewer) in order.", "quantifier": "every n and every set", "why_tests_cant": "n=0 and lengths around n.", "anchors": ["mabel/data/internals/dictset.py:DictSet.take", "mabel/data/internals/dictset.py:DictSet.itake"]}
{"id": "C33", "title": "distinct keeps the first of each equal group", "statement": "distinct() keeps, in order, the first occurrence of every distinct record, and distinct(columns) the first occurrence of every distinct combination of values of the columns.", "quantifier": "every set of records and columns", "why_tests_cant": "All pairs of records.", "anchors": ["mabel/data/internals/dictset.py:DictSet.distinct"]}
{"id": "C34", "title": "GROUP BY COUNT and SUM", "statement": "For each group the COUNT is the number of its records with a non null value (all records for COUNT(*)) and SUM the sum of its non null values; the order of records does not matter.", "quantifier": "every set of records, every grouping column", "why_tests_cant": "All multisets of records; truthiness of zero matters.", "anchors": ["mabel/data/internals/group_by.py:GroupBy.aggregate", "mabel/data/internals/group_by.py:GroupBy._map"]}
{"id": "C35", "title": "GROUP BY MIN and MAX", "statement": "For each group MIN and MAX are the least and the greatest of its non null values.", "quantifier": "every set of records", "why_tests_cant": "Only wrong when a zero is involved.", "anchors": ["mabel/data/internals/group_by.py:GroupBy.aggregate"]}
{"id": "C36", "title": "GROUP BY AVG and combined aggregates", "statement": "Each requested aggregate is the same whether requested alone or together with others; AVG is SUM divided by COUNT.", "quantifier": "every combination of requested aggregates and every set", "why_tests_cant": "All combinations of aggregates.", "anchors": ["mabel/data/internals/group_by.py:GroupBy.aggregate"]}
{"id": "C37", "title": "Grouping by several columns separates different value combinations", "statement": "Two records fall in the same group iff they agree on every grouping column, and every group has a row in the result.", "quantifier": "every pair of records and list of columns", "why_tests_cant": "Colliding pairs are rare.", "anchors": ["mabel/data/internals/group_by.py:GroupBy._map", "mabel/data/internals/group_by.py:GroupBy.aggregate"]}
{"id": "C38", "title": "Storage classes are interchangeable", "statement": "A DictSet holds the same records in the same order with the same count whether kept in memory, compressed in memory or on disk.", "quantifier": "every set of records of any size", "why_tests_cant": "Batch boundaries, empty sets and empty records.", "anchors": ["mabel/data/internals/storage_classes/storage_class_memory.py", "mabel/data/internals/storage_classes/storage_class_compressed_memory.py", "mabel/data/internals/storage_classes/storage_class_disk.py"]}
{"id": "C39", "title": "get_items returns the records at the given positions", "statement": "get_items(i, j, ...) returns the records at these positions, for every storage class.", "quantifier": "every set of records, every list of positions", "why_tests_cant": "Batch boundaries.", "anchors": ["mabel/data/internals/dictset.py:DictSet.get_items", "mabel/data/internals/storage_classes"]}
{"id": "C40", "title": "flatten keeps every leaf value", "statement": "Flattening a nested record gives one entry per leaf, named by its dotted path, with the leaf's value; nothing is lost.", "quantifier": "every nested record of any depth", "why_tests_cant": "Unbounded nesting; list fields collide.", "anchors": ["mabel/data/internals/records.py:flatten"]}
{"id": "C41", "title": "Suggestions use the true edit distance", "statement": "The distance used for parameter suggestions is the minimal number of single character insertions, deletions and substitutions; it is symmetric, zero only for equal words and satisfies the triangle inequality.", "quantifier": "every pair (triple) of words", "why_tests_cant": "All pairs of strings; minimality over all edit scripts.", "anchors": ["mabel/utils/parameter_validator.py:get_levenshtein_distance"]}
{"id": "C42", "title": "Parameter validation accepts exactly the valid calls", "statement": "A validated call goes ahead iff every parameter is known, every required one is present and no two incompatible ones are combined; otherwise a configuration error is raised and the function is not run.", "quantifier": "every rule set and every set of parameters", "why_tests_cant": "All combinations.", "anchors": ["mabel/utils/parameter_validator.py:validate", "mabel/data/readers/reader.py:RULES"]}
{"id": "C43", "title": "HTML output cannot be injected through values", "statement": "The HTML rendering of a text value contains none of the characters < > \" ' $ and decodes back to the original text, so different values are shown differently.", "quantifier": "every text", "why_tests_cant": "Adversarial text; order of replacements matters.", "anchors": ["mabel/data/internals/display.py:html_table"]}
{"id": "C44", "title": "random_range stays in range and random_string has the requested length", "statement": "For every source of random bytes random_range(a, b) with a<=b lies in [a, b] and can reach every value, random_choice returns a member, random_string(n) has exactly n characters of the base64 alphabet.", "quantifier": "every value of the random source and every argument", "why_tests_cant": "Tests sample the source.", "anchors": ["mabel/utils/entropy.py"]}
{"id": "C45", "title": "Histogram bins lose nothing", "statement": "Every value falls in exactly one bin: the bin counts add up to the number of values, and larger values never fall in lower bins.", "quantifier": "every list of numbers and number of bins", "why_tests_cant": "Boundary values.", "anchors": ["mabel/data/internals/histogram.py:bins"]}
{"id": "C46", "title": "SQL parsing always ends", "statement": "SqlParser accepts or rejects every statement; it never fails to return.", "quantifier": "every statement", "why_tests_cant": "Non-termination on an input outside the test-suite.", "anchors": ["mabel/data/readers/internals/sql_reader.py:SqlParser.parse"]}
{"id": "C47", "title": "SQL clauses are taken from the statement as written", "statement": "For every statement of the documented shape, SqlParser extracts exactly the written select list, dataset, WHERE, GROUP BY, ORDER BY and LIMIT parts.", "quantifier": "every combination of clauses with arbitrary clause contents", "why_tests_cant": "All combinations of optional clauses.", "anchors": ["mabel/data/readers/internals/sql_reader.py:SqlParser.parse", "mabel/data/readers/internals/sql_reader.py:SqlParser.collector"]}
{"id": "C48", "title": "SQL filters apply to sub-queries too", "statement": "SELECT ... FROM (sub-query) WHERE c returns only rows of the sub-query satisfying c.", "quantifier": "every sub-query and condition", "why_tests_cant": "Missing case in the code path, for all inputs.", "anchors": ["mabel/data/readers/internals/sql_reader.py:SqlReader"]}
{"id": "C49", "title": "SQL dataset names are confined to safe characters", "statement": "A dataset name accepted by the SQL parser consists only of letters, digits, '_', '-', '.' and '/' in the documented shape; in particular no '..' path component, no empty path component (other than after a trailing separator) and no absolute path reaches the reader.", "quantifier": "every text", "why_tests_cant": "Adversarial text.", "anchors": ["mabel/data/readers/internals/sql_reader.py:SqlParser.validate_dataset"]}
{"id": "C50", "title": "Select expressions: nested functions evaluate inside out", "statement": "A select list of columns, literals and nested function calls evaluates every call on the values of its arguments, for any nesting, and names each output column as documented (alias or text).", "quantifier": "every expression tree, every record", "why_tests_cant": "Unbounded nesting.", "anchors": ["mabel/data/readers/internals/inline_evaluator.py:build", "mabel/data/readers/internals/inline_evaluator.py:evaluate_field", "mabel/data/readers/internals/inline_evaluator.py:Evaluator"]}
{"id": "C51", "title": "Collected sets partition the records", "statement": "collect_set(column) splits the records into one sub-collection per distinct value: every record is in exactly the sub-collection of its value, in order, and the counts add up.", "quantifier": "every set of records", "why_tests_cant": "All sets.", "anchors": ["mabel/data/internals/collected_set.py:CollectedSet"]}
{"id": "C52", "title": "The hash of a set does not depend on record order", "statement": "hash(DictSet) is unchanged by reordering the records or the columns inside a record.", "quantifier": "every permutation of every set", "why_tests_cant": "All permutations.", "anchors": ["mabel/data/internals/dictset.py:DictSet.__hash__"]}
{"id": "C53", "title": "Projection keeps exactly the requested columns", "statement": "select(columns) gives for every record exactly the requested columns with the record's values, missing ones null, in the requested order; select_record_fields does the same for one record; set_value changes the named field only; order sorts a record by name without changing its entries.", "quantifier": "every record and column list", "why_tests_cant": "All combinations.", "anchors": ["mabel/data/internals/dictset.py:DictSet.select", "mabel/data/internals/records.py:select_record_fields", "mabel/data/internals/records.py:order", "mabel/data/internals/records.py:set_value"]}
{"id": "C54", "title": "Paths split and rebuild", "statement": "get_parts splits a path in bucket, folder, stem and extension which together give back the path; datasets with different names get different folders.", "quantifier": "every path", "why_tests_cant": "Names with dots, without folders, etc.", "anchors": ["mabel/utils/paths.py:get_parts", "mabel/utils/paths.py:build_path"]}
{"id": "C55", "title": "Duration texts", "statement": "parse_delta of a text '<d>d<h>h<m>m<s>s' (any subset, any case) is the duration it names; anything else is zero or its longest valid prefix, never an exception.", "quantifier": "every text, every number of each unit", "why_tests_cant": "All texts.", "anchors": ["mabel/utils/dates.py:parse_delta"]}
{"id": "C56", "title": "ISO dates parse to the moment they name", "statement": "parse_iso of the ISO text of a date or time (to the minute or the second, 'T' or blank separated, fraction and zone ignored) is that moment, and None for malformed text; it never raises.", "quantifier": "every valid date and time, every text", "why_tests_cant": "All dates; malformed texts.", "anchors": ["mabel/utils/dates.py:parse_iso"]}
{"id": "C57", "title": "Paging keeps every record", "statement": "page_dictset splits a stream in pages of the given size which concatenated give back the stream.", "quantifier": "every stream and page size", "why_tests_cant": "All lengths modulo the page size.", "anchors": ["mabel/data/readers/internals/threaded_wrapper.py:page_dictset"]}
{"id": "C58", "title": "Iterating a persisted set again", "statement": "A DictSet held in memory, compressed memory or on disk can be iterated any number of times, each giving all the records.", "quantifier": "every set, every interleaving of partial iterations", "why_tests_cant": "Histories of iterations.", "anchors": ["mabel/data/internals/dictset.py:DictSet.__iter__", "mabel/data/internals/storage_classes/base_storage_class.py"]}
{"id": "C59", "title": "Aggregating methods of a set", "statement": "min, max, sum, count, keys, collect_list agree with their definition on the list of non null values; keys is the union of all record keys.", "quantifier": "every set and column", "why_tests_cant": "All sets, including zero, null and missing values.", "anchors": ["mabel/data/internals/dictset.py:DictSet.max", "mabel/data/internals/dictset.py:DictSet.keys", "mabel/data/internals/dictset.py:DictSet.collect_list"]}
{"id": "C60", "title": "A partition filter prunes to exactly the matching sub-folder", "statement": "With a partition_filter on a field the data is partitioned by, the reader returns exactly the blobs of the sub-folder field=value (its newest complete frame); a filter on a field the data is not partitioned by has no effect; any operation other than equality is refused.", "quantifier": "every folder content, field and value", "why_tests_cant": "the pruning is by substring tests on names, so a finite set of names cannot show that no other name is caught", "anchors": ["mabel/data/readers/internals/base_inner_reader.py:BaseInnerReader.get_list_of_blobs"]}
{"id": "C61", "title": "Writers and readers agree on the folder", "statement": "The folder a writer of a dataset with partitions writes to for a day is the folder a reader of the same dataset and partitions lists for that day.", "quantifier": "every dataset name, partition template and moment", "why_tests_cant": "writer and reader normalise the path differently (get_parts against a trailing slash), over all names", "anchors": ["mabel/utils/paths.py:build_path", "mabel/data/writers/writer.py:Writer.__init__", "mabel/data/readers/internals/base_inner_reader.py:BaseInnerReader.__init__"]}
{"id": "C62", "title": "Text functions of select lists cut by position", "statement": "LEFT(x,n), RIGHT(x,n) and MID(x,a,n) give the first n, the last n and the n characters from position a of the text of x; LEFT and MID of a text make the text together; TRIM removes exactly the white space at the ends; UPPER and LOWER change the case only; CONCAT joins texts, with a comma and a space between the items of a list; SORT gives the same items in order; BETWEEN excludes both ends; ISNONE is true of missing values only, BOOLEAN false of 'false' only.", "quantifier": "every value and number", "why_tests_cant": "slices of every length and bound, including those beyond the text", "anchors": ["mabel/data/readers/internals/inline_functions.py:FUNCTIONS"]}
{"id": "C63", "title": "A SQL query returns the asked columns, in order, cut to the limit", "statement": "SELECT columns FROM dataset WHERE condition ORDER BY column LIMIT n returns exactly the asked columns of the records the reader has for the dataset and the condition, sorted by the column (records that compare equal keep their order), and of these the first n.", "quantifier": "every statement of this shape, however written, and every content of the dataset", "why_tests_cant": "all combinations of clauses and contents", "anchors": ["mabel/data/readers/internals/sql_reader.py:SqlReader"]}
{"id": "C64", "title": "Comments and white space in SQL make no difference", "statement": "Two SQL statements that differ only in comments and in the kind and amount of white space between their words are parsed alike; comment marks inside quotes are text.", "quantifier": "every statement and every placing of comments", "why_tests_cant": "comments and quotes can be nested into each other in unboundedly many ways", "anchors": ["mabel/data/readers/internals/sql_reader.py:SqlParser.remove_comments", "mabel/data/readers/internals/sql_reader.py:SqlParser.clean_statement"]}
{"id": "C65", "title": "What is committed to storage is listed and read back", "statement": "On disk, MinIO and Google Cloud Storage, the blobs a writer commits to a folder are listed once each by a reader of that folder and read back byte for byte; nothing already stored is lost or changed, and nothing stored elsewhere is listed.", "quantifier": "every storage, folder, earlier content, and sequence of commits", "why_tests_cant": "writers and readers build bucket and key of a blob by different code, over all names and contents", "anchors": ["mabel/adapters/disk/disk_writer.py:DiskWriter.commit", "mabel/adapters/disk/disk_reader.py:DiskReader", "mabel/adapters/minio/minio_reader.py:MinIoReader", "mabel/adapters/minio/minio_writer.py:MinIoWriter", "mabel/adapters/google/google_cloud_storage_reader.py:GoogleCloudStorageReader", "mabel/adapters/google/google_cloud_storage_writer.py:GoogleCloudStorageWriter", "mabel/data/writers/internals/base_inner_writer.py:BaseInnerWriter"]}
{"id": "C66", "title": "The completion marker lands in the batch's own folder", "statement": "Finalizing a batch stores frame.complete in the folder of the batch on every storage, where readers look for it, also if the batch has no records and always_complete is set.", "quantifier": "every storage, folder and number of blobs committed before", "why_tests_cant": "the place depends on the adapter's state at the time of finalize", "anchors": ["mabel/data/writers/batch_writer.py:BatchWriter.finalize", "mabel/adapters/google/google_cloud_storage_writer.py:GoogleCloudStorageWriter.commit"]}
{"id": "C67", "title": "An expression converted to DNF selects the same records", "statement": "Expression(text).to_dnf() is a DNF filter which selects exactly the records the expression selects.", "quantifier": "every expression and record", "why_tests_cant": "expressions nest without bound", "anchors": ["mabel/data/internals/expression.py:Expression.to_dnf", "mabel/data/internals/dnf_filters.py:evaluate", "mabel/data/readers/internals/parallel_reader.py:ParallelReader.__init__"]}
{"id": "C68", "title": "Date functions in a selection follow the calendar", "statement": "Of every ISO text of a date and time, YEAR, MONTH, DAY, HOUR, MINUTE, SECOND, DATE, TIME, QUARTER and WEEK (ISO 8601) are the parts of that date; ADDDAYS is the date that many days later or earlier at the same time of day, DAYSDIFF counts the days between two dates and undoes ADDDAYS; what is no date gives null, not an error.", "quantifier": "every valid date of the years 1 to 9999, time, fraction and zone, and every number of days", "why_tests_cant": "leap years, week 53 and the ends of months and of the calendar; all pairs of dates", "anchors": ["mabel/data/readers/internals/inline_functions.py:get_week", "mabel/data/readers/internals/inline_functions.py:add_days", "mabel/data/readers/internals/inline_functions.py:diff_days", "mabel/utils/dates.py:parse_iso"]}
{"id": "C69", "title": "Number functions keep integers", "statement": "INTEGER and TRUNC of an integer are that integer, of null are null; ROUND(n, -k) is the nearest multiple of a power of ten.", "quantifier": "every integer and number of places", "why_tests_cant": "floating point changes only large integers", "anchors": ["mabel/data/readers/internals/inline_functions.py:parse_number", "mabel/data/readers/internals/inline_functions.py:FUNCTIONS"]}
{"id": "C70", "title": "types tells the type of every column", "statement": "DictSet.types(n) names every column of the first n records once, with the name of the type of its values; int and float together are numeric, other combinations mixed; nulls do not count, and a column with nothing else is empty. (The code violates parts of this.)", "quantifier": "every set, number of rows, column and storage class", "why_tests_cant": "depends on all values of a column and on what iterating does to the set", "anchors": ["mabel/data/internals/dictset.py:DictSet.types", "mabel/data/internals/dictset.py:DictSet.take"]}
{"id": "C71", "title": "A sample is the given fraction of the records, in order", "statement": "DictSet.sample(fraction) gives some of the records in their order, each with the chance of the fraction.", "quantifier": "every set, fraction and sequence of random numbers", "why_tests_cant": "probabilities, over all random numbers", "anchors": ["mabel/data/internals/dictset.py:DictSet.sample"]}
{"id": "C72", "title": "The ASCII table shows every value under its column", "statement": "to_ascii_table(limit) shows the first records of the set, one line each, every value in the column of its key, all lines of one length.", "quantifier": "every set and limit", "why_tests_cant": "column widths depend on all rows shown", "anchors": ["mabel/data/internals/display.py:ascii_table", "mabel/data/internals/dictset.py:DictSet.to_ascii_table"]}
{"id": "C73", "title": "Overlapping batches are read one at a time, the newest complete one", "statement": "Any number of batches of one folder, started in different seconds, may run at the same time and be killed at any point: a reader of the folder sees what it saw before until one of them is complete, and then exactly the records of the complete batch that was started last, in order, never a mixture.", "quantifier": "every number of batches, every interleaving of their storage operations, every crash point, every order of listing", "why_tests_cant": "needs every interleaving of several processes and every crash point", "anchors": ["mabel/data/writers/batch_writer.py:BatchWriter", "mabel/data/readers/internals/base_inner_reader.py:BaseInnerReader.get_list_of_blobs"]}
{"id": "C74", "title": "Every CSV row becomes the record it writes", "statement": "A .csv blob gives one record for each row after the first, in order: its fields under the names of the first row, whatever they hold (commas, quotes, line ends, nothing) and however they are quoted; what a row misses is null.", "quantifier": "every table of texts and every way of writing it as CSV", "why_tests_cant": "quotes, commas and line ends interact in unboundedly many ways", "anchors": ["mabel/data/readers/internals/decompressors.py:csv", "mabel/data/readers/internals/parallel_reader.py:KNOWN_EXTENSIONS"]}
{"id": "C75", "title": "Compressed blobs and archives read as what they hold", "statement": "A .zip blob gives the records of its members with a known extension, in the order of the archive, archives in archives included; an .lzma blob those of its lines. A damaged member or line ends the blob, what was read before it is kept; an archive holding itself does not make the reader hang.", "quantifier": "every archive, nesting and point of damage", "why_tests_cant": "nesting is unbounded and damage may be anywhere", "anchors": ["mabel/data/readers/internals/decompressors.py:unzip", "mabel/data/readers/internals/decompressors.py:lzma"]}
{"id": "C76", "title": "An XML document becomes one record with everything in it", "statement": "An .xml blob gives one record: each element is the dictionary of its children by name, attributes under @name and text under #text; several children of a name are a list in document order; namespaces are left out.", "quantifier": "every document", "why_tests_cant": "trees of any depth and shape", "anchors": ["mabel/data/internals/xmler.py:etree_to_dict", "mabel/data/internals/xmler.py:strip_namespace", "mabel/data/readers/internals/parsers.py:xml"]}
{"id": "C77", "title": "A format override decides how blobs are read", "statement": "With override_format every blob of the data set is read in that format, whatever its name; the override may be in any case and with or without a dot.", "quantifier": "every format, blob name and content", "why_tests_cant": "ranges over all names, cases and contents", "anchors": ["mabel/data/readers/internals/parallel_reader.py:ParallelReader", "mabel/data/readers/reader.py:_LowLevelReader._create_line_reader"]}
{"id": "C78", "title": "Data handed to the null reader is read back", "statement": "A Reader with NullReader and data gives back exactly the data, in order.", "quantifier": "every list of records and range of dates", "why_tests_cant": "ranges over all data and all ranges", "anchors": ["mabel/adapters/null/null_reader.py:NullReader"]}
{"id": "C79", "title": "A schema is the same however it is given", "statement": "The columns of a writer's schema may be given as a list, as columns or fields of a dictionary, as a JSON text or as the path of a file: the schema is the same, nothing of a dictionary is lost, and the dictionary can be used for another writer. Only False makes a writer without a schema; none at all is an error.", "quantifier": "every list of columns, dictionary, text and file", "why_tests_cant": "ranges over all dictionaries and texts, and calls in sequence", "anchors": ["mabel/data/validator/__init__.py:schema_loader"]}
{"id": "C80", "title": "Means and variances are those of the numbers in the column", "statement": "mean(column) is the arithmetic mean and variance(column) the sample variance of the numbers in the column, whatever the order of the records; records without the column don't count, and a column with too few numbers or with anything else in it is refused.", "quantifier": "every set of records and every column", "why_tests_cant": "ranges over all numbers and all orders of the records", "anchors": ["mabel/data/internals/dictset.py:DictSet.mean", "mabel/data/internals/dictset.py:DictSet.variance"]}
{"id": "C81", "title": "What a stream writer stores is what a reader reads", "statement": "Records appended to a StreamWriter over days, its attendant thread committing writers meanwhile and its pool evicting them, are read back after finalize: a Reader of the same dataset and of any days gives exactly the valid records whose append returned on those days, each once, in the order of the appends, also when the writer partitions by the hour.", "quantifier": "every stream of records, schedule of the attendant thread, pool size, blob size and range of days", "why_tests_cant": "ranges over all histories, schedules and clocks, and composes writer, store and reader", "anchors": ["mabel/data/writers/stream_writer.py:StreamWriter", "mabel/data/writers/internals/writer_pool.py:WriterPool", "mabel/data/readers/internals/base_inner_reader.py:BaseInnerReader.get_list_of_blobs", "mabel/data/readers/reader.py:Reader"]}
{"id": "C82", "title": "A stored batch is read whole or not at all", "statement": "A batch writer with partitions naming the day that stores on disk, in MinIO or in Google Cloud Storage, and is killed at any point, leaves storage from which a reader of that day gives either exactly the records it gave before, or exactly the records the writer accepted, in order and each once: the latter if and only if the completion marker was stored. How often the storage lists a blob makes no difference.", "quantifier": "all three storages, all contents of storage before, all records, all failing attempts, all points at which the writer is killed, all parts of the day read and all numbers of records", "why_tests_cant": "Writer, storage and reader are separate programs that only share names and bytes; a test fixes one interleaving and one crash point.", "anchors": ["mabel/data/writers/batch_writer.py:BatchWriter", "mabel/adapters/disk", "mabel/adapters/minio", "mabel/adapters/google", "mabel/data/readers/reader.py:Reader", "mabel/data/readers/internals/base_inner_reader.py:get_list_of_blobs"]}
{"id": "C83", "title": "A SQL query over a dataset answers with the stored records", "statement": "SqlReader of a statement SELECT ... FROM dataset WHERE ... answers from the records stored in the dataset: those for which the condition holds, with the columns, functions and aggregates of the list computed for each of them or each group, distinct, sorted and limited as asked; the records of a complete batch are all among them, and no others.", "quantifier": "every statement, list of columns, condition, stored records and storage", "why_tests_cant": "ranges over all statements and records, and composes the SQL parser, the reader's selection and filter, and the storage", "anchors": ["mabel/data/readers/internals/sql_reader.py:SqlReader", "mabel/data/readers/reader.py:Reader", "mabel/data/readers/internals/parallel_reader.py:ParallelReader", "mabel/data/readers/internals/inline_evaluator.py:Evaluator", "mabel/data/internals/expression.py:Expression"]}
{"id": "C84", "title": "A range of days is read as its days one after the other", "statement": "Reading a dataset from one moment to another gives what reading each of the days it touches gives, one after the other in the order of the days, none left out and none twice; it raises DataNotFoundError if every one of the days does, and otherwise days without data add nothing. The hours of the two moments make no difference.", "quantifier": "every storage, content of the blobs, partition filter, selection and filter of the reader, pair of moments in years of four digits, and number of records", "why_tests_cant": "ranges over all ranges of days (months, leap years) and all contents of storage; the days share one listing, one order and one cursor", "anchors": ["mabel/data/readers/internals/base_inner_reader.py:BaseInnerReader.get_list_of_blobs", "mabel/data/readers/reader.py:Reader", "mabel/utils/dates.py:date_range"]}
{"id": "C85", "title": "A batch changes what is read of its day and of nothing else", "statement": "A batch writer for one day, killed at any point, changes nothing of what is read from other days of the dataset or from other datasets. In a read of any range of days with its day among them, its records take the place of the records of its day once the completion marker is stored; until then the read gives what it gave before.", "quantifier": "all three storages, all contents before, all records, failing attempts and crash points, all ranges, datasets, selections and filters", "why_tests_cant": "ranges over all pairs of writers and readers which share storage, and over all crash points", "anchors": ["mabel/data/writers/batch_writer.py:BatchWriter", "mabel/adapters/disk", "mabel/adapters/minio", "mabel/adapters/google", "mabel/data/readers/reader.py:Reader", "mabel/data/readers/internals/base_inner_reader.py:BaseInnerReader.get_list_of_blobs"]}
{"id": "C86", "title": "Rendered errors show every frame and the code that failed", "statement": "render_error_stack called while an error is handled goes through the error, its raised cause or else the error that was being handled when it was raised, and so on, and through the frames of each in order; each frame is shown with its file, line and function, its variables with their values in one column, and the failing line of the file, marked, with the three lines before and after it as far as the file has them. Nothing else is shown. (The code violates this in the first three lines of a file, where the file's last line is shown as line 0, and in files with form feeds, where another line is marked.)", "quantifier": "all chains of exceptions, tracebacks, variables, files and failing lines", "why_tests_cant": "ranges over all chains and all positions in files; tests fail on a line in the middle of a file", "anchors": ["mabel/errors/render_error_stack.py:render_error_stack", "mabel/errors/render_error_stack.py:_build_error_stack", "mabel/errors/render_error_stack.py:_read_from_code", "mabel/errors/render_error_stack.py:bar_label"]}
{"id": "C87", "title": "Colour names in a text become codes or nothing", "statement": "colorize replaces each of the 25 names in braces by its terminal code, and with can_colorize=False by nothing, and leaves every other character of the text as it was. (Without colours the code violates this for texts like {R{RED}ED}, where a name comes together from the two sides of one taken out.)", "quantifier": "all texts", "why_tests_cant": "ranges over all texts; the replacements are made one after the other and could meet each other's output", "anchors": ["mabel/utils/colors.py:colorize"]}
{"id": "C88", "title": "Stream writers one after the other lose nothing that was stored", "statement": "Stream writers started one after the other over the same storage, each when the one before was finalized or killed, never disturb what an earlier one stored. A reader of a day or of a range of days gives, for each day, the records of the writers one after the other: of a finalized writer all records of that day it accepted, in order and each once; of a killed writer the first of them.", "quantifier": "any number of writers, all their records and schedules, every point at which each is killed, all daily partitions (one day) or those writing year, month and day in that order (a range), all selections and filters of the reader", "why_tests_cant": "ranges over all histories of writers and all crash points; a test runs one writer to its end over empty storage", "anchors": ["mabel/data/writers/stream_writer.py:StreamWriter", "mabel/data/writers/internals/writer_pool.py:WriterPool", "mabel/data/writers/internals/blob_writer.py:BlobWriter", "mabel/data/readers/reader.py:Reader", "mabel/data/readers/internals/base_inner_reader.py:BaseInnerReader.get_list_of_blobs"]}
{"id": "C89", "title": "Threads may share a stream writer", "statement": "Several threads may append to one StreamWriter at once while its attendant thread evicts idle and surplus writers. Whatever the schedule of their single steps, the answers of the calls and what is stored are as if the calls had been made one after the other; each thread's calls keep their order. After finalize every record a thread had accepted is stored exactly once in each of its folders. No schedule leaves a thread waiting for ever, even if storage fails.", "quantifier": "any number of threads and calls, every schedule of single steps (also between finding a writer and appending to it, and between evicting a writer and committing it), every clock and storage", "why_tests_cant": "ranges over all interleavings of threads, which a test cannot choose", "anchors": ["mabel/data/writers/stream_writer.py:StreamWriter.append", "mabel/data/writers/stream_writer.py:StreamWriter.pool_attendant", "mabel/data/writers/stream_writer.py:StreamWriter.finalize", "mabel/data/writers/internals/writer_pool.py:WriterPool"]}
{"id": "C90", "title": "A stream partitioned by a field is read by that field", "statement": "A StreamWriter whose dataset ends in /by_F/F={F} stores each valid record in the folder of its value of F, or of each member of its list. A Reader with a partition filter (F, =, v) over a day or a range of days gives exactly the records appended on those days with that value, each once and in order, and none with another value; without a filter it gives the records of every value. (The code violates this for values containing BACKOUT, which are never read; for names of fields with characters other than letters, digits and spaces, where the filter is ignored; and for values which differ in such characters only, which share a folder.)", "quantifier": "all records, values, schedules of the attendant and the pool, all daily partitions (one day) or chronological ones (ranges), all readable formats, all selections and filters", "why_tests_cant": "ranges over all values and their texts and over all histories; a test has a few plain values in one folder", "anchors": ["mabel/data/writers/stream_writer.py:StreamWriter.append", "mabel/utils/text.py:sanitize", "mabel/data/readers/internals/base_inner_reader.py:BaseInnerReader.get_list_of_blobs", "mabel/data/readers/reader.py:Reader"]}
{"id": "C91", "title": "A table for a web page shows the records and nothing of them is markup", "statement": "to_html_table gives a page fragment in which a reader of pages finds, for every set of records, exactly the tags of the table: a head with the names of the columns, a row for each of the first limit records, in each row a cell for each column with the value as text and as title, and the footer. Whatever texts the values and the names of columns are, they add no tag, end no attribute and stand for the same texts again. (The code violates parts of this: a list of numbers among the values raises TypeError; a limit of 0 shows all records; the cells of a row are never closed, so that each column opens two.)", "quantifier": "all records, all values and names of columns including those with markup, quotes and references, every limit and origin of the records", "why_tests_cant": "ranges over all texts of values and names; whether one of them can break out of its cell cannot be settled by examples", "anchors": ["mabel/data/internals/display.py:html_table", "mabel/data/internals/dictset.py:DictSet.to_html_table"]}
{"id": "C92", "title": "A stream on disk, in MinIO or in Google Cloud Storage is read back", "statement": "What a StreamWriter accepted is read back by a Reader from the same storage, be it a file system, MinIO or Google Cloud Storage: over a day or a range of days in which nothing was stored before, partitioned by day or by day and hour, it gives exactly the valid records whose append returned on those days, in order and each once, and DataNotFoundError when there are none; what other datasets stored is neither read nor changed. So do several writers one after the other, of which those killed leave their first records.", "quantifier": "the three kinds of storage with anything stored in other folders, all records and schedules of the pool and attendant, all daily partitions (one day) or chronological ones (ranges), all readable formats, all selections and filters, every point at which a writer is killed", "why_tests_cant": "ranges over all contents of the storage, all names and histories; the tests write with a writer that stores nothing, or need a server", "anchors": ["mabel/adapters/disk/disk_writer.py:DiskWriter", "mabel/adapters/disk/disk_reader.py:DiskReader", "mabel/adapters/minio/minio_writer.py:MinIoWriter", "mabel/adapters/minio/minio_reader.py:MinIoReader", "mabel/adapters/google/google_cloud_storage_writer.py:GoogleCloudStorageWriter", "mabel/adapters/google/google_cloud_storage_reader.py:GoogleCloudStorageReader", "mabel/data/writers/stream_writer.py:StreamWriter", "mabel/data/readers/reader.py:Reader"]}
{"id": "C93", "title": "A context has the arguments and the configuration", "statement": "build_context(**arguments) returns a dictionary with every argument under its value, and everything else as the configuration file says, except that config is an empty dictionary when the file has none or a false one. Without such a file it raises IndexError, with a file that is not JSON ValueError, and with JSON that is no object AttributeError.", "quantifier": "all arguments, all contents of the configuration file and all files found", "why_tests_cant": "ranges over all dictionaries, including arguments and settings of the same name; the tests only look for the two errors", "anchors": ["mabel/utils/common.py:build_context"]}
{"id": "C94", "title": "Safe names of fields", "statement": "safe_field_name leaves of every name exactly its letters, digits, underscores and dashes, in order, and leaves safe names as they are. (Different names may become the same, and a name may become empty.)", "quantifier": "all texts", "why_tests_cant": "ranges over all texts", "anchors": ["mabel/utils/__init__.py:safe_field_name"]}
{"id": "C95", "title": "A drawn histogram shows its bins", "statement": "The drawing of a histogram has one character for each bin, as high as the number of whole eighths of the fullest bin: fullest bins are full blocks, empty bins are blank, fuller bins are never lower, and drawing never raises. (A bin with less than an eighth of the fullest is blank as well.)", "quantifier": "all numbers of bins and all contents", "why_tests_cant": "ranges over all lists of numbers; a wrong boundary shows for a few of them only", "anchors": ["mabel/data/internals/histogram.py:Histogram.__repr__"]}
{"id": "C96", "title": "A batch for a part of a day is all or nothing for that part, and leaves the other parts alone", "statement": "A batch writer whose partitions end in by_<field>/<field>=<fields of the date> (as by_hour/hour={HH}) may be killed at any point. A reader of the day with partition_filter (field, '=', value) then gets, for every other value, what it got before; for the value of the batch, what it got before as long as the completion marker is not stored, and afterwards exactly the records the writer took, in order, as selected and filtered. A reader of the day without partition_filter gets the parts one after the other, before and after. Other days and datasets are as before.", "quantifier": "every dataset, daily partitions followed by by_<field>/<field>=<fields of the date>, every storage (disk, MinIO, Google Cloud Storage with at least one record), records, failing attempts and crash point, select and filter, every content of the day whose live blobs are in frames of parts by the same field with values of one length, those of the batch's part being older", "why_tests_cant": "A test writes a few hours and reads them; it cannot kill the writer at every point over every content of the day.", "anchors": ["mabel/data/writers/batch_writer.py:BatchWriter", "mabel/data/readers/internals/base_inner_reader.py:BaseInnerReader.get_list_of_blobs", "tests/test_reader_hours.py"]}
{"id": "C97", "title": "Collections without repeats", "statement": "collect_set(column, dedupe=True) makes, for every value of the column, one collection with every different record that has the value exactly once and nothing else: no two records of a collection are equal, and a record is left out only if it repeats another.", "quantifier": "every set of records, every column and every hash function of texts", "why_tests_cant": "Whether a record is dropped depends on every record before it, on the hash of all their values and on Python's equality between values; no finite set of records covers the combinations.", "anchors": ["mabel/data/internals/collected_set.py:CollectedSet.__init__", "mabel/data/internals/dictset.py:DictSet.distinct"]}
{"id": "C98", "title": "A stream divided into datasets by fields of its records", "statement": "A stream writer's dataset may have fields of the record in the names of its folders, as in TEST/{key}/{value}. Once it is finalized, a reader of the dataset with given values in the places of the fields, as TEST/ann/x, gets over the days asked for exactly the valid records appended on those days whose fields (or some member of their lists) have the letters, digits and spaces of those values: each once, in the order of the appends on a day, day after day, and none of other values; DataNotFoundError when there are none. The same holds for writers one after the other, of which a killed one leaves the first of its records. This holds on disk, in MinIO and in Google Cloud Storage.", "quantifier": "every template of two folders or more with at most one field in each folder's name and literal text or dates around it, every sequence of appends and attendances, values of fields (whose members have some letter, digit or space, and differ in them within a list), pool, blob size, format that is read back (C24), select and filter, and every content of other folders", "why_tests_cant": "Which blobs a record lands in depends on the product of its lists, the sanitising of every value, the pool and the rotation; a test with a few records cannot show that no value of any record ever lands in the folder of another.", "anchors": ["mabel/data/writers/stream_writer.py:StreamWriter.append", "mabel/utils/paths.py:build_path", "tests/test_writer_stream_writer_substitutions.py"]}
{"id": "C99", "title": "Storage that fails duplicates nothing, and a second attempt loses nothing", "statement": "While the storage of a stream writer fails now and then, no record is stored in a folder more often than appends put it there, whatever the order of appends, evictions, finalizes and of the moments at which the interpreter collects blob writers that could not be stored. After finalize, once every such writer was collected (its destructor stores again) and none of these second attempts failed, every record for which append returned is stored, as often as it was appended to each of its folders; of the records whose append raised there may be some. (Their order may change, and when a second attempt fails the records are lost silently.)", "quantifier": "every sequence of appends, attendances, finalizes and collections, every pattern of failing attempts to store that leave nothing behind, every template, pool, format and blob size", "why_tests_cant": "The losses depend on which attempt fails and on when the garbage collector runs; neither can be enumerated by tests.", "anchors": ["mabel/data/writers/internals/blob_writer.py:BlobWriter.__del__", "mabel/data/writers/internals/blob_writer.py:BlobWriter.commit", "mabel/data/writers/internals/writer_pool.py:WriterPool.remove_writer", "mabel/data/writers/stream_writer.py:StreamWriter.finalize"]}
{"id": "C100", "title": "A batch writer that is thrown away changes nothing that is read", "statement": "A batch writer may be thrown away at any moment, before any finalize, after one that raised or after the last; the interpreter then stores the records it still holds. A reader of the day gets either exactly the records it got before the batch, or exactly the records of the batch: the latter if and only if the completion marker was stored, which throwing a writer away never does.", "quantifier": "every batch, format that is read back (C24), point at which the writer is thrown away or killed, failing attempt that leaves nothing behind, storage, part of the day, select and filter", "why_tests_cant": "The destructor runs whenever the interpreter decides, and stores a blob nobody asked for; tests finalize their writers.", "anchors": ["mabel/data/writers/internals/blob_writer.py:BlobWriter.__del__", "mabel/data/writers/batch_writer.py:BatchWriter.finalize", "mabel/data/readers/internals/base_inner_reader.py:BaseInnerReader.get_list_of_blobs"]}
{"id": "C101", "title": "What a failing storage kept of a stream is read back", "statement": "While the storage of a stream writer partitioned by the day or the hour fails now and then, a reader of any days gets at every moment only records that were appended on those days, none more often than it was appended. After finalize, once the blob writers that could not be stored were collected and these second attempts succeeded, the reader gets every valid record whose append returned on those days, as often as it was appended, and besides these at most some of the records whose append raised.", "quantifier": "every sequence of appends, attendances, finalizes and collections, every pattern of failing attempts that leave nothing behind, every format that is read back (C24), chronological template, range of days within the years 1000 to 9999, limit, select and filter", "why_tests_cant": "What is read depends on which attempt failed, on the pool and on the garbage collector; no test can go through the combinations.", "anchors": ["mabel/data/writers/stream_writer.py:StreamWriter.append", "mabel/data/writers/internals/blob_writer.py:BlobWriter.__del__", "mabel/data/writers/internals/writer_pool.py:WriterPool.remove_writer", "mabel/data/readers/reader.py:Reader"]}
{"id": "C102", "title": "Reading blobs in threads gives every page once, in order, and returns", "statement": "The threaded reader (processed_reader of the threaded wrapper) gives for every blob its pages of records in order and each once, however its eight threads interleave. When it returns, every page of every blob was given; and it does return, also when the client stops reading. (The code violates this: a blob read by a thread that read another one before, while other threads gave up waiting, can be lost silently; with fewer than eight blobs the signal to end can go to a thread that never had a blob, and the read then never returns; the last record of every blob is lost.)", "quantifier": "every list of blobs, number of pages of each, interleaving of the reader and the threads, threads giving up after a second, exceptions in threads, and every point at which the client stops or the time limit passes", "why_tests_cant": "Loss and hanging depend on which thread takes which message when; a test sees a few of the interleavings.", "anchors": ["mabel/data/readers/internals/threaded_wrapper.py:processed_reader", "mabel/data/readers/internals/threaded_wrapper.py:_inner_process", "mabel/data/readers/internals/threaded_wrapper.py:page_dictset"]}
{"id": "C103", "title": "What a failing disk, MinIO or Google Cloud Storage kept of a stream is read back", "statement": "The blobs of a stream writer partitioned by the day or the hour are committed to a file system, to MinIO or to Google Cloud Storage, and some of the commits fail and leave nothing behind. A reader of the same storage, over any days in which there was nothing before, gets at every moment only records that were appended on those days, none more often than it was appended. After finalize, once the blob writers that could not be stored were collected and these second attempts succeeded, it gets every valid record whose append returned, and of the others only records whose append raised.", "quantifier": "every kind of storage with any content elsewhere, every sequence of appends, attendances, finalizes and collections, every pattern of failing attempts that leave nothing behind, every format that is read back (C24), chronological template, range of days within the years 1000 to 9999, limit, select and filter", "why_tests_cant": "What is stored depends on which attempts failed and on the garbage collector, and where it is found on how each adapter names and lists blobs.", "anchors": ["mabel/data/writers/stream_writer.py:StreamWriter.append", "mabel/data/writers/internals/blob_writer.py:BlobWriter.commit", "mabel/adapters/disk/disk_writer.py:DiskWriter.commit", "mabel/adapters/minio/minio_writer.py:MinIoWriter.commit", "mabel/adapters/google/google_cloud_storage_writer.py:GoogleCloudStorageWriter.commit", "mabel/data/readers/reader.py:Reader"]}
{"id": "C104", "title": "Stream writers one after the other, while the storage fails now and then", "statement": "Any number of stream writers with the same settings write one after the other, partitioned by the day or the hour, to storage some of whose commits fail and leave nothing behind; writers may be killed before or after any blob, or never be finalized. A reader of any days then gets, of every writer that was finalized and whose second attempts succeeded, every valid record whose append returned, as often as it was appended, and of all others only records that were appended on those days, none more often than it was appended. On disk, in MinIO and in Google Cloud Storage alike.", "quantifier": "every number and sequence of writers, appends, attendances, finalizes and collections, every pattern of failing attempts that leave nothing behind, every point at which writers are killed, every format that is read back (C24), chronological template, range of days within the years 1000 to 9999, limit, select and filter", "why_tests_cant": "Which blobs exist depends on all the writers before, on where each was killed and on which attempts failed.", "anchors": ["mabel/data/writers/stream_writer.py:StreamWriter.append", "mabel/data/writers/internals/blob_writer.py:BlobWriter.__del__", "mabel/data/writers/internals/writer_pool.py:WriterPool.remove_writer", "mabel/data/readers/reader.py:Reader"]}
{"id": "C105", "title": "A stream divided by fields of its records, while the storage fails now and then", "statement": "Stream writers with the same settings write one after the other to a dataset with fields of the record in the names of its folders, as in TEST/{key}/{value}, to storage some of whose commits fail and leave nothing behind; writers may be killed before or after any blob, or never be finalized. A reader of the folders of given values over any days gets only records which have these values and were appended on those days: of every writer that was finalized and whose second attempts succeeded, every valid one whose append returned, as often as it was appended, and possibly some whose append raised; of the other writers none more often than it was appended. On disk, in MinIO and in Google Cloud Storage alike.", "quantifier": "every template of two folders or more with at most one field in each folder's name, every number and sequence of writers, appends, attendances, finalizes and collections, every pattern of failing attempts that leave nothing behind, every point at which writers are killed, values of fields (as in C98), format that is read back (C24), range of days within the years 1000 to 9999, limit, select and filter", "why_tests_cant": "A record of several values goes to several folders, and the storage can fail in any of them; a test sees a few patterns of failures and values.", "anchors": ["mabel/data/writers/stream_writer.py:StreamWriter.append", "mabel/utils/paths.py:build_path", "mabel/data/writers/internals/blob_writer.py:BlobWriter.__del__", "mabel/data/readers/reader.py:Reader"]}
{"id": "C106", "title": "What is committed to BigQuery is in its table", "statement": "A commit of the BigQuery inner writer which returns has added the rows of the blob to the table of the dataset, creating it with its columns and the expiry of its partitions if it was not there; a commit that raises has changed nothing, and no commit changes other rows. (The code violates the first part: the bytes are never sent, the table is always users.justin, and it is created without columns and expiry.)", "quantifier": "every sequence of commits, failing or not, every content of the tables before", "why_tests_cant": "Tests with a mocked client see that commit returns; that no commit ever adds a row is about all of them.", "anchors": ["mabel/adapters/google/bigquery_writer.py:GoogleBigQueryWriter.commit", "mabel/adapters/google/bigquery_writer.py:GoogleBigQueryWriter._get_table"]}
{"id": "C107", "title": "A stream partitioned by a field, asked for one value, while the storage fails now and then", "statement": "Stream writers with the same settings write one after the other to folders of days divided by the values of a field (/by_F/F={F}), to storage some of whose commits fail and leave nothing behind; writers may be killed before or after any blob, or never be finalized. A reader which asks for F = v over any days gets only records of that value appended on those days: of every writer that was finalized and whose second attempts succeeded, every valid one whose append returned, as often as it was appended, and possibly some whose append raised; of the other writers none more often than it was appended. On disk, in MinIO and in Google Cloud Storage alike.", "quantifier": "every chronological template followed by /by_F/F={F}, field of letters, digits and spaces, value without BACKOUT, every number and sequence of writers, appends, attendances, finalizes and collections, every pattern of failing attempts that leave nothing behind, every point at which writers are killed, records whose members differ in their folders (as in C90), format that is read back (C24), range of days within the years 1000 to 9999, limit, select and filter", "why_tests_cant": "A record of several values goes to several folders, and the storage can fail in any of them; a test sees a few patterns of failures and values.", "anchors": ["mabel/data/writers/stream_writer.py:StreamWriter.append", "mabel/data/writers/internals/blob_writer.py:BlobWriter.__del__", "mabel/data/readers/internals/base_inner_reader.py:BaseInnerReader.get_list_of_blobs", "mabel/data/readers/reader.py:Reader"]}
{"id": "C108", "title": "A dataset without partitions is read whole and once, whatever the dates", "statement": "A reader with partitions=[] looks at the folder of its dataset itself: every blob stored below it with an extension of data, at any depth, is read exactly once, in the order of the names, and nothing stored elsewhere is; when there is none, it is DataNotFoundError. The start and end dates, the time of the read and a slash at the end of the dataset's name make no difference. On disk, in MinIO and in Google Cloud Storage alike.", "quantifier": "every storage content, folder of two names or more, pair of dates, kind of storage, format, select, filter and limit; for the blobs which are read, folders whose blobs belong to no frame, no by_ partitioning and not to BACKOUT", "why_tests_cant": "The listing is made for every hour of the range and MinIO lists once more for each; a test with one day and three blobs does not see a blob read twice in another range.", "anchors": ["mabel/data/readers/internals/base_inner_reader.py:BaseInnerReader.__init__", "mabel/data/readers/internals/base_inner_reader.py:BaseInnerReader.get_list_of_blobs", "mabel/data/readers/reader.py:Reader"]}
{"id": "C109", "title": "A cursor resumed after more blobs were stored", "statement": "A client reads k records, saves reader.cursor (as an object, a dictionary or its text), more blobs are stored, and the client opens a new Reader with that cursor: it gets exactly the records it had not got, those of the new blobs included, each once. (The code violates it: a new blob whose name sorts before others moves the marks, so records are repeated and lost; more new blobs than fill the last byte of the map make the resumed read raise IndexError; a cursor object ignores new blobs.)", "quantifier": "every set of blobs before and after, every content, every interruption point including the end of the read, every way of saving the cursor", "why_tests_cant": "Whether the marks are moved depends on how the names of old and new blobs sort, and the exception on their numbers modulo eight.", "anchors": ["mabel/data/readers/internals/cursor.py:Cursor.load_cursor", "mabel/data/readers/internals/cursor.py:Cursor.__getitem__", "mabel/data/readers/reader.py:Reader"]}
{"id": "C110", "title": "The names of datasets given to writers", "statement": "A Writer raises InvalidDataSetError for a dataset name which is reserved (one that contains BACKOUT, braces or a percent sign, or ends in a slash), so that nothing is written where no Reader will look. A StreamWriter whose dataset has the marker {datefolders} or {datefolders_short} stores the records of a day in the folders year_Y/month_M/day_D or Y/M/D at the place of the marker, as with the partitions the marker stands for; raw_path=True is the same as no partitions. (The code violates the first: the exceptions are made and not raised, and what is stored under a name with BACKOUT is never read; and when something follows the marker the date goes to the end, and a BatchWriter takes the marker for the name of a folder.)", "quantifier": "every dataset name, storage, date range, adapter, date and way of writing the marker", "why_tests_cant": "Writing succeeds and the marker file is there; only reading any range of any such dataset shows the loss.", "anchors": ["mabel/data/writers/writer.py:Writer.__init__", "mabel/data/writers/stream_writer.py:StreamWriter.append", "mabel/data/writers/batch_writer.py:BatchWriter.__init__", "mabel/data/readers/internals/base_inner_reader.py:BaseInnerReader.get_list_of_blobs"]}
{"id": "C111", "title": "A batch of a dataset without partitions is read whole or not at all", "statement": "A BatchWriter with partitions=None on disk, MinIO or Google Cloud Storage takes records, some of its attempts to store fail, and it is killed at any point, even within an upload. A Reader with partitions=[] over the same storage, whatever its dates, then gives the records as before the batch, or, exactly if the completion marker was stored, the records the writer took, in order and each once, after the filter and the select of the reader.", "quantifier": "every sequence of records and finalizes, every pattern of failures which leave nothing behind, every crash point, every earlier frames of the folder, every adapter, every dates, filter and select", "why_tests_cant": "A crash can come between any two storage operations or within one; the number of interleavings of records, blobs and failures is unbounded.", "anchors": ["mabel/data/writers/batch_writer.py:BatchWriter", "mabel/data/writers/internals/blob_writer.py:BlobWriter", "mabel/data/readers/internals/base_inner_reader.py:BaseInnerReader.get_list_of_blobs", "mabel/data/readers/reader.py:Reader"]}
{"id": "C112", "title": "A stream of a dataset without partitions is read in the order of the appends", "statement": "A StreamWriter with partitions=None takes records at any times, with writers evicted from its pool, and is finalized. A Reader with partitions=[], whatever its dates, then gives exactly the valid records whose append returned, in the order of the appends even if the clock went back between them, after its filter and select: none lost, none twice, none of the records put aside as invalid. When there are none it raises DataNotFoundError.", "quantifier": "every sequence of appends and wakings of the attendant thread, every pool capacity, blob size and format that is read back, every dates, filter and select of the reader", "why_tests_cant": "The order of the records depends on the names of blobs made at any points of any schedule of evictions; tests see a few.", "anchors": ["mabel/data/writers/stream_writer.py:StreamWriter", "mabel/data/writers/internals/writer_pool.py:WriterPool", "mabel/data/readers/internals/base_inner_reader.py:BaseInnerReader.get_list_of_blobs", "mabel/data/readers/reader.py:Reader"]}
