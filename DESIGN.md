# Formal model of mabel in Rocq (Coq 8.16.1)

The model lives in `rocq/theories` (logical name `Verif`).  It is organised in four layers:

| layer | contents | rule |
|-------|----------|------|
| `Base/`  | Python-like primitives (exceptions as values, slices, ordered dicts, strings, stable sort) | no mabel code |
| `Model/` | one file per source area; executable Gallina functions which mirror the Python branch by branch | definitions only; every definition cites file:lines in /repo |
| `Spec/`  | what the property means, written without looking at the model's helpers | small, definitions only |
| `Proofs/`| lemmas | not part of the claim |
| `Props/` | the property theorems, each closed by `exact lemma`, followed by `Print Assumptions`; with `Example`s showing that the hypotheses are met by concrete non-trivial data | nothing else |

A property the code violates is stated at full strength and refuted: `..._refuted` gives a concrete
witness which can be traced through the Python; next to it is the strongest version which holds
(`..._partial`, or a theorem which describes exactly what the code does).

## Plan per property

| id | what is modelled | how it is proved |
|----|------------------|------------------|
| C01-C04 | `Cursor` class (load, next_blob, skip_to_cursor, get) and the serial loop of `_create_line_reader` as a state machine whose step is `next(reader)`; blob contents are arbitrary lists of records; the 64 bit hash of a blob name is a parameter | invariant tying the cursor state to the position in the full read; simulation of the resumed run; bit/hex codec round trip by induction on bytes |
| C05-C07 | `get_list_of_blobs` and its helpers on real strings (`in`, `split`, `sorted`) | characterisation of the frame loop; specification in terms of structured paths; refutation for prefix related sub-folders |
| C08-C12 | `BlobWriter`, `Writer`, `BatchWriter` as a state machine emitting storage operations, storage may fail at each operation | invariant over operation lists; every prefix of the storage operations is a crash state, fed to the modelled reader |
| C13-C17 | `StreamWriter`, `WriterPool`, the attendant thread; lock regions are atomic steps (justified by C89), arbitrary schedules | conservation invariant over schedules; slice arithmetic with Python negative bounds |
| C18 | `DatabaseWriter` | invariant |
| C19-C21 | dates as instants and civil dates (Gregorian calendar), `date_range`, `date_format`, `build_path`, step-back loop | arithmetic (lia), injectivity of decimal printing, bounded loop |
| C22, C42 | `Reader.__init__` checks, `validate` decorator | case analysis, equivalence with a declarative specification |
| C23-C25 | `ParallelReader.__call__` pipeline with lazy generators and failing parsers; line codecs; the serialisers of the formats. What a format needs to be read back is one predicate (`read_as`), which C24, C73, C81, C82, C85 and C88 assume and which is proved of jsonl, zstd, flat and Parquet | list induction; refutation |
| C26 | parent/worker protocol of `processed_reader` as a labelled transition system | invariant over all schedules, termination measure |
| C27 | `dnf_filters.evaluate` | mutual induction against a declarative semantics |
| C28, C29 | `Expression` recursive descent parser on tokens, evaluator | printer/parser round trip; refutation |
| C30 | `like` through the regular expression it builds | equivalence with a declarative wildcard relation |
| C31-C33, C52, C53, C58, C59 | `DictSet` methods | stable sort theory; list induction |
| C34-C37 | `GroupBy` | fold invariant; refutations |
| C38, C39 | storage classes | batches; state machine of iterations |
| C40 | `flatten` | structural induction; refutation |
| C41 | Levenshtein table | equality with the minimum over edit scripts |
| C43-C45 | html escaping, entropy, histogram | list induction, arithmetic |
| C46-C49 | SQL statement parser on its token list, `SqlReader` plan | fuel-indexed loop; divergence proved for every fuel |
| C50 | inline evaluator | printer/parser round trip |
| C51 | `CollectedSet` | fold invariant |
| C54-C56 | `paths.py`, `dates.py` on strings | string lemmas |
| C57 | `page_dictset` | refutation and exact description |
| C60, C61 | the `partition_filter` of `get_list_of_blobs`; `build_path`, the writer's and the reader's folder | string lemmas about names; equality of the two paths |
| C62 | the text functions, SORT, BOOLEAN, ISNONE and LEN of `inline_functions.py` | list lemmas (`firstn`, `skipn`, `concat`) and the order of a stable sort, for every length |
| C63 | `SqlReader`: groups, having, renames, select, distinct, order, limit over the records of a reader or of an inner query | composition of C47, C50, C35-C37, C33 and C31; renaming by induction over the keys of a record |
| C64 | `remove_comments`, `clean_statement` | induction over a declarative reading of comments and quotes |
| C65 | `commit`, `get_blobs_at_path` and `get_blob_bytes` of the disk, MinIO and Google adapters over a map from places to contents | invariants of the map over any sequence of commits |
| C66 | `BatchWriter.finalize` on these adapters | as C65, with the state of the inner writer |
| C67 | `Expression.to_dnf`, `dnf_filters.evaluate` | induction over expressions; general theorems for the shapes that fail |
| C68 | the date functions of `inline_functions.py` on the calendar of C19 and the parser of C20; strftime's week as in glibc | day numbers against an inductive calendar, ISO 8601 weeks from their definition |
| C69 | TRUNC, INTEGER (rounding of integers to 53 bits) and ROUND of integers | arithmetic |
| C70 | `DictSet.types` over any naming of types (so floats are covered), with what is left of the iterator the second time | the keys of C59 and case analysis on the set of names |
| C71 | `sample` with the random numbers as an argument | subsequence, counting multiples |
| C72 | `ascii_table` as lines of characters and box drawings | widths as an invariant over the rows |
| C73 | any list of writer runs with different frames, each cut at any point; the store lists the union | induction over the batches with the one-batch theorem generalised to folders with other frames |
| C74 | `str.splitlines`, the state machine of `csv.reader`, `DictReader` | a machine over the characters simulates the one over the lines; induction over the text |
| C75 | `unzip` with the recursion limit as fuel; `zipfile`, `lzma` as parameters | mutual induction over a relation saying what an archive holds |
| C76 | `etree_to_dict`, `strip_namespace` on trees | lookups in the grouped dictionary; induction over the tree; `Spec/Namespaces.v`: documents with and without namespaces as two related trees |
| C77 | `override_format` in `ParallelReader` and the choice of readable blobs | case analysis; the drop of unknown extensions refutes the full claim |
| C78 | `NullReader` under `get_list_of_blobs` and the line reader | the theorem on many folders, lines without a final end |
| C79 | `schema_loader` with what it does to the caller's dictionary | dictionary lookups; loading twice is loading once |
| C80 | `mean` and `variance` as Python's `statistics` module calculates them, with fractions | the mean balances the differences and is unique; sums of squares |
| C81 | `StreamWriter` and `WriterPool` composed with `get_list_of_blobs` and the reader | names of the commits are ordered by the clock; the folders of days are disjoint; sorted names give the order of the appends |
| C82 | `BatchWriter`, the three adapters and `Reader` composed: the log of the writer as operations of the inner writer, the listing and bytes of the adapter as what the reader reads | composition of C05, C24, C65 and C66; a read depends on the names listed and on the bytes of the served blobs only |
| C83 | `Reader(select, dataset, filters)` as `SqlReader` makes it, over any reader which gives the records of a dataset; a complete batch (C82), a stream (C81), what failing writers left (C104, C105, C107) and a range of days of such (C84) are | composition of C28 and C50 (conditions and lists), C63 (answers) and C82: the condition is evaluated after the list, so the list may change nothing the condition names; with a condition that raises, by the records of each blob before the first for which it does |
| C84 | the listing of a range over any storage and over the adapters, day by day | the blobs of a range are the blobs of its days in order (names of days sort by date), so the cursor goes through them as through each day's; a day's frames are chosen within its folder only |
| C85 | C82 with readers of any range and dataset | the names a batch stores are under no other day's folder, so their listings and bytes stay; then C82 for the day and C84 for the range |
| C86 | the chain of exceptions as a tree of causes and contexts; the rendering as a list of lines, before `textwrap.fill` (a parameter) | induction on the chain; the lines of a file as what is between its line feeds against `str.splitlines` and the loop over line numbers |
| C87 | `colorize` as its 25 replacements | invariant over the replacements made so far: the text is painted with those colours, by induction on the text; without colours by the pieces of C60 |
| C88 | the stream writer of C81 started again and again over the blobs of the writers before, with a writer killed after any of its blobs | the invariant of C13 from any storage; a prefix of the blobs keeps a prefix of each folder's records; induction on the writers, then the proof of C81 |
| C89 | `Threads.v`: threads with their own position in the code, references to writers, the module's lock; any thread makes the next step | refinement: what a thread inside the lock still does, done alone, gives the atomic step of `Stream.v`; invariant over all schedules; the sections end, by induction on their loops |
| C90 | the writer of C81 with /by_F/F={F} below the day's folders, composed with the partition filter of `get_list_of_blobs` | the folders of values are disjoint, since values have no slash; the filter's pattern occurs in a name exactly when the value is the folder's; then the proof of C81 for the folders of the values; over the adapters as in C92 |
| C91 | `html_table`: escaping, rows, columns, footer; the order of the set of columns is a parameter | a page reader (tags end outside quotes) run on the output by induction over rows and columns; escaping is injective and free of markup |
| C92 | the stream writers of C81 and C88 over the adapters of C65: every blob of the log is committed by the inner writer of its partition, made new or used before | the partitions of the stream are folders (C65), so each commit stores its blob where readers look; listings of a folder give the log's names below it; repetitions (MinIO) do not matter; then C81 and C88 |
| C93 | `build_context`: the files glob finds, open and orjson as parameters, dictionaries as lists of pairs | lookups in updated dictionaries |
| C94 | `safe_field_name`: runs of other characters are skipped | the recursion is a filter, by induction on the length |
| C95 | `Histogram.__repr__` with characters as heights 0 to 8, exact division | the maximum of the bins; bounds of division |
| C96 | C82's writer with by_<field>/<field>=<date> below the day's folders, composed with `partition_filter` | an entry of the day for every blob the batch leaves; the frame served in a part depends on the blobs of that part only (C06's selection per part); blobs of other parts differ in a folder; the day is the sorted concatenation of its parts since their folder names are prefixes of equal length |
| C97 | `CollectedSet` with `dedupe=True` | C33's `distinct`, then an invariant of the dictionary keyed by sets of items: its keys are pairwise different and every value is the same as its key |
| C98 | the stream writer of C81 with templates of folders named after fields of the record (`Spec/StreamLevels.v`), composed with the reader of the folders of given values | a folder of values is the reader's template filled in, since values have no slash; two assignments of values give the same folder only if they agree on every field; then the proof of C81 for that folder, and over the adapters as in C92 |
| C99 | `BlobWriter.__del__` of the writers whose commit raised in `remove_writer`: stream writers with storage that fails, in `Model/Collector.v` | invariant: what is stored, in the pool, in dropped writers and lost is a permutation of what was appended; without collections it is the machine of C13 |
| C100 | `BlobWriter.__del__` of a batch writer which is thrown away | it stores what a finalize(has_failure=True) would; then C82 |
| C101 | C99 with a reader of C81 | the blobs of the invariant of C99 are rows of ascending attempts, so they are listed and read day by day; the folders of the days divide the appends by their moments |
| C102 | `threaded_wrapper.py`: the reader, its eight threads and the two queues as a transition system in `Model/Threaded.v` | invariants: the places of the blobs, the pages seen of each blob, the numbers of signals and of threads; a decreasing weight for progress |
| C103 | C101 over the adapters of C92 | the blobs kept by the failing stream have names of its partitions, so the commits of C92 store them where readers look; then C101 |
| C104 | writers of C99 one after the other on the same storage (`Spec/FailingSessions.v`); one that is killed loses the blobs it would have stored after | the invariant of C99 holds from any storage; the rows of the writers follow each other with ascending attempts; then the reading of C101 and the adapters of C103 |
| C105 | the writers of C104 with the templates of C98 (`Spec/FailingLevels.v`: what is kept of the records with the given texts) | what the appends meant for a folder is what they meant for its day, cut to the records with its texts; then the reading of C98 over the rows of C104 |
| C106 | commits of the inner writer for BigQuery on the tables of the project (`BigQuery.v`) | cases of one commit, induction over commits; the adding of rows is refuted |
| C107 | the writers of C104 with the templates of C90, asked for one value | what the appends meant for the folder of a day and a value is what they meant for the day, cut to the records of the value; then the reading of C90 (`field_rowed`) over the rows of C104 |
| C108 | `Reader(dataset, partitions=[])`: the path of the dataset for every hour of the range, over the storage of the adapters | the path is the same for all hours, so it is listed once; the listing is what is stored below the folder (C65), and repetitions do not matter (C82) |
| C109 | the cursor of C01 loaded over a longer list of blobs | the invariant of C01 says what a saved cursor stands for over the old blobs; the bits of the map are followed by zeros up to a full byte, so over old and new blobs in that order the loaded cursor stands for the same records and then the new ones; with C108 the same of a folder in storage that grows between two readers (MinIO, which lists a blob once for every hour, for ranges within one hour) |
| C110 | what `Writer.__init__` makes of the name of the dataset (`WriterNames.v`): its checks, the markers for dates, raw_path | every listed name begins with the folder of its day, which contains the name of the dataset, so BACKOUT in it drops every blob (C06); the path with a marker has the same components as with the partitions, and the inner writer uses only these |
| C111 | the composition of C82 with the folder of the dataset in place of the folder of a day, read by the reader of C108 | as C82: the frame is a folder below the dataset (C65), the reader lists the dataset once (C108), and RoundTrip (C24) reads the blobs of the chosen frame |
| C112 | the composition of C81 with the folder of the dataset in place of the folders of days, read by the reader of C108 | every record goes to the one folder or to its BACKOUT; the names of the blobs grow with the clock (C81's proof for one folder); the reader lists the dataset once (C108) |

Not expressible in a model (and therefore not claimed): performance, memory use, the randomness quality
of `secrets`/`os.urandom`, real network behaviour of GCS/MinIO, the correctness of orjson, zstandard,
pyarrow, orso and xxhash (they appear as parameters with stated hypotheses).

## Trusted base

* Coq's kernel (8.16.1).
* `Print Assumptions` is run below every property theorem; the answer everywhere is
  "Closed under the global context" (no axioms at all).
* `coqchk -o` over the whole library lists, besides nothing else, the fields `Coq.ssr.ssrunder.Under_rel.*`
  of the standard library (the parameters of a module type of ssreflect's `under` tactic, loaded by `Lia`'s
  dependencies); no theorem here depends on them.
* The faithfulness of `Model/` to the Python, by reading (the code cannot be run here).  Each definition
  cites its source; simplifications are listed in the comment of the definition.
* Third-party code and the outside world are parameters of the theorems, with their hypotheses in the
  statement: orjson's `dumps`/`loads`, zstandard's round trip, `float()` and the date parser of the
  tokenizer (`reads_floats`), CityHash and xxHash, `random`, the storage, the clock.

## What is modelled

| Python | model | left out |
|--------|-------|----------|
| `data/readers/internals/cursor.py`, the serial loop of `parallel_reader.py` / `reader.py` | `Cursor.v` | logging |
| `data/readers/internals/base_inner_reader.py` | `Frames.v`, `Paths.v`, `ReadRange.v` | `ThreadPool` downloads |
| `data/readers/reader.py` | `Reader.v`, `ReadRange.v`, `Frames.v`, `Query.v` | persistence of the result (see `Storage.v`) |
| `data/readers/internals/parallel_reader.py`, `parsers.py`, `decompressors.py` | `Reader.v`, `Json.v`, `Decoders.v` | zstandard, lzma, zipfile, ElementTree and pyarrow themselves (parameters); CSV texts beyond ASCII |
| `data/internals/xmler.py` | `Decoders.v` | the tail of an element (the code does not read it) |
| `data/readers/internals/multiprocess_wrapper.py` | `Workers.v` | operating system failures other than the death of a worker |
| `data/readers/internals/threaded_wrapper.py` | `Threaded.v`, `Collections.v` (pages) | |
| `data/readers/internals/inline_evaluator.py`, `inline_functions.py` | `Evaluator.v`, `DateFunctions.v` | numbers that are not integers, `NOW`, `RANDOM`, `HASH`, `MD5`; in queries the functions of dates and numbers are a parameter |
| `data/readers/internals/sql_reader.py` | `Sql.v` | reading `thread_count`, `project` and the like |
| `data/writers/*.py`, `data/writers/internals/*.py` | `Writers.v`, `WriterNames.v`, `Formats.v` (text of a record per format), `Stream.v`, `Threads.v`, `Collector.v` (destructors), `Database.v` | indexing (removed upstream), parquet encoding (a parameter) |
| `data/internals/dictset.py`, `records.py`, `group_by.py`, `collected_set.py`, `dumb_iterator.py` | `DictSet.v`, `GroupBy.v`, `Collections.v`, `Columns.v`, `Views.v`, `Statistics.v` (fractions, before the conversion to floats) | pandas and arrow conversions, `standard_deviation` |
| `adapters/null/null_reader.py`, `data/validator/__init__.py` | `Sources.v` | `orso.RelationSchema` |
| `data/internals/storage_classes/*.py` | `Storage.v` | |
| `data/internals/dnf_filters.py`, `expression.py`, `utils/token_labeler.py` | `Filters.v`, `Expression.v`, `ToDnf.v`, `Tokens.v`, `Splitter.v` | texts other than ASCII |
| `data/internals/histogram.py`, `display.py`, `utils/entropy.py`, `utils/text.py` | `Utils.v`, `Views.v` (ASCII tables), `Html.v`, `Context.v` (drawings) | colours |
| `utils/paths.py`, `utils/dates.py`, `utils/parameter_validator.py`, `utils/common.py`, `utils/__init__.py` | `Paths.v`, `Dates.v`, `Utils.v`, `Context.v` | glob, open and orjson are parameters |
| `adapters/disk`, `adapters/minio`, `adapters/google`, `base_inner_writer.py` | `Adapters.v` | the client libraries; storage is a map from places to contents |
| `errors/render_error_stack.py`, `utils/colors.py` | `Errors.v` | `textwrap.fill`, `os.path.abspath` and the files are parameters; values of variables are their texts; chains of exceptions are finite |
| `adapters/google/bigquery_writer.py` | `BigQuery.v` | the client is a list of tables and whether its calls get through |
| `logging`, `resource_monitoring.py`, `timer.py`, `ipython.py` | not modelled | |

Numbers are integers (`VInt`); floats appear only as results given by parameters.  Texts are lists of
8-bit characters.

## Findings

What the proofs showed the code to do against its documentation.  Those marked with a theorem are proved.


### Reading

* With partitions which name the day before the month (`{dd}/{mm}/{yyyy}`) a range is not read in the order of its days.
* A date-only `end_date` covers the hour 00 only when the data is in hourly folders.
* `partition_filter` on a field with "_" in its name is ignored (`field_with_underscore_is_not_filtered_refuted`). A filter on `user`
  where the data is in `by_userid` reads nothing. Values which differ in punctuation only are read together
  (`values_may_share_a_folder_refuted`).
* The frame of `hour=1` is chosen among the blobs of `hour=1` and `hour=10` (`subpartitions_independent_refuted`).
* The other way round, a batch for a whole day which has data in a `by_` folder is never read, even when it is complete
  (`batch_beside_parts_is_not_read`).
* A batch for a part of a day (by_ partitions) hides the data of the day which is in no part as soon as its first blob is
  stored, also when it is killed before its completion marker: `killed_part_batch_hides_the_day_refuted`.
* A file name containing "by_" hides blobs; a partition value containing "BACKOUT" hides valid records
  (`value_like_a_backout_is_not_read_refuted`).
* A dataset without partitions whose last component has a dot loses it; a single component becomes "x/partitions/".
* The threaded reader can end without a blob (`threads_deliver_everything_refuted`), with fewer than eight blobs it may never return
  (`threads_return_refuted`), and it never gives the last record of a blob (`threads_lose_last_record`).
* The select list is applied before the filter (`select_before_filter_refuted`).
* Records without fields are written but not read back (`empty_records_lost_refuted`).
* A filter or select that raises on one record, or a blank line, silently loses the rest of the blob.
* A whitelist is a list of mere prefixes.
* With several processes null and nested values become texts (`null_becomes_text_refuted`); a worker that gives up in the first second delays the end by 600 s; if all workers die the read ends silently; an exception in the serialiser loses a blob. The log says "Sending TERMINATE" after 600 s, but nothing is sent: a read that is not complete then, and every read the client stops early, waits for its processes for ever (`abandoned_read_never_returns`, `expired_read_never_returns`).
* Repeated listings that differ in order break dictionary cursors.
* A saved cursor is used with more blobs than it was saved with: IndexError when they do not fit into the bytes of its map (`cursor_over_too_many_blobs_raises`), wrong marks when a new name sorts before others (`cursor_resumed_over_earlier_blob_refuted`); a cursor object ignores new blobs (`cursor_object_ignores_new_blobs`).
* The most recent day having only control blobs raises `DataNotFound`.
* MinIO lists every blob once per hour of the range (`listed_once_refuted`). A serial read from the start skips the repetitions (`listing_repetitions_do_not_matter`), worker processes do not, and a saved cursor restarts the blob it is in (`cursor_partition_listed_twice`).
* In MinIO and Google Cloud Storage a blob without an extension is listed but cannot be read (`without_extension_never_read`).
* A line end inside a quoted CSV field is lost: the text is split into lines without their ends before it is parsed.
* `.xml` and `.lxml` blobs are read as if empty on Python 3.9 and later: `xmler.py` imports `xml.etree.cElementTree`, which is
  gone; the reader logs the error and goes on.  On older versions, of two elements with the same name in different namespaces one is lost.
* A member of a ZIP archive which cannot be read hides the members after it; stored as blobs of their own they would be read.  A
  member whose name has no dot is read if its whole name is an extension (`jsonl`).
* `override_format` cannot make a blob readable whose extension is unknown: such blobs are dropped first.
* `NullReader` gives its data once for every folder of the date range (twice for two days).

### Writing

* A text blob may exceed `blob_size` by one record; a parquet append that raises has kept the record.
* A torn blob left by a failing put is kept beside its retry.
* `finalize(has_failure=True)` whose commit raises does not set `seen_failures`; frame identifiers have the resolution of a second; an append after `finalize` adds to a complete frame.
* A batch started in a folder with unframed blobs hides them, also when it is killed (`killed_batch_hides_other_blobs_refuted`, `frames_hide_other_blobs`).
* Of overlapping batches the one started last wins: one started before and finished after it is never read. Two started in the same second share a frame, and the first to finish makes blobs of the other visible (`same_second_partial_batch_refuted`).
* `StreamWriter.finalize` swallows storage failures; `remove_writer` removes before it commits; the attendant thread dies with a commit exception. What the removed writer held is stored by its destructor, whenever the interpreter collects it: out of order (`failing_storage_keeps_order_refuted`), and not at all if this second attempt fails (`failing_storage_loses_nothing_refuted`).
* Two partition values differing only in punctuation write a record twice into one partition; a partition of punctuation only vanishes.
* Records with `dump_model` skip schema validation; `Writer.__init__` doesn't raise for wrong names.
* Reserved names of datasets are accepted: `Writer.__init__` makes the exceptions and does not raise them (`reserved_names_are_refused_refuted`). With BACKOUT in its name a dataset is written and can never be read (`reserved_name_is_never_read`).
* `{datefolders}` followed by something puts the date at the end of the path, and a batch writer makes a folder of that name (`date_marker_is_where_the_date_goes_refuted`).
* The text format is not read back: the texts of a blob come back as one text with its line ends (`texts_are_not_read_back_refuted`).
* Integers beyond 64 bits are written by `json` after orjson refused them, and orjson does not read them back as integers (outside `writable` of `json_lines_are_read_back`).
* A database batch after a failure has 101 rows.
* In Google Cloud Storage the marker of a batch without records is stored under bucket/bucket/ (`marker_is_in_the_folder_refuted`).
* The BigQuery writer never sends the bytes it is given, always uses the table users.justin, and creates it without the columns and expiry it prepared: it creates the reference instead of the table (`bigquery_commits_store_nothing`, `bigquery_creates_one_empty_table`).
* The database NullWriter prints an INSERT statement without VALUES (not modelled: it only prints).

### Sets

* `take(0)` takes everything; `distinct` takes different records with equal hashes of their values for equal (`distinct_columns_refuted`).
* A collected set with `dedupe=True` drops a record whose values are those of another record in other columns (`deduped_collections_refuted`).
* `types()` calls a column of nulls `mixed`: the branch which sets `empty` is followed by an `if` instead of an `elif` (`types_of_nulls_refuted`); in a set which is not persisted every column is `mixed`, since reading the keys has used the generator up (`types_without_persistance_refuted`).
* `sample(fraction)` takes every record for each fraction above a half: `int(1 / fraction)` is one (`sample_of_more_than_half_is_all`); above one it raises `ZeroDivisionError`.
* `page_dictset` loses the last record of a page boundary and fails on empty sets.
* `get_items` differs between the storage classes (no positions: everything on disk and compressed; beyond the end: `RuntimeError` on disk; negative: shifted or `IndexError`).
* A collected set removes its own column from the records, so aggregating that column aggregates nothing (`collected_set_aggregates_nothing_of_its_column`).
* Iterating an empty disk set raises `ValueError`; a second `for` loop over a set goes on where the last iterator stopped.
* `hash` of a set: equal records cancel.
* The HTML table of a record with a list of numbers raises `TypeError` (`html_table_of_numbers_refuted`), a limit of 0 shows all records (`html_limit_of_nothing_refuted`), and cells are opened twice and never closed (`html_cells_are_closed_refuted`).
* The ASCII table shows values under the wrong column if a record lacks a key (`table_is_aligned_refuted`).
* `flatten` loses values of lists; `max`, `min` and `sum` raise on null (`aggregates_skip_nulls_refuted`).
* GROUP BY: MIN and MAX wrong with 0; AVG beside SUM or COUNT doubles; keys whose texts join to the same text collide; 1 and "1" are one group; groups of nulls only have no row; SUM loses digits beyond 28.

### Filters and expressions

* LIKE wildcards do not match line feeds; a malformed nested DNF part goes unnoticed.
* `a = '1'` and `a IN ('1')` are false for the text "1"; NULL is not consumed; trailing tokens are ignored; AND and OR do not short-circuit; BETWEEN excludes its ends; `a = NOT` fails at evaluation only.
* White space inside quotes is squashed, and a space between two words or signs of the language inside quotes is lost: `'x and not y'` becomes `'x andnot y'` (`quoted_texts_changed_refuted`); an unfinished quote drops the token; an unquoted word in an IN list loses its first and last character; names in two pairs of back quotes lose one pair per record.
* `to_dnf` turns an AND of groups into an OR, makes unusable filters of NOT and of three ANDs, and keeps the quotes of texts (`dnf_selects_the_same_refuted`, `texts_refuted`). The reader makes this filter but never applies it.
* `DAYSDIFF(a, b)` is not `-DAYSDIFF(b, a)`, zones are not read, `HOUR(DATE(d))` raises; `INTEGER` changes integers of more than 53 bits (`days_back_refuted`, `one_instant_two_days_refuted`, `integers_stay_refuted`).
* `RIGHT(x, 0)` is the whole text; the name after AS counts only for functions (SQL renames them later); quoted texts with commas are cut.

### SQL

* `ORDER BY a LIMIT 5` never returns, nor does any text that starts with no word of SQL (`order_then_part_never_ends`, `unknown_statement_never_ends`).
* WHERE is ignored on sub-queries (`where_of_query_ignored`); LIMIT 0 gives everything; ORDER BY without LIMIT gives at most 10000 rows; ORDER BY works on the selected columns only.
* `SELECT COUNT(*)` of no records has no row (`count_of_nothing_refuted`); a column asked for both under its own name and after AS loses the first, names cannot be swapped (`column_twice_refuted`).
* Words of SQL inside quotes cut the statement (`quoted_words_refuted`); line comments before a carriage return are kept (`comments_refuted`).
* WHERE is evaluated on the computed columns: `SELECT UPPER(name) AS dept ... WHERE dept = 'x'` compares the name (`condition_on_computed_column_refuted`).
* A condition which raises for a record (LIKE with a number as its pattern) ends the reading of its blob: records after it for which the condition holds are missing from the answer, without a word (`every_wanted_record_is_answered_refuted`).
* `FROM a.` names the dataset "a/"; "[" counts as a parenthesis after FROM.

### Utilities

* `parse_iso` accepts "2020- 1- 1", trailing text and negative offsets as seconds; `parse_delta` overflows.
* `validate` ignores `incompatible_with` in rules from parameters.
* The last bin of a histogram is always empty, one bin is a division by zero.
* An error in one of the first three lines of a file is rendered with the last line of the file as line 0
  (`render_error_stack.py` 125: `max(line - extend_by, 0)`, then `lines[-1]`): `first_lines_show_the_last_line`,
  `failing_line_is_shown_refuted`.
* The rendering means to skip frames without a file, such as `<stdin>`, but `os.path.abspath` has made their names begin
  with a slash before it looks: they are shown with their variables (`every_frame_is_shown`).
* `str.splitlines` ends lines at form feeds, which Python does not count: after one the wrong line is marked
  (`other_line_marked_refuted`).
* The bar above the code has an equals sign for each space of a file name (`labels_are_centred_refuted`).
* `colorize(text, can_colorize=False)` can leave colour names: `{R{RED}ED}` becomes `{RED}`
  (`colours_are_taken_out_refuted`).
