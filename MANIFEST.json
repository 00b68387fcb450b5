{
 "claims": [
  {
   "property": "C01",
   "status": "proved",
   "theorems": [
    "cursor_resume_exact",
    "full_read_well_defined",
    "cursor_meaning",
    "cursor_resume_with_repeated_listing_refuted"
   ],
   "note": "for listings without repetitions (a hypothesis; the refuted theorem shows it is needed); xxh3 and orjson are parameters"
  },
  {
   "property": "C02",
   "status": "proved",
   "theorems": [
    "cursor_many_sessions"
   ],
   "note": ""
  },
  {
   "property": "C03",
   "status": "proved",
   "theorems": [
    "cursor_map_roundtrip",
    "cursor_partition_gone",
    "cursor_missing_field_rejected"
   ],
   "note": ""
  },
  {
   "property": "C04",
   "status": "proved",
   "theorems": [
    "serial_read_each_blob_once"
   ],
   "note": ""
  },
  {
   "property": "C05",
   "status": "proved",
   "theorems": [
    "newest_complete_frame_selected",
    "newest_complete_frames_of_a_range",
    "later_frames_have_greater_names"
   ],
   "note": "for names of the form mabel writes (tidy) and sub-folders of which none is the beginning of another"
  },
  {
   "property": "C06",
   "status": "proved",
   "theorems": [
    "backout_and_markers_never_served",
    "blob_selection_never_fails"
   ],
   "note": ""
  },
  {
   "property": "C07",
   "status": "partial",
   "theorems": [
    "subpartitions_independent_partial",
    "subpartitions_independent_refuted"
   ],
   "note": "false of the code when one sub-folder name is the beginning of another (hour=1, hour=10): refuted; proved otherwise"
  },
  {
   "property": "C08",
   "status": "proved",
   "theorems": [
    "batch_visible_all_at_once_or_not_at_all",
    "batch_frame_is_below_reader_folder",
    "later_frames_have_greater_names"
   ],
   "note": "one writer per frame, folder holding only older frames, storage failures leaving nothing behind; the listing is taken at one moment"
  },
  {
   "property": "C09",
   "status": "partial",
   "theorems": [
    "failed_batch_never_complete_partial",
    "marker_written_exactly_when",
    "failed_batch_never_complete_refuted"
   ],
   "note": "false when the commit inside finalize(has_failure=True) raises: refuted; proved when that call returns"
  },
  {
   "property": "C10",
   "status": "partial",
   "theorems": [
    "appended_records_stored_once_in_order",
    "appended_records_stored_parquet_partial",
    "raised_append_stores_nothing_refuted",
    "torn_blob_is_superseded_refuted"
   ],
   "note": "proved for the text formats; in parquet format an append that raised has kept its record (refuted); storage failures that leave a torn blob duplicate records (refuted)"
  },
  {
   "property": "C11",
   "status": "proved",
   "theorems": [
    "blob_size_limit",
    "rollover_only_when_full"
   ],
   "note": ""
  },
  {
   "property": "C12",
   "status": "proved",
   "theorems": [
    "invalid_record_leaves_no_trace",
    "record_count_exact"
   ],
   "note": ""
  },
  {
   "property": "C13",
   "status": "proved",
   "theorems": [
    "stream_records_stored_exactly_once",
    "stream_records_never_duplicated",
    "stream_records_survive_failures_refuted"
   ],
   "note": "lock regions are atomic steps; storage is reliable (a hypothesis; the refuted theorem shows that finalize swallows storage failures: the pool no longer has the records, and what becomes of them is C99)"
  },
  {
   "property": "C14",
   "status": "partial",
   "theorems": [
    "invalid_stream_records_in_backout_partial",
    "invalid_stream_records_never_read",
    "valid_stream_record_readable_refuted"
   ],
   "note": "invalid records are never read: proved; a valid record whose partition text contains BACKOUT cannot be read: refuted"
  },
  {
   "property": "C15",
   "status": "partial",
   "theorems": [
    "stream_partitions_of_a_record",
    "stream_append_counts_copies",
    "values_keep_partition_depth",
    "values_keep_partition_depth_partial",
    "value_removes_component_refuted",
    "stream_record_twice_in_a_partition_refuted"
   ],
   "note": "proved when every component of the template has literal text or the value has a letter, digit or space; false otherwise: refuted"
  },
  {
   "property": "C16",
   "status": "proved",
   "theorems": [
    "over_capacity_evicts_least_recently_used",
    "stale_writers_exact"
   ],
   "note": ""
  },
  {
   "property": "C17",
   "status": "partial",
   "theorems": [
    "within_capacity_evicts_nothing_partial",
    "within_capacity_evictions_counted",
    "within_capacity_evicts_nothing_refuted"
   ],
   "note": "false of the code between half full and full: refuted, with the exact number evicted; proved otherwise"
  },
  {
   "property": "C18",
   "status": "proved",
   "theorems": [
    "database_rows_sent_once_in_order",
    "database_finalize_sends_the_rest",
    "database_finalizer_at_most_once",
    "database_batches_full"
   ],
   "note": "batches are of exactly 100 when the database does not fail; a failed batch stays queued"
  },
  {
   "property": "C19",
   "status": "proved",
   "theorems": [
    "date_range_every_hour_once",
    "reader_takes_dates_in_either_order",
    "date_range_every_day",
    "civil_dates_correspond",
    "calendar_successor"
   ],
   "note": ""
  },
  {
   "property": "C20",
   "status": "proved",
   "theorems": [
    "folders_differ_iff_days_differ",
    "range_lists_each_day_once"
   ],
   "note": ""
  },
  {
   "property": "C21",
   "status": "proved",
   "theorems": [
    "stepping_back_shifts_the_range",
    "freshness_newest_day",
    "freshness_search_ends",
    "no_limit_no_stepping_back"
   ],
   "note": "For every limit and every history of days. A limit of at most one second is no limit. Stepping back before year 1 (OverflowError) is not modelled."
  },
  {
   "property": "C22",
   "status": "proved",
   "theorems": [
    "whitelist_confines_datasets"
   ],
   "note": "For every dataset name, prefix list and use of the reader."
  },
  {
   "property": "C23",
   "status": "partial",
   "theorems": [
    "select_and_filter_exact_partial",
    "select_before_filter_refuted"
   ],
   "note": "The filter is applied after the select: exact only if the filter gives the same on the selected columns; refuted otherwise."
  },
  {
   "property": "C24",
   "status": "partial",
   "theorems": [
    "written_then_read_partial",
    "written_then_selected",
    "batch_then_read_partial",
    "json_lines_are_read_back",
    "compressed_lines_are_read_back",
    "flat_lines_are_read_back",
    "parquet_is_read_back",
    "texts_are_not_read_back_refuted",
    "one_line_json_exists",
    "empty_records_lost_refuted"
   ],
   "note": "All histories, rollovers and clean storage failures, any select and filter, all formats but text: jsonl, zstd, flat, and Parquet by the contract of its library. Exactly the empty records are written but not read back (refuted); the texts of a blob come back as one (refuted)."
  },
  {
   "property": "C25",
   "status": "proved",
   "theorems": [
    "damage_costs_rest_of_blob",
    "reading_never_raises_nor_invents",
    "json_lines_rows_are_lines"
   ],
   "note": "Every damage position, every layout of JSON lines blobs; no exception for any blobs, select and filter."
  },
  {
   "property": "C26",
   "status": "partial",
   "theorems": [
    "blobs_at_most_once",
    "ended_means_all_delivered",
    "every_schedule_ends",
    "read_goes_on_until_ended",
    "give_up_blocks_the_end",
    "ended_read_returns",
    "abandoned_read_never_returns",
    "expired_read_never_returns",
    "records_pass_unchanged_partial",
    "null_becomes_text_refuted"
   ],
   "note": "Every schedule, number of blobs and workers. Records of numbers, booleans and texts pass unchanged; null and nested fields are changed into texts (refuted). A read stopped early or after 600 seconds never returns (proved, a finding)."
  },
  {
   "property": "C27",
   "status": "partial",
   "theorems": [
    "filter_means_what_it_says",
    "filter_returns",
    "filter_malformed_never_excludes",
    "filter_malformed_is_error_refuted",
    "filtering_selects_exactly",
    "filtering_returns"
   ],
   "note": "well-formed filters mean exactly AND of ORs and select exactly; 'a malformed filter is an error' is false for a malformed part after a part that decides: refuted"
  },
  {
   "property": "C28",
   "status": "partial",
   "theorems": [
    "expression_parsing_ends",
    "expression_precedence",
    "expression_unambiguous",
    "token_labels",
    "expression_tokens_partial",
    "expression_text_parses",
    "every_expression_tree_has_a_text",
    "in_list_members",
    "quoted_numbers_refuted",
    "quoted_texts_changed_refuted"
   ],
   "note": "Proved for every derivation of any depth at token level, and from text to tree for every text written with names, numbers, quoted texts, brackets, signs and keywords in any case; every tree of such comparisons has a text. Quoted texts may have the words and signs of the language inside, as long as no space stands between two of them and no other quote right after one: those, and repeated spaces, are changed by the tokenizer (quoted_texts_changed_refuted), so the claim is false of them. Function calls to the left of an operator are in the grammar (left_call); every_expression_tree_has_a_text leaves them out. Python's float is a parameter with hypothesis reads_floats."
  },
  {
   "property": "C29",
   "status": "partial",
   "theorems": [
    "expression_filter_exact",
    "expression_filter_as_written",
    "expression_filter_returns",
    "expression_filter_always_returns",
    "every_condition_applied_partial",
    "every_condition_applied_refuted"
   ],
   "note": "A filter keeps exactly the records satisfying its tree, and for texts of the grammar that tree is the one written. The claim for every accepted token sequence is false: tokens after the expression, anything after a NULL, and a function before a parenthesis are ignored (every_condition_applied_refuted)."
  },
  {
   "property": "C30",
   "status": "partial",
   "theorems": [
    "like_is_sql_like_partial",
    "like_characterised",
    "like_refuted"
   ],
   "note": "exact for texts without line feeds (and characterised for all); wildcards do not match line feeds: refuted"
  },
  {
   "property": "C31",
   "status": "proved",
   "theorems": [
    "sort_and_take_is_sort_then_take",
    "stable_sort_unique"
   ],
   "note": "columns of numbers or of texts (with nulls); n of 0 or more"
  },
  {
   "property": "C32",
   "status": "partial",
   "theorems": [
    "take_first_partial",
    "take_first_refuted",
    "take_zero_takes_all"
   ],
   "note": "take(0) returns every record: refuted; proved for n of at least 1"
  },
  {
   "property": "C33",
   "status": "partial",
   "theorems": [
    "distinct_columns_partial",
    "distinct_records_partial",
    "distinct_columns_refuted",
    "distinct_records_refuted"
   ],
   "note": "different records are confused whatever the hash: refuted; proved for columns of texts or of numbers, booleans and nulls, printed with a fixed width (last one free) and for records with the same names, without hash collisions"
  },
  {
   "property": "C34",
   "status": "partial",
   "theorems": [
    "group_by_exact_partial",
    "group_by_ignores_order",
    "group_by_count_refuted"
   ],
   "note": "Exact rows, COUNT and SUM for every set of records whose groups are told apart, with sums of at most 28 digits; the result is independent of the order of records. False otherwise: the count of a column with no values is null."
  },
  {
   "property": "C35",
   "status": "partial",
   "theorems": [
    "group_by_exact_partial",
    "group_by_min_max_refuted"
   ],
   "note": "MIN and MAX are exact when no value is zero; refuted when one is."
  },
  {
   "property": "C36",
   "status": "partial",
   "theorems": [
    "group_by_exact_partial",
    "group_by_combined_refuted",
    "group_by_average_refuted"
   ],
   "note": "Every aggregate is determined by its own column whatever else is requested, as long as no average is requested with the sum or count of its column; refuted there."
  },
  {
   "property": "C37",
   "status": "partial",
   "theorems": [
    "group_by_exact_partial",
    "groups_told_apart_partial",
    "groups_exact_partial",
    "group_by_columns_refuted",
    "group_by_types_refuted",
    "group_by_every_group_refuted"
   ],
   "note": "One row per group with values; keys separate columns of texts or of numbers, booleans and nulls, printed with a fixed width (last one free); refuted for ('a','bc')/('ab','c'), 1/'1' and groups without values."
  },
  {
   "property": "C38",
   "status": "partial",
   "theorems": [
    "storage_classes_hold_the_rows_partial",
    "compressed_memory_holds_nonempty_rows",
    "disk_holds_the_rows",
    "count_is_number_of_rows",
    "storage_classes_interchangeable_refuted"
   ],
   "note": "Proved for every non-empty set of non-empty records and any JSON and compression libraries which give back what they were given. False in full: compressed memory leaves out empty records, an empty set on disk raises ValueError when read."
  },
  {
   "property": "C39",
   "status": "partial",
   "theorems": [
    "get_items_compressed_memory_partial",
    "get_items_disk_partial",
    "get_items_list",
    "get_items_memory_refuted",
    "get_items_as_asked_refuted"
   ],
   "note": "Compressed memory and disk return the records at the positions in the order of the positions (disk each once); a list as asked. False in full: a set in memory returns nothing, the order asked for is not kept, asking for nothing returns everything."
  },
  {
   "property": "C40",
   "status": "partial",
   "theorems": [
    "flatten_leaves_partial",
    "flatten_lists_refuted"
   ],
   "note": "values in lists are lost: refuted; proved for nested records without lists"
  },
  {
   "property": "C41",
   "status": "proved",
   "theorems": [
    "levenshtein_is_fewest_edits",
    "levenshtein_is_a_metric"
   ],
   "note": "ignoring case, as the code lowers both words; zero exactly for words equal ignoring case"
  },
  {
   "property": "C42",
   "status": "partial",
   "theorems": [
    "validated_call_exact",
    "validated_argument_rules_refuted"
   ],
   "note": "exact for the rules of the function; incompatibilities among rules brought by an argument (an inner reader class) are not checked: refuted"
  },
  {
   "property": "C43",
   "status": "partial",
   "theorems": [
    "escaped_text_has_no_markup",
    "escaped_text_shows_the_text",
    "escaped_texts_differ",
    "table_markup_fixed",
    "table_returns_partial",
    "table_returns_refuted"
   ],
   "note": "escaping proved for every text and value, and for whole tables; rendering raises for lists of numbers: refuted"
  },
  {
   "property": "C44",
   "status": "proved",
   "theorems": [
    "random_range_exact",
    "random_range_reaches_all",
    "random_choice_member",
    "random_choice_reaches_all",
    "random_string_exact",
    "random_string_reaches_all"
   ],
   "note": "reaching every value needs a range of at most 2^64 values"
  },
  {
   "property": "C45",
   "status": "partial",
   "theorems": [
    "histogram_bins_exact_partial",
    "histogram_one_bin",
    "histogram_monotone",
    "histogram_last_bin_empty",
    "histogram_one_requested_refuted"
   ],
   "note": "exact division instead of floats; one requested bin raises ZeroDivisionError: refuted; the last bin is always empty"
  },
  {
   "property": "C46",
   "status": "partial",
   "theorems": [
    "statements_end_early_or_never_partial",
    "unknown_statement_never_ends",
    "order_then_part_never_ends",
    "statements_end_refuted",
    "statement_has_its_parts_partial"
   ],
   "note": "Refuted: ORDER BY a LIMIT 5 and any text starting with no word of SQL loop for ever. For every statement: it ends within as many rounds as it has characters, or never; statements of the documented shape end."
  },
  {
   "property": "C47",
   "status": "partial",
   "theorems": [
    "statement_has_its_parts_partial",
    "quoted_words_refuted"
   ],
   "note": "Every number and order of parts, case, white space and comments, sub-queries with any nesting. Words of SQL inside quotes cut the statement (refuted)."
  },
  {
   "property": "C48",
   "status": "partial",
   "theorems": [
    "where_of_query_ignored",
    "queries_are_filtered_refuted"
   ],
   "note": "Refuted: WHERE is ignored for every sub-query; the answer is that of the statement without WHERE."
  },
  {
   "property": "C49",
   "status": "proved",
   "theorems": [
    "accepted_names_are_safe",
    "accepted_folders_are_safe",
    "names_accepted",
    "last_folder_refuted"
   ],
   "note": "Every text. The last folder may be empty, as in FROM a. (shown)."
  },
  {
   "property": "C50",
   "status": "partial",
   "theorems": [
    "select_list_evaluates_partial",
    "select_list_columns_partial",
    "failing_function_raises",
    "select_list_fields_partial",
    "constant_fields_refuted",
    "column_alias_refuted",
    "quoted_comma_refuted",
    "select_list_reading_ends"
   ],
   "note": "Every written list, any nesting and white space, every record. The name after AS counts only for functions and quoted texts with commas are cut (refuted)."
  },
  {
   "property": "C51",
   "status": "proved",
   "theorems": [
    "collected_set_partitions",
    "collected_set_unhashable",
    "collected_set_lookup",
    "collected_set_count",
    "collected_set_aggregates",
    "collected_set_aggregates_nothing_of_its_column",
    "collected_set_applies",
    "collected_set_items",
    "select_several_collections_refuted"
   ],
   "note": "For columns whose values can be dictionary keys; others raise TypeError. dedupe=True is C97. Selecting several collections at once raises KeyError."
  },
  {
   "property": "C52",
   "status": "proved",
   "theorems": [
    "hash_order_independent",
    "hash_ignores_pairs"
   ],
   "note": "second theorem: a record occurring twice does not count"
  },
  {
   "property": "C53",
   "status": "proved",
   "theorems": [
    "select_exact",
    "select_record_fields_exact",
    "set_value_exact",
    "order_exact"
   ],
   "note": ""
  },
  {
   "property": "C54",
   "status": "partial",
   "theorems": [
    "paths_split_and_rebuild",
    "path_stem_and_extension",
    "path_of_a_bucket_only",
    "dataset_folders_distinct_partial",
    "dataset_folders_distinct_refuted"
   ],
   "note": "splitting proved for every text; distinctness proved with partitions, refuted without them for names with a dot"
  },
  {
   "property": "C55",
   "status": "partial",
   "theorems": [
    "duration_text_exact",
    "duration_text_prefix_partial",
    "duration_never_raises_refuted"
   ],
   "note": "'never an exception' is false for numbers beyond timedelta's range: refuted; everything else proved, the prefix being the longest there is"
  },
  {
   "property": "C56",
   "status": "partial",
   "theorems": [
    "iso_date_parses",
    "iso_minutes_parse",
    "iso_seconds_parse",
    "iso_parse_never_raises",
    "iso_accepted_partial",
    "iso_malformed_accepted_refuted",
    "iso_negative_offset_refuted"
   ],
   "note": "'None for malformed text' is false: refuted; round trip, never raising and the shape of what is accepted proved"
  },
  {
   "property": "C57",
   "status": "partial",
   "theorems": [
    "pages_cover_all_but_last_partial",
    "pages_of_nothing",
    "paging_keeps_every_record_refuted"
   ],
   "note": "The pages hold the stream without its last record, and an empty stream raises NameError, so the claim as stated is false."
  },
  {
   "property": "C58",
   "status": "partial",
   "theorems": [
    "uses_deliver_partial",
    "interleaved_iterators_in_order",
    "interleaved_iterator_complete",
    "loop_again_refuted"
   ],
   "note": "Everything which makes its own iterator sees all records after any history and any interleaving; a loop over the set itself goes on with the iterator made last, so a second loop is empty."
  },
  {
   "property": "C59",
   "status": "partial",
   "theorems": [
    "max_exact",
    "min_exact",
    "min_max_exact",
    "sum_exact",
    "collect_list_exact",
    "keys_exact",
    "keys_of_first_rows",
    "max_of_texts",
    "min_of_texts",
    "aggregates_skip_nulls_refuted"
   ],
   "note": "null values make max, min and sum raise: refuted; proved for columns of numbers, max and min for columns of texts too"
  },
  {
   "property": "C60",
   "status": "partial",
   "theorems": [
    "partition_filter_prunes_exactly",
    "partition_filter_on_other_field_ignored",
    "partition_filter_operator_checked",
    "partition_filter_name_prefix_hides_data_refuted"
   ],
   "note": "false when the field's name is the beginning of a partitioning's name: refuted; proved otherwise"
  },
  {
   "property": "C61",
   "status": "proved",
   "theorems": [
    "writer_folder_is_reader_folder"
   ],
   "note": ""
  },
  {
   "property": "C62",
   "status": "partial",
   "theorems": [
    "left_is_the_first_characters",
    "right_is_the_last_characters_partial",
    "right_of_nothing_refuted",
    "mid_is_the_characters_between",
    "left_and_mid_make_the_text",
    "concat_joins_texts",
    "concat_of_list_separates",
    "sort_orders_numbers",
    "sort_orders_texts",
    "sort_of_dictionary_orders_keys",
    "isnone_finds_missing_values",
    "boolean_is_false_of_false_only",
    "len_counts",
    "trim_removes_blanks_at_the_ends",
    "upper_and_lower_change_case_only",
    "between_excludes_its_ends"
   ],
   "note": "Every value and number; RIGHT(x,0) is the whole text (refuted)."
  },
  {
   "property": "C63",
   "status": "partial",
   "theorems": [
    "query_answer_partial",
    "grouped_answer_partial",
    "groups_answer_partial",
    "ungrouped_columns_are_refused",
    "count_of_nothing_refuted",
    "column_twice_refuted",
    "limit_zero_refuted"
   ],
   "note": "Every statement of the shape and every content, with AS, DISTINCT, GROUP BY, HAVING, inner queries. The reader and the filter of HAVING are parameters; new names must be new, DISTINCT and GROUP BY need hashes without collisions. LIMIT 0 gives everything, no records have no COUNT, a column asked for twice is lost (refuted)."
  },
  {
   "property": "C64",
   "status": "partial",
   "theorems": [
    "comments_and_spaces_do_not_matter",
    "every_text_is_words",
    "comments_refuted"
   ],
   "note": "Every statement, right or wrong. A line comment before a carriage return is kept (refuted)."
  },
  {
   "property": "C65",
   "status": "partial",
   "theorems": [
    "listing_is_the_folder_partial",
    "committed_blobs_are_read_back_partial",
    "minio_lists_once_per_hour",
    "listed_once_refuted",
    "cursor_partition_listed_twice",
    "without_extension_never_read",
    "committed_blobs_are_read_back_refuted"
   ],
   "note": "Every storage, content and sequence of commits. Refuted: MinIO lists a blob once for every hour of the range; objects without an extension cannot be read."
  },
  {
   "property": "C66",
   "status": "partial",
   "theorems": [
    "marker_is_in_the_folder_partial",
    "gcs_marker_of_empty_batch_is_lost",
    "marker_is_in_the_folder_refuted"
   ],
   "note": "Every storage and sequence of commits. Refuted: in Google Cloud Storage the marker of a batch without records goes elsewhere."
  },
  {
   "property": "C67",
   "status": "partial",
   "theorems": [
    "dnf_selects_the_same_partial",
    "every_expression_converts",
    "and_of_groups_is_taken_for_or",
    "and_with_a_group_fails",
    "not_fails",
    "text_equality_needs_quotes",
    "dnf_selects_the_same_refuted",
    "texts_refuted"
   ],
   "note": "Right for alternatives (any number and nesting) of up to two comparisons with integers. Refuted in general, with general theorems on AND of groups, NOT and texts."
  },
  {
   "property": "C68",
   "status": "partial",
   "theorems": [
    "parts_of_a_date",
    "quarter_of_a_date",
    "week_of_a_date",
    "not_a_date_is_null",
    "added_days",
    "parts_of_a_moment",
    "days_between",
    "days_between_added",
    "days_back_refuted",
    "one_instant_two_days_refuted",
    "hour_of_a_date_fails"
   ],
   "note": "Every date, time, zone and number of days, for ISO texts; WEEK with the algorithm of glibc's strftime. Refuted: DAYSDIFF the other way round is not the opposite number, the zone is not read; HOUR(DATE(d)) is an error."
  },
  {
   "property": "C69",
   "status": "partial",
   "theorems": [
    "integers_stay_partial",
    "integers_nearly_stay",
    "integers_stay_refuted",
    "rounded_to_tens",
    "rounded_integers_stay"
   ],
   "note": "Every integer: those of more than 53 bits are changed by INTEGER and TRUNC (refuted), by a bounded part (proved). Floats and texts are not modelled."
  },
  {
   "property": "C70",
   "status": "partial",
   "theorems": [
    "types_name_every_column",
    "types_of_a_uniform_column",
    "types_of_a_mixed_column",
    "types_of_nulls_refuted",
    "types_without_persistance_refuted"
   ],
   "note": "Proved for persisted sets and columns with values, for any naming of types (so floats are covered). False in full: a column of nulls is called mixed instead of empty, and every column of a set which is not persisted is called mixed."
  },
  {
   "property": "C71",
   "status": "partial",
   "theorems": [
    "sample_in_order",
    "sample_of_one_in_k_partial",
    "one_in_k_draws",
    "sample_of_more_than_half_is_all",
    "sample_of_more_than_one_fails"
   ],
   "note": "Every set and random numbers. The fraction holds for 1/k only; more than one half is everything (proved, a finding). 1/fraction is exact in the model."
  },
  {
   "property": "C72",
   "status": "partial",
   "theorems": [
    "table_is_aligned_partial",
    "table_lines_as_long_partial",
    "table_is_aligned_refuted",
    "table_of_nothing_refuted"
   ],
   "note": "Every limit and set of records with the same keys in the same order. Refuted for others: values are shown under wrong columns."
  },
  {
   "property": "C73",
   "status": "proved",
   "theorems": [
    "overlapping_batches",
    "overlapping_batches_read",
    "same_second_partial_batch_refuted"
   ],
   "note": "Every number of batches with different frames, interleaving and crash point; the blobs given hold exactly the newest complete batch's records. The read itself is shown for all formats which are read back (C24), any select and filter. Batches started in the same second share a frame and are mixed (refuted)."
  },
  {
   "property": "C74",
   "status": "partial",
   "theorems": [
    "csv_rows_read",
    "csv_blob_read_partial",
    "csv_line_break_lost_refuted"
   ],
   "note": "Every table and way of writing it, for fields without line ends; line ends inside quotes are lost (refuted). ASCII texts; the csv module is modelled after CPython, without its limit on the length of a field."
  },
  {
   "property": "C75",
   "status": "proved",
   "theorems": [
    "archive_read",
    "archive_damaged",
    "archive_of_itself_ends",
    "lzma_read"
   ],
   "note": "Every archive, nesting within Python's recursion limit and point of damage. zipfile, lzma and orjson are parameters."
  },
  {
   "property": "C76",
   "status": "partial",
   "theorems": [
    "xml_element_read",
    "xml_blob_read_partial",
    "xml_namespaces_removed_partial",
    "xml_namespaces_collide_refuted",
    "xml_blobs_empty_refuted"
   ],
   "note": "Every document without namespaces, and every document with namespaces in which no two names of one element's children or attributes become the same, given a Python with xml.etree.cElementTree. From Python 3.9 on XML blobs give nothing; names in different namespaces collide (refuted). Text after a child is not read."
  },
  {
   "property": "C77",
   "status": "partial",
   "theorems": [
    "override_decides_partial",
    "override_of_unknown_extensions_refuted"
   ],
   "note": "Every format, name and content of a blob which is read at all; blobs with an extension the reader does not know are dropped before the override is looked at (refuted)."
  },
  {
   "property": "C78",
   "status": "partial",
   "theorems": [
    "null_reader_reads_partial",
    "null_reader_repeats_refuted"
   ],
   "note": "Every data without empty records and every set of folders; the data comes once for every folder of the range (refuted for more than one)."
  },
  {
   "property": "C79",
   "status": "proved",
   "theorems": [
    "schema_however_given",
    "schema_keeps_everything",
    "no_schema_only_if_asked"
   ],
   "note": "orjson, the file system and RelationSchema.from_dict are parameters."
  },
  {
   "property": "C80",
   "status": "proved",
   "theorems": [
    "mean_exact",
    "mean_is_one",
    "mean_within_bounds",
    "mean_and_sum",
    "variance_exact",
    "variance_is_one",
    "variance_of_equals",
    "mean_of_any_order",
    "variance_of_any_order",
    "mean_refuses",
    "variance_refuses"
   ],
   "note": "Integers and booleans; the results are exact fractions, before Python converts them to a float. The standard deviation is not modelled."
  },
  {
   "property": "C81",
   "status": "partial",
   "theorems": [
    "stream_then_read_day_partial",
    "stream_then_read_range_partial",
    "stream_by_hour_then_read_partial",
    "stream_then_read_in_order_partial",
    "nothing_selected"
   ],
   "note": "Every stream, schedule, pool, blob size, select and filter, for all formats which are read back (C24). With storage that fails it is false (refuted, see C13); what holds then is in C101; folders that held blobs of earlier writers are in C88; templates with fields of the record are in C90 and C98. Ranges within the years 1000 to 9999."
  },
  {
   "property": "C82",
   "status": "partial",
   "theorems": [
    "stored_batch_is_read_whole_or_not_at_all_partial",
    "listing_repetitions_do_not_matter",
    "reader_looks_below_the_dataset",
    "batch_beside_parts_is_not_read"
   ],
   "note": "Every storage, crash point, failing attempt, part of the day, select and filter, for all formats which are read back (C24), in all partitions naming the day; a batch without records replaces the day by nothing on disk and in MinIO (in Google Cloud Storage refuted, see C66). Batches in by_ folders are in C96. False of the code for a batch beside by_ folders of the same day: it is never read, complete or not (batch_beside_parts_is_not_read)."
  },
  {
   "property": "C83",
   "status": "partial",
   "theorems": [
    "query_over_stored_records_partial",
    "grouped_query_over_stored_records_partial",
    "groups_query_over_stored_records_partial",
    "complete_batch_is_queried_partial",
    "days_are_queried_together",
    "stream_is_queried_partial",
    "failing_writers_are_queried",
    "failing_writers_divided_by_fields_are_queried",
    "failing_writers_by_field_are_queried",
    "blobs_are_queried",
    "query_until_error_partial",
    "grouped_query_until_error_partial",
    "groups_query_until_error_partial",
    "blobs_have_one_beginning",
    "every_wanted_record_is_answered_refuted",
    "conditions_are_comparable",
    "condition_on_computed_column_refuted"
   ],
   "note": "Every statement, dataset and reader which gives its records, and every complete batch, every stream, what writers left while the storage failed now and then (also divided by fields), and every range of days as such a reader. A condition that raises (only regular expressions and LIKE with something else than a text can, conditions_are_comparable) ends the blob it is in without a word: the answer is that over the records before it (query_until_error_partial), and one which the condition holds for may be missing (refuted). Missing: records beyond a number fixed before, and names of computed columns which are columns of the condition: WHERE sees the computed value (refuted)."
  },
  {
   "property": "C84",
   "status": "proved",
   "theorems": [
    "range_is_read_day_after_day",
    "stored_range_is_read_day_after_day",
    "day_first_partitions_out_of_order_refuted"
   ],
   "note": "Any storage, any content, any partition filter (first); the bytes on disk, MinIO and GCS with any selection and filter of the reader (second). Partitions naming the year before the month before the day, years of four digits; with the day first the order is lost (refuted)."
  },
  {
   "property": "C85",
   "status": "partial",
   "theorems": [
    "batch_leaves_other_days_and_datasets_alone",
    "other_days_are_not_above",
    "batch_changes_its_day_in_every_range_partial"
   ],
   "note": "Every storage, crash point, range, dataset, select and filter. For by_ folders see C96. False as in C82 for a batch beside by_ folders of the same day (batch_beside_parts_is_not_read). Ranges within the years 1000 to 9999; datasets inside a day's folder of another are excluded."
  },
  {
   "property": "C86",
   "status": "partial",
   "theorems": [
    "every_frame_is_shown",
    "every_error_has_one_chain",
    "no_error_shows_nothing",
    "failing_line_is_shown_partial",
    "first_lines_show_the_last_line",
    "failing_line_is_marked",
    "failing_line_is_shown_refuted",
    "other_line_marked_refuted",
    "labels_are_centred_partial",
    "labels_are_centred_refuted"
   ],
   "note": "Before textwrap.fill breaks long lines. The first three lines of a file and files with form feeds are refuted; labels with spaces get equals signs. Chains made into a circle by hand are not modelled."
  },
  {
   "property": "C87",
   "status": "partial",
   "theorems": [
    "colours_become_their_codes",
    "colours_are_taken_out_partial",
    "colours_are_taken_out_refuted"
   ],
   "note": "With colours: every text. Without colours: texts in which a brace opens only a name; false otherwise."
  },
  {
   "property": "C88",
   "status": "partial",
   "theorems": [
    "writers_after_each_other_day_partial",
    "writers_after_each_other_range_partial"
   ],
   "note": "Any number of writers with the same settings, killed at any blob, for all formats which are read back (C24). With storage that fails: C104. Templates with fields of the record are in C98. Ranges within the years 1000 to 9999."
  },
  {
   "property": "C89",
   "status": "proved",
   "theorems": [
    "one_thread_inside",
    "calls_are_as_if_alone",
    "threads_keep_their_order",
    "records_of_threads_stored_exactly_once",
    "records_of_threads_never_duplicated",
    "threads_never_stuck"
   ],
   "note": "Every schedule of single steps of any number of threads and the attendant, at the grain of calls on the pool and on a writer. Records are stored exactly once with storage that does not fail, as in C13; the other theorems hold for any storage. What is appended after the last finalize is not stored."
  },
  {
   "property": "C90",
   "status": "partial",
   "theorems": [
    "stream_by_field_then_read_day_partial",
    "stream_by_field_then_read_range_partial",
    "stream_by_field_then_read_all_partial",
    "stream_by_field_copies_partial",
    "field_stream_can_be_stored",
    "stored_field_value_is_read_partial",
    "stored_field_value_of_day_is_read_partial",
    "stored_field_values_are_all_read_partial",
    "value_like_a_backout_is_not_read_refuted",
    "field_with_underscore_is_not_filtered_refuted",
    "values_may_share_a_folder_refuted"
   ],
   "note": "Every daily (one day) or chronological (range) template followed by /by_F/F={F}. False of the code, and so missing: values with BACKOUT, names of fields with other characters, values which share a folder. Records whose list has two values of one folder come twice (proved). On disk, in MinIO and in Google Cloud Storage. What holds when storage fails is in C107. Ranges within the years 1000 to 9999."
  },
  {
   "property": "C91",
   "status": "partial",
   "theorems": [
    "html_texts_are_escaped",
    "html_table_shows_its_records",
    "html_table_returns",
    "html_table_of_numbers_refuted",
    "html_limit_of_nothing_refuted",
    "html_cells_are_closed_refuted"
   ],
   "note": "Every set of records, limit and order of the set of columns. False of the code, and so missing: tables of lists with numbers (exactly those raise), a limit of 0 (shows all), closed cells."
  },
  {
   "property": "C92",
   "status": "partial",
   "theorems": [
    "stored_stream_is_read_in_order_partial",
    "stored_stream_day_is_read_partial",
    "stored_sessions_are_read_partial",
    "stored_stream_keeps_other_blobs"
   ],
   "note": "Every kind of storage, with any content in other folders. Templates with fields of the record are in C90 and C98. With storage that fails: C103, C104. Missing: days in which something else than earlier writers of the stream stored blobs. Ranges within the years 1000 to 9999."
  },
  {
   "property": "C93",
   "status": "proved",
   "theorems": [
    "context_has_arguments_and_configuration",
    "context_errors"
   ],
   "note": "glob, open and orjson are parameters; the order of keys and the texts of errors are not stated."
  },
  {
   "property": "C94",
   "status": "proved",
   "theorems": [
    "safe_names",
    "safe_names_stay",
    "safe_names_differ_refuted"
   ],
   "note": "The property as stated is proved; that names stay different is refuted."
  },
  {
   "property": "C95",
   "status": "proved",
   "theorems": [
    "drawing_shows_the_bins",
    "drawing_of_empty_bins",
    "only_empty_bins_look_empty_refuted"
   ],
   "note": "Exact division where the code has floats: the same for bins of up to 2^49 values. That only empty bins are blank is refuted."
  },
  {
   "property": "C96",
   "status": "proved",
   "theorems": [
    "part_batch_is_all_or_nothing",
    "part_batch_leaves_other_days_and_datasets_alone",
    "other_days_are_not_above_parts",
    "killed_part_batch_hides_the_day_refuted"
   ],
   "note": "Every storage, crash point, failing attempt, part, select and filter, for all formats which are read back (C24). In Google Cloud Storage the batch has at least one record (see C66). The condition that the day has data in parts only is needed (refuted)."
  },
  {
   "property": "C97",
   "status": "partial",
   "theorems": [
    "deduped_collections_repeat_nothing",
    "deduped_collections_partial",
    "deduped_collections_refuted"
   ],
   "note": "No collection repeats a record, whatever the hash. Nothing but repeats is dropped for records with the same columns, whose values are told apart by their texts and by ==, without hash collisions. False in full: a record with the same values in other columns is dropped too."
  },
  {
   "property": "C98",
   "status": "proved",
   "theorems": [
    "fields_stream_can_be_stored",
    "stored_fields_are_read",
    "stored_fields_of_day_are_read",
    "stored_fields_of_writers_after_each_other"
   ],
   "note": "Every kind of storage, with any content in other folders; storage that does not fail (refuted otherwise, see C13; what holds then is in C105). Ranges within the years 1000 to 9999."
  },
  {
   "property": "C99",
   "status": "proved",
   "theorems": [
    "failing_storage_duplicates_nothing",
    "failing_storage_loses_nothing_collected",
    "collector_changes_nothing_else",
    "failing_storage_keeps_order_refuted",
    "failing_storage_loses_nothing_refuted"
   ],
   "note": "Failures leave nothing behind; collections happen between the regions guarded by the lock. That records keep their order, or survive a failing second attempt, is false (refuted)."
  },
  {
   "property": "C100",
   "status": "proved",
   "theorems": [
    "thrown_away_like_failed",
    "thrown_away_batch_is_read_whole_or_not_at_all"
   ],
   "note": "As C82: every storage, crash point, failing attempt, part of the day, select and filter."
  },
  {
   "property": "C101",
   "status": "proved",
   "theorems": [
    "failing_stream_is_read_without_duplicates",
    "failing_stream_is_read_complete"
   ],
   "note": "Failures leave nothing behind; templates of dates, by the day or by the hour."
  },
  {
   "property": "C102",
   "status": "partial",
   "theorems": [
    "threads_keep_pages_in_order",
    "threads_deliver_everything_partial",
    "threads_ended_read_returns",
    "threads_do_finitely_much",
    "threads_go_on_until_ended",
    "threads_read_never_returns",
    "threads_lose_last_record",
    "threads_deliver_everything_refuted",
    "threads_return_refuted"
   ],
   "note": "At most once and in order: every schedule. Everything delivered: unless too many threads give up or one ends with an exception (refuted). Returning: with eight blobs or more (refuted for fewer, with the general condition)."
  },
  {
   "property": "C103",
   "status": "proved",
   "theorems": [
    "stored_failing_stream_is_read_without_duplicates",
    "stored_failing_stream_is_read_complete"
   ],
   "note": "Failures leave nothing behind; templates of dates, by the day or by the hour, and days in which there was nothing before."
  },
  {
   "property": "C104",
   "status": "proved",
   "theorems": [
    "failing_writers_after_each_other",
    "stored_failing_writers_after_each_other"
   ],
   "note": "Failures leave nothing behind; templates of dates, by the day or by the hour; in the storage of the adapters days in which there was nothing before the first writer."
  },
  {
   "property": "C105",
   "status": "proved",
   "theorems": [
    "failing_streams_are_divided_by_their_fields",
    "stored_failing_streams_are_divided_by_their_fields"
   ],
   "note": "Failures leave nothing behind; an append that raises may have put the record into some of its folders. In the storage of the adapters days in which there was nothing before the first writer."
  },
  {
   "property": "C106",
   "status": "partial",
   "theorems": [
    "bigquery_tables_stay_partial",
    "bigquery_commits_store_nothing",
    "bigquery_creates_one_empty_table",
    "bigquery_stores_what_is_committed_refuted"
   ],
   "note": "That rows are added and that the table has its columns is false of the code, for every commit. That create_table of a reference makes a table without columns is an assumption on google-cloud-bigquery."
  },
  {
   "property": "C107",
   "status": "proved",
   "theorems": [
    "failing_streams_by_field_are_read",
    "stored_failing_streams_by_field_are_read"
   ],
   "note": "Failures leave nothing behind; an append that raises may have put the record into some of its folders. Values with BACKOUT, names of fields with other characters and values which share a folder are as in C90. In the storage of the adapters days in which there was nothing before the first writer."
  },
  {
   "property": "C108",
   "status": "proved",
   "theorems": [
    "unpartitioned_folder_is_listed_once",
    "unpartitioned_read_ignores_dates",
    "unpartitioned_folder_is_read_whole"
   ],
   "note": "Dates make no difference whatever the folder holds; frames in such a folder follow C06."
  },
  {
   "property": "C109",
   "status": "partial",
   "theorems": [
    "cursor_resumed_over_more_blobs_partial",
    "cursor_over_too_many_blobs_raises",
    "cursor_object_ignores_new_blobs",
    "cursor_resumed_over_earlier_blob_refuted",
    "growing_folder_is_read_on_partial"
   ],
   "note": "Also composed with the storage: a folder without partitions (with MinIO, for ranges within one hour: it lists blobs once for every hour). Proved for dictionaries and texts when the new names sort after the old ones and all blobs fit into the bytes of the map. False of the code, and so missing: more new blobs (IndexError, always), names before others (refuted), cursor objects (they ignore new blobs, always)."
  },
  {
   "property": "C110",
   "status": "partial",
   "theorems": [
    "reserved_names_are_refused_refuted",
    "reserved_name_is_never_read",
    "reserved_folder_is_never_read",
    "date_markers_are_partitions",
    "raw_path_means_no_partitions",
    "date_marker_is_where_the_date_goes_refuted"
   ],
   "note": "Proved for markers at the end of the name. False of the code, and so missing: reserved names are refused; markers followed by something; markers given to a BatchWriter."
  },
  {
   "property": "C111",
   "status": "partial",
   "theorems": [
    "unpartitioned_batch_is_read_whole_or_not_at_all_partial",
    "killed_batch_hides_other_blobs_refuted",
    "frames_hide_other_blobs"
   ],
   "note": "Missing, because false of the code: folders which hold blobs of no frame (a batch hides them as soon as its first blob is stored), and a batch without records in Google Cloud Storage (false of the code, see C66)."
  },
  {
   "property": "C112",
   "status": "partial",
   "theorems": [
    "unpartitioned_stream_is_read_partial"
   ],
   "note": "The names of blobs start with the time in nanoseconds, so one folder is read in the order of the appends. Missing: storage that fails (false of the code, see C101) and folders which held blobs before."
  }
 ]
}