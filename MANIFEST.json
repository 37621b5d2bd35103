{
 "claims": [
  {
   "property": "C01",
   "status": "proved",
   "theorems": [
    "C01_bitslice_counts"
   ],
   "note": ""
  },
  {
   "property": "C02",
   "status": "proved",
   "theorems": [
    "C02_top_k",
    "C02_top_k_any_bitslice"
   ],
   "note": ""
  },
  {
   "property": "C03",
   "status": "proved",
   "theorems": [
    "C03_weights_unpacked",
    "C03_round_trip"
   ],
   "note": ""
  },
  {
   "property": "C04",
   "status": "partial",
   "theorems": [
    "C04_window_stays_in_document_refuted",
    "C04_window_exact_partial"
   ],
   "note": "REFUTED as documented: the window can include the first position of the next document (min(next_start, ...) + 1). Proved: exact characterisation of what is returned."
  },
  {
   "property": "C05",
   "status": "proved",
   "theorems": [
    "C05_round_datetime"
   ],
   "note": ""
  },
  {
   "property": "C22",
   "status": "proved",
   "theorems": [
    "C22_initialise_clusters"
   ],
   "note": ""
  },
  {
   "property": "C23",
   "status": "proved",
   "theorems": [
    "C23_merge_clusters",
    "C23_merge_clusters_members",
    "C23_merge_nothing_raises"
   ],
   "note": ""
  },
  {
   "property": "C24",
   "status": "proved",
   "theorems": [
    "C24_create_cluster_from_features",
    "C24_unknown_feature_raises"
   ],
   "note": ""
  },
  {
   "property": "C25",
   "status": "proved",
   "theorems": [
    "C25_delete_clusters",
    "C25_delete_features"
   ],
   "note": ""
  },
  {
   "property": "C26",
   "status": "proved",
   "theorems": [
    "C26_pin_features",
    "C26_pin_clusters"
   ],
   "note": ""
  },
  {
   "property": "C27",
   "status": "proved",
   "theorems": [
    "C27_cluster_features",
    "C27_cluster_features_top",
    "C27_top_cluster_features"
   ],
   "note": ""
  },
  {
   "property": "C28",
   "status": "proved",
   "theorems": [
    "C28_cluster_query_agrees"
   ],
   "note": "Stated for quiet states; that every reachable state is quiet is C20."
  },
  {
   "property": "C29",
   "status": "partial",
   "theorems": [
    "C29_cluster_id_never_reused_refuted",
    "C29_next_cluster_id_partial"
   ],
   "note": "REFUTED as documented: an id is reused after its cluster is deleted. Proved: a new id exceeds every id currently in use."
  },
  {
   "property": "C06",
   "status": "proved",
   "theorems": [
    "C06_boolean_index_exact",
    "C06_indexing_succeeds"
   ],
   "note": ""
  },
  {
   "property": "C07",
   "status": "proved",
   "theorems": [
    "C07_schedule_independence",
    "C07_schedule_independence_faults",
    "C07_batch_size_independence"
   ],
   "note": ""
  },
  {
   "property": "C08",
   "status": "proved",
   "theorems": [
    "C08_feature_ids_stable"
   ],
   "note": ""
  },
  {
   "property": "C09",
   "status": "proved",
   "theorems": [
    "C09_failed_indexing_changes_nothing",
    "C09_failures_are_reported",
    "C09_nested_call_refused",
    "C09_crash_before_merge"
   ],
   "note": ""
  },
  {
   "property": "C10",
   "status": "partial",
   "theorems": [
    "C10_empty_corpus_refuted"
   ],
   "note": "REFUTED: on a corpus without documents index() raises (the temporary database has no tables) and changes nothing."
  },
  {
   "property": "C11",
   "status": "proved",
   "theorems": [
    "C11_documents_and_keys"
   ],
   "note": ""
  },
  {
   "property": "C12",
   "status": "proved",
   "theorems": [
    "C12_positions_lossless"
   ],
   "note": ""
  },
  {
   "property": "C13",
   "status": "partial",
   "theorems": [
    "C13_field_summary_partial",
    "C13_field_summary_new_index_partial",
    "C13_retired_values_counted_refuted"
   ],
   "note": "REFUTED for re-indexing: values of earlier corpora are still counted. Proved: exact for the values the index knows, hence for the corpus when all earlier values still occur (e.g. a new index)."
  },
  {
   "property": "C14",
   "status": "proved",
   "theorems": [
    "C14_batches_and_flight",
    "C14_no_batch_lost"
   ],
   "note": ""
  },
  {
   "property": "C15",
   "status": "partial",
   "theorems": [
    "C15_crash_during_index_refuted",
    "C15_crash_during_index_partial"
   ],
   "note": "REFUTED: a crash between the two commits leaves wrong cluster summaries and every later index() raises. Proved: every crash state is sound, is fully consistent if there were no clusters, and is repaired by any modifying call."
  },
  {
   "property": "C53",
   "status": "proved",
   "theorems": [
    "C53_feature_lookup"
   ],
   "note": ""
  },
  {
   "property": "C54",
   "status": "partial",
   "theorems": [
    "C54_slice_refuted"
   ],
   "note": "REFUTED: __getitem__ with a slice returns None."
  },
  {
   "property": "C30",
   "status": "proved",
   "theorems": [
    "C30_refine_conserves_features"
   ],
   "note": ""
  },
  {
   "property": "C31",
   "status": "proved",
   "theorems": [
    "C31_pinned_and_unselected_untouched"
   ],
   "note": ""
  },
  {
   "property": "C32",
   "status": "proved",
   "theorems": [
    "C32_minimum_cluster_size"
   ],
   "note": "Also when clusters are dissolved: the dissolved ones end empty."
  },
  {
   "property": "C33",
   "status": "partial",
   "theorems": [
    "C33_new_clusters_saved_refuted",
    "C33_new_clusters_saved_partial"
   ],
   "note": "REFUTED: when temporary and final ids overlap, a new cluster is lost on saving. Proved when the greatest id belongs to a selected unpinned cluster, is far away, or at most one cluster is created."
  },
  {
   "property": "C34",
   "status": "partial",
   "theorems": [
    "C34_fully_pinned_refuted",
    "C34_fully_pinned_unchanged_partial",
    "C34_returns_partial",
    "C34_raises_otherwise_partial"
   ],
   "note": "REFUTED: ZeroDivisionError. Proved: nothing changes in any case; without a target it returns exactly when a feature can move or at most one cluster is unpinned, and raises ZeroDivisionError otherwise."
  },
  {
   "property": "C35",
   "status": "partial",
   "theorems": [
    "C35_lowering_target_refuted",
    "C35_group_tests_refuted",
    "C35_lowering_target_partial"
   ],
   "note": "REFUTED: IndexError when the pinned clusters exceed the target; KeyError with default settings and nothing pinned when the group tests leave a cluster without objective. Proved to return when the target exceeds the pinned clusters, a feature can move, and group tests are off or prune nothing."
  },
  {
   "property": "C36",
   "status": "proved",
   "theorems": [
    "C36_contributions_exact",
    "C36_empty_cases"
   ],
   "note": "Exact rational arithmetic instead of floats."
  },
  {
   "property": "C37",
   "status": "proved",
   "theorems": [
    "C37_best_moves",
    "C37_order_independent",
    "C37_keys"
   ],
   "note": ""
  },
  {
   "property": "C38",
   "status": "partial",
   "theorems": [
    "C38_empty_selection_refuted",
    "C38_empty_selection_is_none_partial",
    "C38_pivot_sample_refuted",
    "C38_pivot_sample_is_none_partial"
   ],
   "note": "REFUTED as stated: an empty selection means all clusters, for refine_clusters, pivot_clusters_by_query and structured_doc_sample. Proved: it does exactly what no selection does."
  },
  {
   "property": "C39",
   "status": "proved",
   "theorems": [
    "C39_pivot_top_features"
   ],
   "note": "For every order-preserving rounding of the divisions."
  },
  {
   "property": "C40",
   "status": "proved",
   "theorems": [
    "C40_pivot_covers_clusters",
    "C40_pivot_unknown_cluster",
    "C40_pivot_top_k_zero"
   ],
   "note": "For top_k >= 1 and existing cluster ids; the two other cases raise IndexError."
  },
  {
   "property": "C41",
   "status": "proved",
   "theorems": [
    "C41_field_intersections"
   ],
   "note": ""
  },
  {
   "property": "C42",
   "status": "proved",
   "theorems": [
    "C42_sample_bitmap",
    "C42_negative_size_raises"
   ],
   "note": "For k >= 0; a negative k raises ValueError."
  },
  {
   "property": "C43",
   "status": "proved",
   "theorems": [
    "C43_structured_sample"
   ],
   "note": ""
  },
  {
   "property": "C44",
   "status": "proved",
   "theorems": [
    "C44_export"
   ],
   "note": "CSV encoding and the clash of a corpus field with an added column are not modelled."
  },
  {
   "property": "C45",
   "status": "proved",
   "theorems": [
    "C45_feature_windows"
   ],
   "note": ""
  },
  {
   "property": "C52",
   "status": "partial",
   "theorems": [
    "C52_graph_partial",
    "C52_raises_otherwise",
    "C52_integer_labels_refuted"
   ],
   "note": "REFUTED: without the field names in the labels, a label that shows an integer raises TypeError. Proved in every other case, and that it raises in every such case."
  },
  {
   "property": "C16",
   "status": "proved",
   "theorems": [
    "C16_every_write_all_or_nothing"
   ],
   "note": "What each call's effect is: C22-C38."
  },
  {
   "property": "C17",
   "status": "proved",
   "theorems": [
    "C17_nested_inside",
    "C17_nested_outermost"
   ],
   "note": ""
  },
  {
   "property": "C18",
   "status": "partial",
   "theorems": [
    "C18_failure_contained_refuted",
    "C18_later_calls_lost",
    "C18_pool_failure_partial"
   ],
   "note": "REFUTED: the savepoint is never released, and later calls on the object return normally but are never committed. Proved: the call raises, nothing of it is committed, reopening restores service."
  },
  {
   "property": "C19",
   "status": "partial",
   "theorems": [
    "C19_context_manager_keeps_refuted",
    "C19_context_manager_loses_everything"
   ],
   "note": "REFUTED, and the opposite is proved: everything done inside `with idx:` is lost."
  },
  {
   "property": "C20",
   "status": "proved",
   "theorems": [
    "C20_summaries_after_any_history",
    "C20_summaries_recover"
   ],
   "note": "Histories include failing calls, reopening and crashes during clustering calls; with crashes during index() or pool failures, summaries are right again after the next successful modifying call."
  },
  {
   "property": "C21",
   "status": "proved",
   "theorems": [
    "C21_model_is_a_partition"
   ],
   "note": ""
  },
  {
   "property": "C46",
   "status": "partial",
   "theorems": [
    "C46_indexing_encodes",
    "C46_passages_satisfy_query_refuted",
    "C46_passages_satisfy_query_partial",
    "C46_search_succeeds"
   ],
   "note": "REFUTED: the first token of a document is also matched by the end of the preceding document of the partition. Proved with exactly that exception; a search for known features always returns."
  },
  {
   "property": "C47",
   "status": "partial",
   "theorems": [
    "C47_matching_documents_refuted",
    "C47_matching_documents_partial",
    "C47_cooccurrences_reported_partial"
   ],
   "note": "REFUTED: a single match that is the last of its partition is dropped. Proved with exactly that exception, also for several clauses."
  },
  {
   "property": "C48",
   "status": "partial",
   "theorems": [
    "C48_maximal_runs_refuted",
    "C48_maximal_runs_partial",
    "C48_passages_separated"
   ],
   "note": "REFUTED for a last run of one match; proved exact otherwise, with the order of the passages."
  },
  {
   "property": "C49",
   "status": "partial",
   "theorems": [
    "C49_own_field_refuted",
    "C49_own_field_partial",
    "C49_single_field_partial"
   ],
   "note": "REFUTED with two positional fields: features of the other field are counted. Proved: only features of fields with a partition starting at the same document; only the field itself when it is the only positional one."
  },
  {
   "property": "C50",
   "status": "proved",
   "theorems": [
    "C50_collocation_counts"
   ],
   "note": "Counts stated in tokens of the corpus, for every completion order, when the given features are of the given field."
  },
  {
   "property": "C51",
   "status": "partial",
   "theorems": [
    "C51_rendered_refuted",
    "C51_rendered_partial",
    "C51_not_a_sequence_raises"
   ],
   "note": "REFUTED: one token too few at the end (with overhang 0 the last match is not shown). Proved with that off-by-one; sampling is C81."
  },
  {
   "property": "C55",
   "status": "partial",
   "theorems": [
    "C55_replace_docs_partial",
    "C55_failure_keeps_documents",
    "C55_crash",
    "C55_failure_reported_refuted"
   ],
   "note": "REFUTED: replace_docs swallows the exception and returns normally. Proved: success stores exactly the texts as 1..n, failure and crashes keep the old documents."
  },
  {
   "property": "C56",
   "status": "proved",
   "theorems": [
    "C56_keys_stable",
    "C56_keys_distinct",
    "C56_new_keys",
    "C56_other_sites",
    "C56_idempotent",
    "C56_failure_changes_nothing"
   ],
   "note": "Idempotence for dumps whose comments have an Id (rows without one are added again each time)."
  },
  {
   "property": "C57",
   "status": "proved",
   "theorems": [
    "C57_tags_split",
    "C57_no_empty_tags"
   ],
   "note": ""
  },
  {
   "property": "C62",
   "status": "partial",
   "theorems": [
    "C62_first_column",
    "C62_documents_partial",
    "C62_whole_lines_refuted",
    "C62_long_line_refuted",
    "C62_line_ends",
    "C62_open_quote_refuted"
   ],
   "note": "REFUTED: a line is cut at its first comma, a quote at the start of a line that is never closed makes one document of the rest of the file, and one line longer than 131072 characters makes the command store nothing without reporting it. Proved: exactly the part before the first comma is stored; lines without commas and properly quoted documents are stored in full."
  },
  {
   "property": "C63",
   "status": "partial",
   "theorems": [
    "C63_tweets_indexed_partial",
    "C63_tweets_indexed_refuted"
   ],
   "note": "REFUTED: any original tweet that quotes nothing makes indexing with positions raise. Proved: succeeds without positions, and with them when all references are known."
  },
  {
   "property": "C66",
   "status": "proved",
   "theorems": [
    "C66_requested_documents",
    "C66_unknown_key",
    "C66_all_documents"
   ],
   "note": ""
  },
  {
   "property": "C67",
   "status": "proved",
   "theorems": [
    "C67_plain_text_search"
   ],
   "note": ""
  },
  {
   "property": "C68",
   "status": "proved",
   "theorems": [
    "C68_documents",
    "C68_no_post_lost"
   ],
   "note": ""
  },
  {
   "property": "C69",
   "status": "proved",
   "theorems": [
    "C69_stackexchange_search"
   ],
   "note": ""
  },
  {
   "property": "C70",
   "status": "proved",
   "theorems": [
    "C70_rendered_fields",
    "C70_rendered_total"
   ],
   "note": ""
  },
  {
   "property": "C58",
   "status": "partial",
   "theorems": [
    "C58_current_version",
    "C58_new_database",
    "C58_known_versions",
    "C58_known_versions_open",
    "C58_unknown_version_refused",
    "C58_failure_rolls_back",
    "C58_unrelated_database_refuted",
    "C58_foreign_version_refuted"
   ],
   "note": "REFUTED in three points: an unrelated database is refused with NameError instead of MigrationError; its journal mode is changed first; a foreign database whose user_version is that of the current schema is accepted. Proved: current, empty and known old versions."
  },
  {
   "property": "C59",
   "status": "partial",
   "theorems": [
    "C59_v4_summaries_refuted",
    "C59_v4_summaries_partial"
   ],
   "note": "REFUTED: opening a version 4 index with the default pool fails, since the index is pickled before it has a corpus. Proved: the migration marks every cluster, so the first modifying call computes all summaries."
  },
  {
   "property": "C71",
   "status": "proved",
   "theorems": [
    "C71_reindexing_keeps_the_model"
   ],
   "note": ""
  },
  {
   "property": "C72",
   "status": "partial",
   "theorems": [
    "C72_not_a_database_refuted",
    "C72_is_index_db_partial"
   ],
   "note": "REFUTED: a file that is not a database raises DatabaseError instead of giving False. Proved for database files and missing files."
  },
  {
   "property": "C60",
   "status": "proved",
   "theorems": [
    "C60_links_of_the_page",
    "C60_next_and_prev_inverse",
    "C60_visits_every_cluster"
   ],
   "note": ""
  },
  {
   "property": "C61",
   "status": "proved",
   "theorems": [
    "C61_parameters_become_lists",
    "C61_raises_exactly"
   ],
   "note": ""
  },
  {
   "property": "C64",
   "status": "partial",
   "theorems": [
    "C64_working_dir_refuted",
    "C64_text_path_refuted",
    "C64_path_object_refuted",
    "C64_in_transaction",
    "C64_working_dir_partial"
   ],
   "note": "REFUTED: a path given as text raises AttributeError before indexing; a pathlib.Path always ends in AttributeError. Proved: the default and objects like TemporaryDirectory; what a Path does to the index."
  },
  {
   "property": "C65",
   "status": "proved",
   "theorems": [
    "C65_existing_model_is_refined",
    "C65_declined",
    "C65_new_model",
    "C65_new_model_succeeds"
   ],
   "note": "A new model is always finished, with at most the requested number of clusters."
  },
  {
   "property": "C73",
   "status": "partial",
   "theorems": [
    "C73_failed_request_refuted",
    "C73_failed_request_partial"
   ],
   "note": "REFUTED: refining without naming a cluster refines all and then crashes, and a recreate request with an unreadable later parameter has already replaced the model. Proved: these are the only cases."
  },
  {
   "property": "C74",
   "status": "proved",
   "theorems": [
    "C74_delete_clusters",
    "C74_merge_clusters",
    "C74_create_cluster",
    "C74_remove_features",
    "C74_pin_features",
    "C74_pin_clusters",
    "C74_refine",
    "C74_recreate"
   ],
   "note": "Including where the browser is sent."
  },
  {
   "property": "C75",
   "status": "proved",
   "theorems": [
    "C75_requests_keep_the_model",
    "C75_pool_failure_contained"
   ],
   "note": "Requests served one at a time; several at a time: C84-C86."
  },
  {
   "property": "C76",
   "status": "proved",
   "theorems": [
    "C76_cluster_page"
   ],
   "note": "jaccard scoring; result types document and passage (concordance: C77)."
  },
  {
   "property": "C77",
   "status": "partial",
   "theorems": [
    "C77_concordances_shown_refuted",
    "C77_shows_documents_partial"
   ],
   "note": "REFUTED: concordances are computed and then replaced by documents."
  },
  {
   "property": "C78",
   "status": "partial",
   "theorems": [
    "C78_search_refuted",
    "C78_search_partial"
   ],
   "note": "REFUTED: the typed text is looked up as a text, so integer values are never found (KeyError). Proved for text values."
  },
  {
   "property": "C79",
   "status": "proved",
   "theorems": [
    "C79_export_everything",
    "C79_export_limited"
   ],
   "note": "Rows of the table; as a file: C93."
  },
  {
   "property": "C80",
   "status": "proved",
   "theorems": [
    "C80_concordances",
    "C80_integer_raises"
   ],
   "note": "For sequences of texts; an integer in a window raises TypeError."
  },
  {
   "property": "C81",
   "status": "proved",
   "theorems": [
    "C81_sampled_passages"
   ],
   "note": "With the end of each passage as in C51 (one token short)."
  },
  {
   "property": "C82",
   "status": "proved",
   "theorems": [
    "C82_overview_of_documents",
    "C82_overview_of_model",
    "C82_no_model"
   ],
   "note": "jaccard scoring; result types document and passage (concordance: C77)."
  },
  {
   "property": "C83",
   "status": "proved",
   "theorems": [
    "C83_sample_file"
   ],
   "note": "Rows of the table; as a file: C93."
  },
  {
   "property": "C84",
   "status": "proved",
   "theorems": [
    "C84_serialisable",
    "C84_only_commits_change",
    "C84_one_writer",
    "C84_no_deadlock"
   ],
   "note": "Of SQLite's WAL mode as modelled in Concurrent.v: snapshots, one write lock, refusal of outdated snapshots. Reading transactions whose worker processes read different databases are excluded from the order (see C88)."
  },
  {
   "property": "C85",
   "status": "partial",
   "theorems": [
    "C85_requests_one_at_a_time_refuted",
    "C85_requests_one_at_a_time_partial"
   ],
   "note": "REFUTED: recreate_model is two calls; another request between them gives a result of neither order. Proved: holds for all other changing requests."
  },
  {
   "property": "C86",
   "status": "proved",
   "theorems": [
    "C86_sound_under_concurrency",
    "C86_index_is_two_transactions"
   ],
   "note": ""
  },
  {
   "property": "C87",
   "status": "proved",
   "theorems": [
    "C87_lookup_sees_one_index"
   ],
   "note": ""
  },
  {
   "property": "C88",
   "status": "partial",
   "theorems": [
    "C88_passages_see_one_index_refuted",
    "C88_undisturbed_partial"
   ],
   "note": "REFUTED: each worker reads the database at its own time, so the result can mix two indexes. Proved: right if all workers read the database that the caller sees."
  },
  {
   "property": "C89",
   "status": "partial",
   "theorems": [
    "C89_page_of_one_moment_refuted",
    "C89_page_undisturbed_partial"
   ],
   "note": "REFUTED: each read of the handler is its own transaction; a cluster deleted between two reads makes the page fail with IndexError, although the page of every state there was is shown or answered with 404. Proved: right if nothing is committed between the reads."
  },
  {
   "property": "C90",
   "status": "proved",
   "theorems": [
    "C90_tweets_found",
    "C90_fields"
   ],
   "note": "Tweet texts and user names are assumed not NULL; tokeniser, urlparse and date rounding are arbitrary functions; the collected tweets have a known author and a date (else C92: IndexError)."
  },
  {
   "property": "C91",
   "status": "partial",
   "theorems": [
    "C91_unrelated_database_refuted",
    "C91_opening_partial"
   ],
   "note": "REFUTED: a database without the metadata table raises OperationalError, not the documented ValueError. Proved: accepted exactly with a version of at least 15; ValueError if the table has an older or no version."
  },
  {
   "property": "C92",
   "status": "proved",
   "theorems": [
    "C92_documents",
    "C92_all_documents",
    "C92_unknown"
   ],
   "note": ""
  },
  {
   "property": "C93",
   "status": "partial",
   "theorems": [
    "C93_clusters_file_partial",
    "C93_sample_file_partial",
    "C93_web_file",
    "C93_other_platforms_refuted"
   ],
   "note": "REFUTED on platforms where lines end with CR LF: the command line writes CR CR LF, which reads as empty rows. Proved elsewhere, and always for the web interface. Cells must fit the reader's field size limit."
  },
  {
   "property": "C94",
   "status": "partial",
   "theorems": [
    "C94_json_refuted",
    "C94_quoted_partial"
   ],
   "note": "REFUTED: escapes are not decoded. Proved: a quoted line without backslashes is stored without its quotes; quotes doubled as in CSV: C62."
  },
  {
   "property": "C95",
   "status": "proved",
   "theorems": [
    "C95_one_state",
    "C95_current_state",
    "C95_nothing_left"
   ],
   "note": "Without replace_docs during the iteration (C97); nothing left behind: unless a rendering failed (C96)."
  },
  {
   "property": "C96",
   "status": "partial",
   "theorems": [
    "C96_failed_rendering_partial",
    "C96_stale_after_failed_rendering"
   ],
   "note": "REFUTED for StackExchange and Twittersphere: the savepoint of a failed rendering is never released, and every later read through the object shows the contents of that moment (until add_site_data commits). Proved for plain text."
  },
  {
   "property": "C97",
   "status": "partial",
   "theorems": [
    "C97_replace_partial",
    "C97_not_while_iterating"
   ],
   "note": "REFUTED while an iteration is in progress: nothing is committed on return, and if it iterates over all documents the new texts are dropped silently. Proved otherwise."
  },
  {
   "property": "C98",
   "status": "proved",
   "theorems": [
    "C98_no_markers",
    "C98_rest_kept",
    "C98_cleaned_unique",
    "C98_not_found"
   ],
   "note": "Lower-casing and the word splitter are arbitrary functions; the splitter is assumed to give the parts of the text between separators made of spaces and at most an apostrophe."
  },
  {
   "property": "C99",
   "status": "proved",
   "theorems": [
    "C99_words_kept"
   ],
   "note": "The same assumption about the splitter."
  },
  {
   "property": "C100",
   "status": "partial",
   "theorems": [
    "C100_posts_found_partial",
    "C100_all_text_found_partial",
    "C100_texts_are_prose_or_code",
    "C100_text_after_code_refuted",
    "C100_marked_up_words_refuted"
   ],
   "note": "REFUTED: text that follows a code element inside its pre element is dropped (lxml removes the tail with the node), and a word that is partly marked up is found only in parts. Proved: an exact account of what every field finds, for every history and tree; everything is found when no code block is followed by text inside its pre element."
  },
  {
   "property": "C101",
   "status": "partial",
   "theorems": [
    "C101_forms_accepted",
    "C101_buttons",
    "C101_pin_button",
    "C101_delete_features_button_partial",
    "C101_create_buttons_partial",
    "C101_delete_button_partial",
    "C101_split_button_partial",
    "C101_delete_all_features_refuted",
    "C101_create_from_nothing_refuted",
    "C101_delete_last_cluster_refuted",
    "C101_split_page_refuted"
   ],
   "note": "REFUTED: the user is left on an error page (404) after deleting all features of a cluster, creating a cluster from nothing, deleting the only cluster, and after a split whose coin tosses all moved the features out. Proved: the effect of every button on the model, that no form is rejected, and exactly when the page opens."
  },
  {
   "property": "C102",
   "status": "partial",
   "theorems": [
    "C102_cluster_links_open",
    "C102_overview_links_open",
    "C102_cluster_links_lead",
    "C102_overview_links_lead",
    "C102_neighbour_links",
    "C102_neighbours_offered_partial",
    "C102_neighbours_offered_refuted",
    "C102_search_stays_partial",
    "C102_search_stays_refuted"
   ],
   "note": "REFUTED: with clusters 0 and k the page of k offers no neighbours, and a search from cluster 0 leads to the whole model (the templates take 0 for absent). Proved: every link opens and leads to what it names; the other pages."
  },
  {
   "property": "C103",
   "status": "partial",
   "theorems": [
    "C103_delete_button",
    "C103_merge_button_partial",
    "C103_refine_button_partial",
    "C103_merge_nothing_refuted",
    "C103_refine_page_refuted",
    "C103_refine_nothing_refuted"
   ],
   "note": "REFUTED: with nothing checked, merging is an error and refining refines the whole model and then is an error; after refining, the first checked cluster may be empty and the page an error. Proved: deleting, and the others exactly."
  },
  {
   "property": "C104",
   "status": "proved",
   "theorems": [
    "C104_overview_tags",
    "C104_overview_texts",
    "C104_cluster_tags",
    "C104_cluster_texts",
    "C104_details_tags",
    "C104_details_texts",
    "C104_fields_offered",
    "C104_documents"
   ],
   "note": "The templates are transcribed mechanically (tools/gen_markup.py); the reader is a small HTML tokeniser. Documents that come as HTML must be finished within their list item (C105)."
  },
  {
   "property": "C105",
   "status": "partial",
   "theorems": [
    "C105_post_partial",
    "C105_posts_on_a_page",
    "C105_tweet_partial",
    "C105_author_name_refuted",
    "C105_deleted_user_refuted",
    "C105_tweet_end_refuted",
    "C105_user_name_refuted"
   ],
   "note": "REFUTED: names of authors are not escaped and can add tags; '<Deleted User>' is read as a tag, so nobody is named; a tweet ends inside an unfinished tag. Proved: titles and comments of posts, and texts of tweets, for names that mean nothing in HTML."
  },
  {
   "property": "C106",
   "status": "proved",
   "theorems": [
    "C106_index_twice",
    "C106_there_and_back"
   ],
   "note": "With the same batch size; for other batch sizes the inverted index and keys agree by C07."
  },
  {
   "property": "C107",
   "status": "proved",
   "theorems": [
    "C107_text_to_search"
   ],
   "note": "Both commands composed on files: the csv reader, replace_docs, opening and migrating, and indexing. Lines without quotes, up to the csv field limit, cut at the first comma (C62); the tokeniser is arbitrary."
  },
  {
   "property": "C108",
   "status": "proved",
   "theorems": [
    "C108_files_touched",
    "C108_searches_kept",
    "C108_failed_index"
   ],
   "note": "Commands run one after another; the workers of an index command finish or fail (killed processes: C08)."
  },
  {
   "property": "C109",
   "status": "partial",
   "theorems": [
    "C109_text_file",
    "C109_other_database",
    "C109_corpus_as_index",
    "C109_model_accepts_empty_file_refuted"
   ],
   "note": "REFUTED: model does not check its file and turns an empty file into an index. Proved: text files are refused by every command and untouched; databases that are not indexes are refused, untouched by export, sample and serve, and with only the journal mode changed by index and model."
  },
  {
   "property": "C110",
   "status": "proved",
   "theorems": [
    "C110_last_index"
   ],
   "note": "Induction over histories of create, index, model, sample, export and serve on files."
  },
  {
   "property": "C111",
   "status": "partial",
   "theorems": [
    "C111_end",
    "C111_index_kept_partial",
    "C111_documents_kept",
    "C111_model_repairs",
    "C111_index_again_refuted"
   ],
   "note": "REFUTED: after an index command is killed between its two commits (with clusters present) every later index command for that index fails, until a command that changes the clustering succeeds. Proved: everything else, at every instant of every command, and that model repairs it."
  },
  {
   "property": "C112",
   "status": "proved",
   "theorems": [
    "C112_one_corpus"
   ],
   "note": "Induction over histories; the worker processes of an index command deliver or raise (a killed command takes them with it)."
  },
  {
   "property": "C113",
   "status": "proved",
   "theorems": [
    "C113_texts_sort_like_dates",
    "C113_post_timeline",
    "C113_tweet_timeline"
   ],
   "note": "dateutil's isoparse is an arbitrary function; the offset from UTC is the same for all documents (in the dumps it is always absent, in the tweets always UTC)."
  },
  {
   "property": "C114",
   "status": "partial",
   "theorems": [
    "C114_found_partial",
    "C114_as_stored",
    "C114_unstorable",
    "C114_mixed_search_refuted",
    "C114_mixed_count_refuted",
    "C114_mixed_positions_refuted"
   ],
   "note": "REFUTED for a field that mixes texts with dates: a date is stored as its ISO text, so searches confuse them, a document listing both is counted twice, and with positions indexing fails. Proved for all corpora without such a field. Floats, bytes and datetimes with an offset are not modelled."
  },
  {
   "property": "C115",
   "status": "partial",
   "theorems": [
    "C115_at_most_target_partial",
    "C115_target_of_pinned_refuted",
    "C115_raising_target"
   ],
   "note": "REFUTED when the target is exactly the number of pinned clusters in the selection: it is then taken for no target, and no cluster is dissolved. Proved for every greater target."
  },
  {
   "property": "C116",
   "status": "proved",
   "theorems": [
    "C116_text_to_model"
   ],
   "note": "Lines as in C107; a new index, or --restart confirmed. At least one iteration, group tests off or top-k at least 1, --min-docs at least 1, and the field text not excluded by --include-field."
  },
  {
   "property": "C117",
   "status": "proved",
   "theorems": [
    "C117_text_to_tables",
    "C117_export",
    "C117_sample"
   ],
   "note": "Lines and options as in C116, a new index; for platforms whose line separator is a line feed (C93) and cells within the field size limit of the reader; at most 2^62 words."
  },
  {
   "property": "C118",
   "status": "proved",
   "theorems": [
    "C118_one_state",
    "C118_present_state"
   ],
   "note": "The generator runs after @atomic has returned, so SQLite's read transaction is what protects it (WAL). Re-indexing through the same object during the iteration is excluded; each other change is one step."
  },
  {
   "property": "C119",
   "status": "partial",
   "theorems": [
    "C119_calls_partial",
    "C119_out_of_date",
    "C119_calls_see_present_refuted"
   ],
   "note": "REFUTED: after another process commits, until the iteration goes on, calls read the old index and changes fail (SQLITE_BUSY_SNAPSHOT). Proved if no iteration is underway or nobody else has committed."
  },
  {
   "property": "C120",
   "status": "proved",
   "theorems": [
    "C120_documents"
   ],
   "note": "Both generators, of the index and of the corpus (as in C89), with the keys dict of the first step; no two documents with the same key. For a corpus whose render calls do not use the savepoint of docs."
  },
  {
   "property": "C121",
   "status": "proved",
   "theorems": [
    "C121_shown",
    "C121_requested",
    "C121_unknown_post",
    "C121_nothing_else_changes",
    "C121_found_shows_tag"
   ],
   "note": "The tables of C68 put into the template of C105. Names that mean something in HTML: C105."
  },
  {
   "property": "C122",
   "status": "proved",
   "theorems": [
    "C122_shown",
    "C122_requested",
    "C122_unknown",
    "C122_nothing_else_changes",
    "C122_found_shows_author"
   ],
   "note": "The tables of C92 put into the template of C105. Names that mean something in HTML, and the unfinished last tag: C105."
  },
  {
   "property": "C123",
   "status": "proved",
   "theorems": [
    "C123_export",
    "C123_after_indexing",
    "C123_sample_command"
   ],
   "note": "The tables of C68 through the export of C44 and the file of C93. JSON is read by the reader of SpecPosts.v. Texts with characters from U+0100 on are not modelled."
  },
  {
   "property": "C124",
   "status": "proved",
   "theorems": [
    "C124_refused",
    "C124_in_with",
    "C124_supported",
    "C124_library"
   ],
   "note": "Attributes of a corpus as a set of names, as isinstance with a runtime protocol sees them."
  },
  {
   "property": "C125",
   "status": "proved",
   "theorems": [
    "C125_corpus",
    "C125_plain_text",
    "C125_tweets_refused",
    "C125_private",
    "C125_index",
    "C125_seed_not_kept",
    "C125_no_path"
   ],
   "note": "Reads of a corpus are of its whole contents; what each read returns is C55, C68, C92. Relative paths: one working directory."
  }
 ]
}