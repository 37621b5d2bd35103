# Formal model of SamHames/hyperreal in Rocq (Coq 8.16.1)

The model is a *shallow, executable Gallina model*, function by function, of the
Python in `/repo/hyperreal`. Exceptions are values (`res A := Ok a | Err exn`),
loops are folds or structural recursion, every random draw comes from an
arbitrary stream (`nat -> nat`) so "for every random outcome" is a plain
`forall`, and every schedule of background work is an arbitrary permutation of
the submitted jobs. Every definition of the model cites the lines it models and
says where it simplifies.

`properties.jsonl` lists the properties, `MANIFEST.json` the theorems for each,
`seeded/LOG.jsonl` the wrong programs the theorems were tested against.

A property whose documented or expected form is *false of the code* is marked
`partial` with the word REFUTED in its note. For those there is a theorem
`Cxx_..._refuted` giving a concrete reachable execution that breaks the claim,
and one or more `Cxx_..._partial` theorems proving exactly what does hold
(usually with the exact exception). Nothing was weakened silently.

## Layout (`rocq/theories/`)

| file | content |
|---|---|
| `Base.v` | results/exceptions, bitmaps (`gset N`), sorted iteration, rank/select, Python slicing, random stream |
| `Utilities.v` | `utilities.py`: bstm, compute_bitslice, weight_bitslice, expand_positions_window, round_datetime |
| `Db.v` | the tables of `_index_schema.py`; the SQL statements of `index.py` with triggers and foreign keys |
| `Conn.v` | one connection: committed database, working copy, savepoint stack, level, changed flag; `atomic`; `_update_changed_clusters`; `with idx:` |
| `ClusterOps.v` | initialise/delete/merge/create/pin and the readers of clusters |
| `Indexing.v` | `_index_docs`, `Index.index`, batching, the dispatch loop, the merge of segments |
| `Lookup.v` | `__getitem__`, lookup_feature(_id), convert_query_to_keys, docs |
| `Measure.v`, `Refine.v` | objective, proposed moves, `_refine_feature_groups`, `refine_clusters` |
| `Query.v` | pivoting, field intersection, sampling, export, feature windows, graph |
| `Passages.v` | passage search, collocations, rendered passages |
| `Csv.v` | text files and CSV files character by character |
| `Corpus.v`, `Twitter.v` | plain text, StackExchange and Twittersphere corpora |
| `Html.v` | the texts and code blocks of a StackExchange post's body |
| `Streams.v` | interleaved iterations, renderings and replacements on one corpus connection |
| `Tokens.v` | the tokenisers of `utilities.py` |
| `Migrate.v` | `db_utilities.py`, `_index_schema.py` migrations, opening a file, `is_index_db` |
| `Controls.v` | the forms, buttons and links of `templates/*.html`, the decoding of a form, the page opened next |
| `Markup.v` | the HTML text of the pages and of rendered posts and tweets, transcribed from the templates by `tools/gen_markup.py` |
| `Rendered.v` | the tables of a StackExchange corpus put into that template |
| `Tweets.v` | the tables of a Twittersphere database put into the template of a tweet |
| `Posts.v` | StackExchange posts as rows of a table, with `json.dumps` of their comments |
| `Support.v` | the decorator requires_corpus and what each corpus class can do |
| `Copies.v` | pickling and unpickling of corpus and index objects |
| `Web.v`, `Cli.v` | `server.py` handlers and pages; decision logic of `cli.py`; the working directory of `index()` |
| `Dates.v` | creation dates as features: `isoformat`, rounding, the date fields of posts and tweets |
| `Values.v` | bools, big numbers, dates, datetimes and other objects as values: grouping in the worker, storing by sqlite3 |
| `Commands.v`, `Kills.v` | the commands of `cli.py` as functions on a file system; the states a killed command may leave |
| `Reports.v` | concordances, sampled passage tables, overview page, `sample` command |
| `Concurrent.v`, `Clients.v` | several connections sharing a WAL database; the calls as transactions |
| `Browse.v` | the generators of an index (`iter_field_docs`, `docs`) item by item, between other calls and commits of other processes |
| `History.v` | arbitrary histories of API calls, failures, crashes and re-openings; programs of nested `atomic` blocks |
| `Spec*.v` | small specifications, independent of the model's helpers |
| `*Proofs.v`, `*Calls.v`, `*Facts.v`, `RefineTotal.v`, `StackHistory.v` | lemmas |
| `SampleDb.v` | a concrete database for the examples |
| `Properties*.v` | only theorem statements (`exact lemma`), examples showing the hypotheses are met, and `Print Assumptions` |

## Trusted base

* Coq 8.16.1's kernel (including `vm_compute`, used for closed decidable goals in
  examples and refutations) and the files of std++ that are imported.
* `Print Assumptions` of **every** theorem listed in `MANIFEST.json` prints
  *Closed under the global context*. The only axioms in any loaded library are the
  standard library's `Coq.ssr.ssrunder.Under_rel.{Under_rel, Under_relE,
  under_rel_done, Over_rel, over_rel, over_rel_done}` (loaded through std++'s use
  of ssreflect); no theorem depends on them.
* No axioms, parameters, section-less variables, functors, module types, plugins,
  or disabled kernel checks. `Section` variables are generalised at the end of the
  section and show in the theorem statements.
* The faithfulness of the model to the Python, which is by reading: this is what
  the citations, the simplification notes and the seeded wrong programs are for.

## What is modelled

| code | modelled |
|---|---|
| `utilities.py` | `bstm`, `compute_bitslice`, `weight_bitslice`, `expand_positions_window`, `round_datetime`, the tokenisers (with an arbitrary splitter at word boundaries) |
| `db_utilities.py` | the connection settings that matter (autocommit mode, foreign keys, journal mode); `migrate` with its version/application checks, transaction and errors |
| `_index_schema.py` | all tables with primary keys, foreign keys, triggers; every migration 1..current at the level of columns, objects and rows |
| `index.py` | `atomic`, opening, context manager, `__getitem__`, lookups, `index` and `_index_docs` with positions, query/field intersection, sampling, export, windows, all cluster calls, `_refine_*`, pivoting, graph, passages, collocations, `is_index_db` |
| `corpus.py` | `SqliteBackedCorpus` connection, `PlainTextSqliteCorpus`, `StackExchangeCorpus`, `TwittersphereCorpus` (opening, keys, docs, index) and their HTML templates |
| `server.py` | parameter normalisation, the POST handlers with redirects, cluster page, overview, search, export |
| `cli.py` | `model`, `export clusters`, `serve` (one request at a time), plain text `create`, `index`, `sample` and `serve`; on files |

### Simplifications (also in the comments)

* A `BitMap` is a finite set of naturals; the 32-bit limit and the serialised form
  are not modelled. A position or document id is an unbounded natural.
* Floats are exact rationals (`Qc`). In pivoting every division goes through an
  arbitrary rounding function, so C39/C40 hold for every order-preserving rounding;
  in refinement arithmetic is exact (C36, C37), and C30-C35 do not depend on it.
* `heapq` heaps are sorted lists; `sorted` with ties is any order where Python's
  is not determined by the key (the clause sort of passages is *any* permutation).
* SQL values are integers or texts ordered as SQLite orders them; other types
  (float, blob, NULL as a value) are not feature values. `min`/`max`/`order by`
  use that order. `Values.v` adds bools, dates and datetimes without an offset;
  floats, bytes and datetimes with an offset are not modelled as values.
* `Browse.v`: the index and corpus are in WAL mode, a call that changes the index is
  one step, and re-indexing through the same object during an iteration is excluded.
* In all files but `Concurrent.v`/`Clients.v`: one connection per database; workers
  read the committed database. In those two, several connections: snapshots, the
  single write lock, refusal of a writer with an outdated snapshot and abandonment
  are modelled, a transaction being represented by its total effect; file locks,
  checkpoints and the duration of busy timeouts are not. A crash keeps exactly the
  committed database; commits are atomic (SQLite's promise).
* Worker processes: each job is a function of what it reads; completion order and
  failures are arbitrary. Pickling is modelled only where it fails (C59).
* Window sizes, overhang and `top_k` are naturals; `sample_size` may be negative.
* Tokenisers, the HTML parser, date parsing and rounding of tweets' dates, and
  `int(text)` are arbitrary functions (theorems quantify over them).
* StackExchange XML attributes that are stored in integer columns are integers; the
  `keys()` query without `order by` gives any permutation.
* Python's `csv` module is modelled on bytes (C62, C93, C94); in the other files CSV output is rows of cells (C44, C79, C83).
* The database file of the migration model has columns but no column types.
* Web requests are served one at a time (C73-C82) or each as one transaction (C84-C89); handlers get only parameters they accept;
  negative feature numbers are treated like the (equally unused) number 0.

### Not modelled

The head, navigation and static files of the pages, CherryPy configuration and routing
(`SingleIndexServer`, `cherrypy.tree`), logging and progress output, Unicode word
boundaries, pyroaring and SQLite internals, operating system
behaviour (files, signals, process start), and performance.

## Properties: what is modelled and how it is proved

* **C01** Bit-sliced counting is exact (proved). Fold of the ripple-carry adder; invariant: the slices read in binary at each document give the number of bitmaps seen so far containing it. Theorems: `C01_bitslice_counts`.
* **C02** Bit-sliced top-k selects exactly the heaviest documents (proved). Loop over slices from the highest; invariant on the "greater" and "equal" sets relative to weights truncated to the slices seen. Specified by weights, not slices; also for an arbitrary bitslice. Theorems: `C02_top_k`, `C02_top_k_any_bitslice`.
* **C03** Bitslice weights are enumerated once, in order, and exactly (proved). heapq.merge of per-slice sorted streams followed by a grouped sum; sortedness and exact sums; composed with C01 for the round trip. Theorems: `C03_weights_unpacked`, `C03_round_trip`.
* **C04** Window expansion stays inside the document (partial). State machine over the positions; exact set of positions returned, and a concrete leak. *REFUTED as documented: the window can include the first position of the next document (min(next_start, ...) + 1). Proved: exact characterisation of what is returned.* Theorems: `C04_window_stays_in_document_refuted`, `C04_window_exact_partial`.
* **C05** Datetime rounding buckets are nested and canonical (proved). Granularities as truncation of the fields; idempotence, nesting, monotonicity for every pair of granularities. Theorems: `C05_round_datetime`.
* **C06** The boolean index is exact (proved). Index.index as a function of old tables, corpus, batch size and completion order; invariants over batches and over the merge of segments; refined to "document i has value v in field f". Theorems: `C06_boolean_index_exact`, `C06_indexing_succeeds`.
* **C07** Indexing does not depend on the schedule of the worker batches (proved). The merged segments are grouped by key, so their order is irrelevant (permutation argument); faults included: the set of possible outcomes is the same. Theorems: `C07_schedule_independence`, `C07_schedule_independence_faults`, `C07_batch_size_independence`.
* **C08** Feature ids are stable across reindexing (proved). The merge only inserts ids for unknown (field, value) pairs: preservation of the lookup map by the fold. Theorems: `C08_feature_ids_stable`.
* **C09** A failed indexing run leaves the old index untouched (proved). Every raise before the commit restores the savepoint; by cases on where the fault occurs. Crash before the merge commits keeps the disk. Theorems: `C09_failed_indexing_changes_nothing`, `C09_failures_are_reported`, `C09_nested_call_refused`, `C09_crash_before_merge`.
* **C10** Indexing an empty corpus gives an empty index (partial). The path with no batch: the temporary database has no tables; concrete and general refutation. *REFUTED: on a corpus without documents index() raises (the temporary database has no tables) and changes nothing.* Theorems: `C10_empty_corpus_refuted`.
* **C11** Document ids and keys are in one-to-one correspondence (proved). doc ids 1..n in corpus order; from the enumeration of the corpus. Theorems: `C11_documents_and_keys`.
* **C12** The positional index is a lossless encoding of the sequences (proved). Decoding function in the specification (positions of a feature cut at document starts) applied to the produced rows gives the sequences; induction over documents of a batch with the running base position. Theorems: `C12_positions_lossless`.
* **C13** The field summary describes the indexed corpus (partial). Exact values of every summary column by field; refutation with a retired value. *REFUTED for re-indexing: values of earlier corpora are still counted. Proved: exact for the values the index knows, hence for the corpus when all earlier values still occur (e.g. a new index).* Theorems: `C13_field_summary_partial`, `C13_field_summary_new_index_partial`, `C13_retired_values_counted_refuted`.
* **C14** Indexing never has more than workers+1 batches in flight and loses none (proved). Dispatch loop as a transition system with an adversarial completion oracle; invariant: submitted = collected + in flight, in flight <= workers + 1. Theorems: `C14_batches_and_flight`, `C14_no_batch_lost`.
* **C15** A crash during indexing leaves a consistent, usable index (partial). All crash points between the commits; consistency invariant of each, concrete broken one, repair by the next modifying call. *REFUTED: a crash between the two commits leaves wrong cluster summaries and every later index() raises. Proved: every crash state is sound, is fully consistent if there were no clusters, and is repaired by any modifying call.* Theorems: `C15_crash_during_index_refuted`, `C15_crash_during_index_partial`.
* **C16** Every public write is all-or-nothing (proved). Generic lemma over atomic (any body): result Ok gives exactly the body's effect committed, an exception gives the old database; instantiated at all public writes. *What each call's effect is: C22-C38.* Theorems: `C16_every_write_all_or_nothing`.
* **C17** Nested atomic calls commit once, at the outermost level (proved). Programs of nested atomic blocks (History.prog); induction on the program. Theorems: `C17_nested_inside`, `C17_nested_outermost`.
* **C18** A failure while refreshing cluster statistics is contained (partial). Failure inside the refresh leaves the savepoint stack non-empty; invariants for all later calls. *REFUTED: the savepoint is never released, and later calls on the object return normally but are never committed. Proved: the call raises, nothing of it is committed, reopening restores service.* Theorems: `C18_failure_contained_refuted`, `C18_later_calls_lost`, `C18_pool_failure_partial`.
* **C19** Changes made inside `with idx:` are kept (partial). __enter__ begins a transaction that __exit__ closes the connection on; concrete and general loss. *REFUTED, and the opposite is proved: everything done inside `with idx:` is lost.* Theorems: `C19_context_manager_keeps_refuted`, `C19_context_manager_loses_everything`.
* **C20** Cluster summaries always agree with their features (proved). Invariant over every finite history of calls, failures, crashes and reopenings (History.history). *Histories include failing calls, reopening and crashes during clustering calls; with crashes during index() or pool failures, summaries are right again after the next successful modifying call.* Theorems: `C20_summaries_after_any_history`, `C20_summaries_recover`.
* **C21** The model is a partition of its features (proved). Same induction with the partition invariant. Theorems: `C21_model_is_a_partition`.
* **C22** initialise_clusters assigns exactly the eligible features, evenly (proved). Exact rows produced from the shuffled list of eligible features, size bounds by arithmetic of striding. Theorems: `C22_initialise_clusters`.
* **C23** merge_clusters moves exactly the named clusters' features (proved). Exact new membership map, pointwise over features and clusters. Theorems: `C23_merge_clusters`, `C23_merge_clusters_members`, `C23_merge_nothing_raises`.
* **C24** create_cluster_from_features builds exactly the requested cluster under a fresh id (proved). Exact new membership map, new id, error for an unknown feature. Theorems: `C24_create_cluster_from_features`, `C24_unknown_feature_raises`.
* **C25** Deleting features or clusters removes exactly those (proved). Exact membership maps after deletion. Theorems: `C25_delete_clusters`, `C25_delete_features`.
* **C26** Pinning changes only the pin flags (proved). Exact flags; everything else equal. Theorems: `C26_pin_features`, `C26_pin_clusters`.
* **C27** cluster_features and top_cluster_features return the top-k by document count (proved). Sortedness, membership, length and maximality of the returned list. Theorems: `C27_cluster_features`, `C27_cluster_features_top`, `C27_top_cluster_features`.
* **C28** cluster_query agrees with cluster_docs (proved). Both sides equal the union of the features' documents; needs summaries (C20). *Stated for quiet states; that every reachable state is quiet is C20.* Theorems: `C28_cluster_query_agrees`.
* **C29** A cluster id is never reused (partial). Maximum of existing ids + 1; concrete reuse after deletion. *REFUTED as documented: an id is reused after its cluster is deleted. Proved: a new id exceeds every id currently in use.* Theorems: `C29_cluster_id_never_reused_refuted`, `C29_next_cluster_id_partial`.
* **C30** Refinement neither loses, duplicates nor invents features (proved). Invariant of the refinement loop for every random stream: the assignment stays a function on the same feature set; then the save step. Theorems: `C30_refine_conserves_features`.
* **C31** Pinned and unselected parts are untouched by refinement (proved). Loop invariant on pinned features and clusters; save touches only moved rows. Theorems: `C31_pinned_and_unselected_untouched`.
* **C32** Refinement respects the minimum cluster size (proved). Loop invariant on cluster sizes (moves only from clusters above the minimum, dissolved ones end empty). *Also when clusters are dissolved: the dissolved ones end empty.* Theorems: `C32_minimum_cluster_size`.
* **C33** Refinement reaches the requested number of clusters (partial). Exact ids of new clusters before and after saving; concrete loss; the side conditions that exclude it. *REFUTED: when temporary and final ids overlap, a new cluster is lost on saving. Proved when the greatest id belongs to a selected unpinned cluster, is far away, or at most one cluster is created.* Theorems: `C33_new_clusters_saved_refuted`, `C33_new_clusters_saved_partial`.
* **C34** Refining a fully pinned model is a no-op (partial). Exact conditions of the division by zero, unchanged state otherwise. *REFUTED: ZeroDivisionError. Proved: nothing changes in any case; without a target it returns exactly when a feature can move or at most one cluster is unpinned, and raises ZeroDivisionError otherwise.* Theorems: `C34_fully_pinned_refuted`, `C34_fully_pinned_unchanged_partial`, `C34_returns_partial`, `C34_raises_otherwise_partial`.
* **C35** Lowering the number of clusters never raises (partial). Totality proof of the loop (RefineTotal.v) under the stated condition; concrete IndexError. *REFUTED: IndexError when the pinned clusters exceed the target; KeyError with default settings and nothing pinned when the group tests leave a cluster without objective. Proved to return when the target exceeds the pinned clusters, a feature can move, and group tests are off or prune nothing.* Theorems: `C35_lowering_target_refuted`, `C35_group_tests_refuted`, `C35_lowering_target_partial`.
* **C36** Feature contributions are exact objective differences (proved). Objective as a rational; algebra over sums of cluster counts with and without a feature. *Exact rational arithmetic instead of floats.* Theorems: `C36_contributions_exact`, `C36_empty_cases`.
* **C37** Proposed moves are the best ones and do not depend on processing order (proved). The heap of candidate moves equals the k best of the full list; independence of clusters' order by permutation. Theorems: `C37_best_moves`, `C37_order_independent`, `C37_keys`.
* **C38** An empty selection selects nothing (partial). Both readings computed; equality of empty and absent selection. *REFUTED as stated: an empty selection means all clusters, for refine_clusters, pivot_clusters_by_query and structured_doc_sample. Proved: it does exactly what no selection does.* Theorems: `C38_empty_selection_refuted`, `C38_empty_selection_is_none_partial`, `C38_pivot_sample_refuted`, `C38_pivot_sample_is_none_partial`.
* **C39** Pivoting returns the true top-k features despite early termination (proved). Pruned loop keeps the top-k heap equal to exhaustive selection, since the bound is an upper bound of every remaining score. *For every order-preserving rounding of the divisions.* Theorems: `C39_pivot_top_features`.
* **C40** Pivoting covers every matching cluster once, best first (proved). Permutation of the matching clusters and sortedness of the scores. *For top_k >= 1 and existing cluster ids; the two other cases raise IndexError.* Theorems: `C40_pivot_covers_clusters`, `C40_pivot_unknown_cluster`, `C40_pivot_top_k_zero`.
* **C41** Field intersections line up with the field's values (proved). Rows ordered by value, each intersection pointwise. Theorems: `C41_field_intersections`.
* **C42** Sampling a bitmap gives a subset of the requested size (proved). Subset and size, for every random stream. *For k >= 0; a negative k raises ValueError.* Theorems: `C42_sample_bitmap`, `C42_negative_size_raises`.
* **C43** Structured sampling is without replacement and correctly cross-labelled (proved). Invariants of the per-cluster sampling loop; no document twice; labels = all sampled clusters containing it. Theorems: `C43_structured_sample`.
* **C44** Exported samples label each row with the right document and clusters (proved). Row-by-row specification of the export. *CSV encoding and the clash of a corpus field with an added column are not modelled.* Theorems: `C44_export`.
* **C45** Concordance windows are exact (proved). Windows by list slicing; exact list of windows per occurrence. Theorems: `C45_feature_windows`.
* **C46** Reported passages satisfy the query (partial). Conjunctive narrowing of windows over partitions; refined to token distances in the corpus via C12. *REFUTED: the first token of a document is also matched by the end of the preceding document of the partition. Proved with exactly that exception; a search for known features always returns.* Theorems: `C46_indexing_encodes`, `C46_passages_satisfy_query_refuted`, `C46_passages_satisfy_query_partial`, `C46_search_succeeds`.
* **C47** Every matching document is reported (partial). Converse of C46; every co-occurrence gives a match, every match but a last lone one a passage. *REFUTED: a single match that is the last of its partition is dropped. Proved with exactly that exception, also for several clauses.* Theorems: `C47_matching_documents_refuted`, `C47_matching_documents_partial`, `C47_cooccurrences_reported_partial`.
* **C48** Passages partition the matches into maximal runs (partial). Walk over sorted matches; runs are maximal with gap > window. *REFUTED for a last run of one match; proved exact otherwise, with the order of the passages.* Theorems: `C48_maximal_runs_refuted`, `C48_maximal_runs_partial`, `C48_passages_separated`.
* **C49** Collocations count only features of the queried field (partial). Set of features counted per partition; concrete leak between fields. *REFUTED with two positional fields: features of the other field are counted. Proved: only features of fields with a partition starting at the same document; only the field itself when it is the only positional one.* Theorems: `C49_own_field_refuted`, `C49_own_field_partial`, `C49_single_field_partial`.
* **C50** Collocation counts add up over partitions (proved). Sums of per-partition counters in any order, refined to tokens. *Counts stated in tokens of the corpus, for every completion order, when the given features are of the given field.* Theorems: `C50_collocation_counts`.
* **C51** Rendered passages contain the whole passage and the overhang (partial). Slices of the token sequence; off-by-one exact. *REFUTED: one token too few at the end (with overhang 0 the last match is not shown). Proved with that off-by-one; sampling is C81.* Theorems: `C51_rendered_refuted`, `C51_rendered_partial`, `C51_not_a_sequence_raises`.
* **C52** The co-occurrence graph has exactly the overlapping pairs as edges (partial). Edges over pairs of clusters with non-empty intersection, each once, exact weights. *REFUTED: without the field names in the labels, a label that shows an integer raises TypeError. Proved in every other case, and that it raises in every such case.* Theorems: `C52_graph_partial`, `C52_raises_otherwise`, `C52_integer_labels_refuted`.
* **C53** Feature lookup is a bijection and unknown keys give the empty set (proved). Injectivity of (field, value) and inverse functions; unknown keys. Theorems: `C53_feature_lookup`.
* **C54** Indexing with a slice retrieves the range (partial). The branch without return. *REFUTED: __getitem__ with a slice returns None.* Theorems: `C54_slice_refuted`.
* **C55** replace_docs replaces the corpus atomically and reports failure (partial). Statement list of replace_docs in a transaction, with failures of the generator at any point and a crash at any point. *REFUTED: replace_docs swallows the exception and returns normally. Proved: success stores exactly the texts as 1..n, failure and crashes keep the old documents.* Theorems: `C55_replace_docs_partial`, `C55_failure_keeps_documents`, `C55_crash`, `C55_failure_reported_refuted`.
* **C56** Re-adding a StackExchange site keeps document keys stable (proved). Histories of dumps; key of a (site, post id) fixed at first insertion; induction over dumps. *Idempotence for dumps whose comments have an Id (rows without one are added again each time).* Theorems: `C56_keys_stable`, `C56_keys_distinct`, `C56_new_keys`, `C56_other_sites`, `C56_idempotent`, `C56_failure_changes_nothing`.
* **C57** Tag strings are split exactly (proved). Split on the brackets; inverse of the encoding. Theorems: `C57_tags_split`, `C57_no_empty_tags`.
* **C58** Opening a database migrates known versions and refuses everything else (partial). Opening a file as a function of the whole file; every version by cases; transaction of the migration. *REFUTED in three points: an unrelated database is refused with NameError instead of MigrationError; its journal mode is changed first; a foreign database whose user_version is that of the current schema is accepted. Proved: current, empty and known old versions.* Theorems: `C58_current_version`, `C58_new_database`, `C58_known_versions`, `C58_known_versions_open`, `C58_unknown_version_refused`, `C58_failure_rolls_back`, `C58_unrelated_database_refuted`, `C58_foreign_version_refuted`.
* **C59** Opening an old index refreshes its cluster summaries (partial). Opening at version 4; marks; composition with C20. *REFUTED: opening a version 4 index with the default pool fails, since the index is pickled before it has a corpus. Proved: the migration marks every cluster, so the first modifying call computes all summaries.* Theorems: `C59_v4_summaries_refuted`, `C59_v4_summaries_partial`.
* **C60** Cluster page navigation visits every cluster (proved). prev/next as cyclic neighbours in the list of clusters; inverse and reachability by iteration. Theorems: `C60_links_of_the_page`, `C60_next_and_prev_inverse`, `C60_visits_every_cluster`.
* **C61** Repeated request parameters are normalised to lists (proved). Parameter dictionary before and after. Theorems: `C61_parameters_become_lists`, `C61_raises_exactly`.
* **C62** Plain-text corpora keep whole lines (partial). The CSV reader state machine run on the characters of the file; induction over lines. *REFUTED: a line is cut at its first comma, a quote at the start of a line that is never closed makes one document of the rest of the file, and one line longer than 131072 characters makes the command store nothing without reporting it. Proved: exactly the part before the first comma is stored; lines without commas and properly quoted documents are stored in full.* Theorems: `C62_first_column`, `C62_documents_partial`, `C62_whole_lines_refuted`, `C62_long_line_refuted`, `C62_line_ends`, `C62_open_quote_refuted`.
* **C63** Tweets can be indexed with positions (partial). index() of tweets with positions through the indexing model. *REFUTED: any original tweet that quotes nothing makes indexing with positions raise. Proved: succeeds without positions, and with them when all references are known.* Theorems: `C63_tweets_indexed_partial`, `C63_tweets_indexed_refuted`.
* **C64** A user-supplied working directory can be used for indexing (partial). index() with each kind of working_dir; the AttributeError paths. *REFUTED: a path given as text raises AttributeError before indexing; a pathlib.Path always ends in AttributeError. Proved: the default and objects like TemporaryDirectory; what a Path does to the index.* Theorems: `C64_working_dir_refuted`, `C64_text_path_refuted`, `C64_path_object_refuted`, `C64_in_transaction`, `C64_working_dir_partial`.
* **C65** The command line keeps an existing model unless asked to restart (proved). cli model as calls on the index; by cases on prompts. *A new model is always finished, with at most the requested number of clusters.* Theorems: `C65_existing_model_is_refined`, `C65_declined`, `C65_new_model`, `C65_new_model_succeeds`.
* **C66** Plain text documents are returned as requested (proved). Lookups by key in order; unknown key error. Theorems: `C66_requested_documents`, `C66_unknown_key`, `C66_all_documents`.
* **C67** A plain text corpus can be stored, indexed and searched (proved). Composition of C55, C06 and the lookup. Theorems: `C67_plain_text_search`.
* **C68** StackExchange documents reflect everything added (proved). Documents as joins over all dumps. Theorems: `C68_documents`, `C68_no_post_lost`.
* **C69** StackExchange corpora can be indexed and searched by tag (proved). Composition of C68 and C06. Theorems: `C69_stackexchange_search`.
* **C70** Rendered StackExchange fields agree with the documents (proved). Rendered values vs indexed values field by field. Theorems: `C70_rendered_fields`, `C70_rendered_total`.
* **C71** Re-indexing keeps the clustering (proved). Index.index leaves clusters and memberships, via C08. Theorems: `C71_reindexing_keeps_the_model`.
* **C72** is_index_db recognises exactly index databases (partial). is_index_db as a function of the file. *REFUTED: a file that is not a database raises DatabaseError instead of giving False. Proved for database files and missing files.* Theorems: `C72_not_a_database_refuted`, `C72_is_index_db_partial`.
* **C73** A failed web request changes nothing (partial). All handlers by cases: failing answer implies unchanged database, with exact exceptions. *REFUTED: refining without naming a cluster refines all and then crashes, and a recreate request with an unreadable later parameter has already replaced the model. Proved: these are the only cases.* Theorems: `C73_failed_request_refuted`, `C73_failed_request_partial`.
* **C74** Web requests do what the corresponding call does (proved). Each handler equals the API call with the parsed parameters. *Including where the browser is sent.* Theorems: `C74_delete_clusters`, `C74_merge_clusters`, `C74_create_cluster`, `C74_remove_features`, `C74_pin_features`, `C74_pin_clusters`, `C74_refine`, `C74_recreate`.
* **C75** Any sequence of web requests keeps the model consistent (proved). Induction over request sequences, using C20/C21. *Requests served one at a time; several at a time: C84-C86.* Theorems: `C75_requests_keep_the_model`, `C75_pool_failure_contained`.
* **C76** The cluster page describes the selected documents (proved). The page's data equal the readers' answers for the selected documents. *jaccard scoring; result types document and passage (concordance: C77).* Theorems: `C76_cluster_page`.
* **C77** The requested result type is displayed (partial). results_of by result type. *REFUTED: concordances are computed and then replaced by documents.* Theorems: `C77_concordances_shown_refuted`, `C77_shows_documents_partial`.
* **C78** Searching a field for a value finds the feature (partial). search redirects to the lookup of the typed text. *REFUTED: the typed text is looked up as a text, so integer values are never found (KeyError). Proved for text values.* Theorems: `C78_search_refuted`, `C78_search_partial`.
* **C79** Exported cluster tables are complete (proved). Rows = all (cluster, feature) pairs; limit by C27. *Rows of the table; as a file: C93.* Theorems: `C79_export_everything`, `C79_export_limited`.
* **C80** Concordances show every occurrence in context (proved). Lift of C45 through the joining of windows; error case by totality of the traversal. *For sequences of texts; an integer in a window raises TypeError.* Theorems: `C80_concordances`, `C80_integer_raises`.
* **C81** Sampled passage tables show whole documents of the result (proved). C51 applied to the drawn sublist. *With the end of each passage as in C51 (one token short).* Theorems: `C81_sampled_passages`.
* **C82** The overview page ranks the clusters for the selected documents (proved). overview handler composed from C39/C40 (query) and C27 (no query). *jaccard scoring; result types document and passage (concordance: C77).* Theorems: `C82_overview_of_documents`, `C82_overview_of_model`, `C82_no_model`.
* **C83** Sampled exports from the command line are complete and correctly labelled (proved). is_index_db check, opening, structured sample (C43) and export (C44) composed; one-row-per-document by disjointness of samples. *Rows of the table; as a file: C93.* Theorems: `C83_sample_file`.
* **C84** Concurrent clients are serialised (proved). Small-step model of connections sharing a WAL database; invariant: the committed log, with reads placed at their snapshots, is a sequential run. *Of SQLite's WAL mode as modelled in Concurrent.v: snapshots, one write lock, refusal of outdated snapshots. Reading transactions whose worker processes read different databases are excluded from the order (see C88).* Theorems: `C84_serialisable`, `C84_only_commits_change`, `C84_one_writer`, `C84_no_deadlock`.
* **C85** Simultaneous web requests behave as if served one at a time (partial). C84 specialised to requests; refutation by executing an interleaving. *REFUTED: recreate_model is two calls; another request between them gives a result of neither order. Proved: holds for all other changing requests.* Theorems: `C85_requests_one_at_a_time_refuted`, `C85_requests_one_at_a_time_partial`.
* **C86** Consistency under simultaneous editing and re-indexing (proved). Each client's transaction keeps soundness when alone; lifted along the order given by C84. Theorems: `C86_sound_under_concurrency`, `C86_index_is_two_transactions`.
* **C87** A lookup during re-indexing sees one index (proved). C84 plus: index contents only change by a committed re-indexing. Theorems: `C87_lookup_sees_one_index`.
* **C88** A passage search during re-indexing sees one index (partial). Refutation by an execution with a commit between two worker reads; positive part from C84. *REFUTED: each worker reads the database at its own time, so the result can mix two indexes. Proved: right if all workers read the database that the caller sees.* Theorems: `C88_passages_see_one_index_refuted`, `C88_undisturbed_partial`.
* **C89** A page shows the index of one moment (partial). The handler as a function of one database per read; refutation by executing an interleaving; positive part: constant views give the page of C76, at a point of the order of C84. *REFUTED: each read of the handler is its own transaction; a cluster deleted between two reads makes the page fail with IndexError, although the page of every state there was is shown or answered with 404. Proved: right if nothing is committed between the reads.* Theorems: `C89_page_of_one_moment_refuted`, `C89_page_undisturbed_partial`.
* **C90** Tweets are found by exactly what they say (proved). The SQL of TwittersphereCorpus.docs as list comprehensions over the tables; every clause of the specification derived from the tables, then C06/C11 for the index. *Tweet texts and user names are assumed not NULL; tokeniser, urlparse and date rounding are arbitrary functions; the collected tweets have a known author and a date (else C92: IndexError).* Theorems: `C90_tweets_found`, `C90_fields`.
* **C91** Databases not made by Twittersphere are refused (partial). Case analysis on the metadata row. *REFUTED: a database without the metadata table raises OperationalError, not the documented ValueError. Proved: accepted exactly with a version of at least 15; ValueError if the table has an older or no version.* Theorems: `C91_unrelated_database_refuted`, `C91_opening_partial`.
* **C92** Documents of the Twittersphere corpus (proved). Induction over the requested keys. Theorems: `C92_documents`, `C92_all_documents`, `C92_unknown`.
* **C93** Exported files read back as the exported table (partial). The writer and the reader's state machine of Python's csv module, character by character; induction over cells and rows; counterexample executed. *REFUTED on platforms where lines end with CR LF: the command line writes CR CR LF, which reads as empty rows. Proved elsewhere, and always for the web interface. Cells must fit the reader's field size limit.* Theorems: `C93_clusters_file_partial`, `C93_sample_file_partial`, `C93_web_file`, `C93_other_platforms_refuted`.
* **C94** Quoted lines are JSON strings (partial). Counterexample executed; positive part from C62. *REFUTED: escapes are not decoded. Proved: a quoted line without backslashes is stored without its quotes; quotes doubled as in CSV: C62.* Theorems: `C94_json_refuted`, `C94_quoted_partial`.
* **C95** An iteration over documents reads one state of the corpus (proved). A connection as committed contents, savepoint stack and snapshot, with any number of iterators advanced in any order; invariants over runs: the docs savepoints number the iterations in progress, and an iteration in progress reads the snapshot; composed over continuations of a run. *Without replace_docs during the iteration (C97); nothing left behind: unless a rendering failed (C96).* Theorems: `C95_one_state`, `C95_current_state`, `C95_nothing_left`.
* **C96** A failed rendering does not affect later reads (partial). From C95 for plain text; otherwise invariant: the savepoint of the failed rendering stays at the bottom of the stack, so the snapshot stays. *REFUTED for StackExchange and Twittersphere: the savepoint of a failed rendering is never released, and every later read through the object shows the contents of that moment (until add_site_data commits). Proved for plain text.* Theorems: `C96_failed_rendering_partial`, `C96_stale_after_failed_rendering`.
* **C97** Replaced documents are stored when replace_docs returns (partial). From the invariants of C95; the release of the inner savepoint commits exactly when it is the outermost. *REFUTED while an iteration is in progress: nothing is committed on return, and if it iterates over all documents the new texts are dropped silently. Proved otherwise.* Theorems: `C97_replace_partial`, `C97_not_while_iterating`.
* **C98** Words of tweets exclude links, hashtags and mentions (proved). Scanner over characters with a skip flag; induction over the whitespace-delimited words against a declarative specification, shown to be functional; composed with C90. *Lower-casing and the word splitter are arbitrary functions; the splitter is assumed to give the parts of the text between separators made of spaces and at most an apostrophe.* Theorems: `C98_no_markers`, `C98_rest_kept`, `C98_cleaned_unique`, `C98_not_found`.
* **C99** Tokenising loses no word (proved). Induction over the pieces of the splitter. *The same assumption about the splitter.* Theorems: `C99_words_kept`.
* **C100** StackExchange posts are found by exactly what they say (partial). HTML trees with texts and tails; structural induction relates itertext, the code nodes and their removal to an independent reading of the tree; composed with the exactness of indexing (C06) and the document histories (C68). *REFUTED: text that follows a code element inside its pre element is dropped (lxml removes the tail with the node), and a word that is partly marked up is found only in parts. Proved: an exact account of what every field finds, for every history and tree; everything is found when no code block is followed by text inside its pre element.* Theorems: `C100_posts_found_partial`, `C100_all_text_found_partial`, `C100_texts_are_prose_or_code`, `C100_text_after_code_refuted`, `C100_marked_up_words_refuted`.
* **C101** The buttons of a cluster's page do what they say (partial). Forms of the templates as data (Controls.v); a relation says what a browser may send for a form; CherryPy's decoding; composed with C74 (effects) and C60/C76 (pages). *REFUTED: the user is left on an error page (404) after deleting all features of a cluster, creating a cluster from nothing, deleting the only cluster, and after a split whose coin tosses all moved the features out. Proved: the effect of every button on the model, that no form is rejected, and exactly when the page opens.* Theorems: `C101_forms_accepted`, `C101_buttons`, `C101_pin_button`, `C101_delete_features_button_partial`, `C101_create_buttons_partial`, `C101_delete_button_partial`, `C101_split_button_partial`, `C101_delete_all_features_refuted`, `C101_create_from_nothing_refuted`, `C101_delete_last_cluster_refuted`, `C101_split_page_refuted`.
* **C102** No dead links (partial). Links of the templates as data; the total correctness of the pages (C76, C82) shows that each opens. *REFUTED: with clusters 0 and k the page of k offers no neighbours, and a search from cluster 0 leads to the whole model (the templates take 0 for absent). Proved: every link opens and leads to what it names; the other pages.* Theorems: `C102_cluster_links_open`, `C102_overview_links_open`, `C102_cluster_links_lead`, `C102_overview_links_lead`, `C102_neighbour_links`, `C102_neighbours_offered_partial`, `C102_neighbours_offered_refuted`, `C102_search_stays_partial`, `C102_search_stays_refuted`.
* **C103** The buttons of the overview act on the checked clusters (partial). As C101, for the overview. *REFUTED: with nothing checked, merging is an error and refining refines the whole model and then is an error; after refining, the first checked cluster may be empty and the page an error. Proved: deleting, and the others exactly.* Theorems: `C103_delete_button`, `C103_merge_button_partial`, `C103_refine_button_partial`, `C103_merge_nothing_refuted`, `C103_refine_page_refuted`, `C103_refine_nothing_refuted`.
* **C104** Texts are shown as they are and cannot change a page (proved). The templates as lists of pieces (literal, escaped, raw), transcribed by tools/gen_markup.py; a browser's tokeniser as specification (SpecMarkup.v). Escaped text is read literally in text and in quotes (induction); two pages with different texts are compared piece by piece. *The templates are transcribed mechanically (tools/gen_markup.py); the reader is a small HTML tokeniser. Documents that come as HTML must be finished within their list item (C105).* Theorems: `C104_overview_tags`, `C104_overview_texts`, `C104_cluster_tags`, `C104_cluster_texts`, `C104_details_tags`, `C104_details_texts`, `C104_fields_offered`, `C104_documents`.
* **C105** Posts and tweets are shown as they are (partial). As C104 for the templates of corpus.py, where autoescape is off; the refutations compute the reading of a page. *REFUTED: names of authors are not escaped and can add tags; '<Deleted User>' is read as a tag, so nobody is named; a tweet ends inside an unfinished tag. Proved: titles and comments of posts, and texts of tweets, for names that mean nothing in HTML.* Theorems: `C105_post_partial`, `C105_posts_on_a_page`, `C105_tweet_partial`, `C105_author_name_refuted`, `C105_deleted_user_refuted`, `C105_tweet_end_refuted`, `C105_user_name_refuted`.
* **C106** Indexing again is harmless (proved). Two successful runs give permutations of the same segments; the exactness of C06 fixes the rows of every feature, and the summaries of C29 those of every cluster. Series of calls by induction. *With the same batch size; for other batch sizes the inverted index and keys agree by C07.* Theorems: `C106_index_twice`, `C106_there_and_back`.
* **C107** From a text file to search results (proved). The commands as functions on a file system (Commands.v), composed from the models of csv, corpus, schema migration and indexing; C62, C58 and C06 are applied in turn. *Both commands composed on files: the csv reader, replace_docs, opening and migrating, and indexing. Lines without quotes, up to the csv field limit, cut at the first comma (C62); the tokeniser is arbitrary.* Theorems: `C107_text_to_search`.
* **C108** A command changes only its own files (proved). Case analysis of the command, with the invariants of the calls it makes (C18, C29, C57). *Commands run one after another; the workers of an index command finish or fail (killed processes: C08).* Theorems: `C108_files_touched`, `C108_searches_kept`, `C108_failed_index`.
* **C109** Files that are not an index are refused (partial). As C108; the refutation holds for every run on an empty file. *REFUTED: model does not check its file and turns an empty file into an index. Proved: text files are refused by every command and untouched; databases that are not indexes are refused, untouched by export, sample and serve, and with only the journal mode changed by index and model.* Theorems: `C109_text_file`, `C109_other_database`, `C109_corpus_as_index`, `C109_model_accepts_empty_file_refuted`.
* **C110** An index answers for the corpus it was last built from (proved). Induction over the history with the invariant that the file holds a sound index or none. *Induction over histories of create, index, model, sample, export and serve on files.* Theorems: `C110_last_index`.
* **C111** Killing a command is harmless (partial). The instants of a command as a relation (Kills.v) built on the log of commits of every call; every computation on a connection extends the log and ends in its newest entry, and every entry is a usable index. The refutation computes a killed command. *REFUTED: after an index command is killed between its two commits (with clusters present) every later index command for that index fails, until a command that changes the clustering succeeds. Proved: everything else, at every instant of every command, and that model repairs it.* Theorems: `C111_end`, `C111_index_kept_partial`, `C111_documents_kept`, `C111_model_repairs`, `C111_index_again_refuted`.
* **C112** An index is never a mixture (proved). Induction over histories with the step lemma of C111. *Induction over histories; the worker processes of an index command deliver or raise (a killed command takes them with it).* Theorems: `C112_one_corpus`.
* **C113** Creation dates form a timeline (proved). isoformat as a function on datetimes (Dates.v); fixed-width decimal digits sort like numbers, by induction on the width. Combined with C90/C100 (which documents have a value) and C70 (order of the values). *dateutil's isoparse is an arbitrary function; the offset from UTC is the same for all documents (in the dumps it is always absent, in the tweets always UTC).* Theorems: `C113_texts_sort_like_dates`, `C113_post_timeline`, `C113_tweet_timeline`.
* **C114** Values of every type (partial). Python values with their equality and sqlite3's adapters (Values.v); the worker of Indexing.v is run on codes of the dictionary keys and the keys are adapted when rows are written. A simulation shows that renaming values injectively commutes with the worker; the adapters are injective except between texts and dates. *REFUTED for a field that mixes texts with dates: a date is stored as its ISO text, so searches confuse them, a document listing both is counted twice, and with positions indexing fails. Proved for all corpora without such a field. Floats, bytes and datetimes with an offset are not modelled.* Theorems: `C114_found_partial`, `C114_as_stored`, `C114_unstorable`, `C114_mixed_search_refuted`, `C114_mixed_count_refuted`, `C114_mixed_positions_refuted`.
* **C115** A target bounds the number of clusters (partial). Induction over the iterations: the clusters still to dissolve fit into the iterations left, and each pass dissolves its share or all that can be dissolved; then the renaming and saving of clusters. *REFUTED when the target is exactly the number of pinned clusters in the selection: it is then taken for no target, and no cluster is dissolved. Proved for every greater target.* Theorems: `C115_at_most_target_partial`, `C115_target_of_pinned_refuted`, `C115_raising_target`.
* **C116** From a text file to a model (proved). Composition of C107, C65, C71 and C115; a bijection between the documents of the index and the lines gives the number of lines of a word. *Lines as in C107; a new index, or --restart confirmed. At least one iteration, group tests off or top-k at least 1, --min-docs at least 1, and the field text not excluded by --include-field.* Theorems: `C116_text_to_model`.
* **C117** From a text file to the exported tables (proved). Composition of C116, C79, C83 and C93; the clusters' documents are translated into lines with their words. *Lines and options as in C116, a new index; for platforms whose line separator is a line feed (C93) and cells within the field size limit of the reader; at most 2^62 words.* Theorems: `C117_text_to_tables`, `C117_export`, `C117_sample`.
* **C118** An iteration over the values of a field reads one state of the index (proved). Generators and the transaction that an unfinished statement keeps open as a state machine (Browse.v); invariant: an iteration that has started holds the rest of the rows of a committed state, and the view is some committed state. *The generator runs after @atomic has returned, so SQLite's read transaction is what protects it (WAL). Re-indexing through the same object during the iteration is excluded; each other change is one step.* Theorems: `C118_one_state`, `C118_present_state`.
* **C119** Calls made while iterating see the present index (partial). The same machine; invariant: there is a view only while an iteration is underway, and it is the present index unless another process has committed. A concrete run refutes the rest. *REFUTED: after another process commits, until the iteration goes on, calls read the old index and changes fail (SQLITE_BUSY_SNAPSHOT). Proved if no iteration is underway or nobody else has committed.* Theorems: `C119_calls_partial`, `C119_out_of_date`, `C119_calls_see_present_refuted`.
* **C120** docs(query) gives the documents of one index and one corpus (proved). The generator of the index on top of the model of corpus iterators of C89; invariant relating each generator to one committed index, one committed corpus and what it has given. *Both generators, of the index and of the corpus (as in C89), with the keys dict of the first step; no two documents with the same key. For a corpus whose render calls do not use the savepoint of docs.* Theorems: `C120_documents`.
* **C121** From the dumps to the posts on a page (proved). Composition: the invariant of C68 gives the columns of a post from the history, these fill the pieces of the template, and the pieces are read as in C105. Erasing titles and comments commutes with adding dumps and with the template. *The tables of C68 put into the template of C105. Names that mean something in HTML: C105.* Theorems: `C121_shown`, `C121_requested`, `C121_unknown_post`, `C121_nothing_else_changes`, `C121_found_shows_tag`.
* **C122** From the tweets of a database to the page (proved). Composition: the document of C92 fills the pieces of the template, which are read as in C105 with the text escaped as Twitter does; the search part by C90. *The tables of C92 put into the template of C105. Names that mean something in HTML, and the unfinished last tag: C105.* Theorems: `C122_shown`, `C122_requested`, `C122_unknown`, `C122_nothing_else_changes`, `C122_found_shows_author`.
* **C123** Exported posts read back as the posts (proved). Composition: the history invariant of C68 gives the columns of a post, json.dumps is inverted by an independent reader (induction over texts and over the list of comments), and the written file is read as in C93. *The tables of C68 through the export of C44 and the file of C93. JSON is read by the reader of SpecPosts.v. Texts with characters from U+0100 on are not modelled.* Theorems: `C123_export`, `C123_after_indexing`, `C123_sample_command`.
* **C124** Calls the corpus cannot support are refused without effect (proved). Case analysis over the decorated methods; the one with atomic outside by the lemmas for failing bodies of atomic; the classes of the library by computation on their (finite) attribute sets. *Attributes of a corpus as a set of names, as isinstance with a runtime protocol sees them.* Theorems: `C124_refused`, `C124_in_with`, `C124_supported`, `C124_library`.
* **C125** Copies sent to workers or pickled see the committed data (proved). Objects as class, path, tokeniser and the state of their connection; getstate, setstate and __init__ as functions over the committed files; for the index composed with the opening of C58. *Reads of a corpus are of its whole contents; what each read returns is C55, C68, C92. Relative paths: one working directory.* Theorems: `C125_corpus`, `C125_plain_text`, `C125_tweets_refused`, `C125_private`, `C125_index`, `C125_seed_not_kept`, `C125_no_path`.
