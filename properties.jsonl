{"id": "C01", "title": "Bit-sliced counting is exact", "statement": "utilities.compute_bitslice (and so Index.union_bitslice / cluster_query) returns as `matching` exactly the union of the given bitmaps and as `bitslice` a list whose binary reading gives, for every document, exactly the number of given bitmaps that contain it; the last slice is not empty unless it is the only one.", "quantifier": "every finite sequence of bitmaps, every document id", "why_tests_cant": "the ripple-carry can only be wrong for particular carry patterns; any test samples finitely many sequences", "anchors": ["hyperreal/utilities.py:compute_bitslice", "hyperreal/index.py:Index.union_bitslice"]}
{"id": "C02", "title": "Bit-sliced top-k selects exactly the heaviest documents", "statement": "utilities.bstm(matching, bitslice, k) with k>=1 returns matching itself when it has at most k members, and otherwise {d in matching | weight d >= t} for a threshold t such that at least k members weigh >= t and fewer than k weigh > t (all ties at the threshold are returned).", "quantifier": "every matching set, every bitslice, every k >= 1", "why_tests_cant": "needs every tie pattern and every bit width", "anchors": ["hyperreal/utilities.py:bstm"]}
{"id": "C03", "title": "Bitslice weights are enumerated once, in order, and exactly", "statement": "utilities.weight_bitslice yields each document that occurs in some slice exactly once, in increasing id order, with weight equal to the sum of 2^layer over the layers that contain it, and yields nothing else.", "quantifier": "every list of slices", "why_tests_cant": "merge/groupby interleavings over all slice lists", "anchors": ["hyperreal/utilities.py:weight_bitslice"]}
{"id": "C04", "title": "Window expansion stays inside the document", "statement": "utilities.expand_positions_window(positions, boundaries, w) returns exactly the positions that lie within w of a given position *and inside the same document*.", "quantifier": "every well-formed boundary list, every set of positions inside it, every w", "why_tests_cant": "the boundary case is hit only when a match is within w of the end of its document", "anchors": ["hyperreal/utilities.py:expand_positions_window"]}
{"id": "C05", "title": "Datetime rounding buckets are nested and canonical", "statement": "utilities.round_datetime maps a datetime to minute/hour/day/month/year values such that each is the latest datetime of its granularity not after the input, the buckets are nested (year<=month<=day<=hour<=minute<=input), and two datetimes get the same bucket iff they agree on all fields down to that granularity.", "quantifier": "every datetime", "why_tests_cant": "the domain of datetimes is too large to enumerate", "anchors": ["hyperreal/utilities.py:round_datetime"]}
{"id": "C06", "title": "The boolean index is exact", "statement": "After a successful Index.index() of a corpus, idx[(field, value)] is exactly the set of ids of documents whose corpus.index(doc) lists value (not None) under field, and the stored document count is the size of that set; this holds for every batch size, every number of workers and with or without positions.", "quantifier": "every corpus, every doc_batch_size, every worker count, every previous index content", "why_tests_cant": "tests check totals on one corpus", "anchors": ["hyperreal/index.py:Index.index", "hyperreal/index.py:_index_docs", "hyperreal/db_utilities.py:RoaringUnion"]}
{"id": "C07", "title": "Indexing does not depend on the schedule of the worker batches", "statement": "The database committed by Index.index() is the same whatever order the background batches finish and write their segments in.", "quantifier": "every interleaving/completion order of the batches", "why_tests_cant": "a test run sees one schedule", "anchors": ["hyperreal/index.py:Index.index", "hyperreal/index.py:_index_docs"]}
{"id": "C08", "title": "Feature ids are stable across reindexing", "statement": "Re-running Index.index(), on any other corpus, keeps the id of every (field, value) that was already known, never gives one id to two features, and keeps features that no longer occur addressable with an empty document set.", "quantifier": "every pair of old index and new corpus", "why_tests_cant": "needs every old/new vocabulary overlap", "anchors": ["hyperreal/index.py:Index.index"]}
{"id": "C09", "title": "A failed indexing run leaves the old index untouched", "statement": "If Index.index() raises before its merge has been committed (a document fails to index, a batch fails, a key is duplicated, ...) or the process dies before that point, the database other readers and later sessions see is exactly the one from before the call.", "quantifier": "every corpus and every failing batch / crash point before the first commit", "why_tests_cant": "needs every failure point", "anchors": ["hyperreal/index.py:Index.index"]}
{"id": "C10", "title": "Indexing an empty corpus gives an empty index", "statement": "Index.index() on a corpus with no documents succeeds and yields an index with no matching documents.", "quantifier": "every previous index", "why_tests_cant": "empty corpus is never tested and depends on the side table created by workers", "anchors": ["hyperreal/index.py:Index.index", "hyperreal/index.py:_index_docs"]}
{"id": "C11", "title": "Document ids and keys are in one-to-one correspondence", "statement": "After indexing, document ids are 0..n-1 in the order of corpus.keys(); convert_query_to_keys maps exactly the queried ids to their keys with nothing lost or merged; docs(query) yields exactly the queried documents once each, in key order; asking for an unindexed id raises.", "quantifier": "every corpus with distinct keys and every query", "why_tests_cant": "needs all corpora and all subsets of ids", "anchors": ["hyperreal/index.py:Index.index", "hyperreal/index.py:Index.convert_query_to_keys", "hyperreal/index.py:Index.docs"]}
{"id": "C12", "title": "The positional index is a lossless encoding of the sequences", "statement": "With index_positions=True, for every partition, document and offset of a sequence field, the only feature of that field holding the global position boundary(doc)+offset is the one for the value at that offset; every stored position arises that way; the document boundaries are strictly increasing and pair up with the documents that have a non-empty sequence.", "quantifier": "every corpus, every batch size", "why_tests_cant": "needs all sequence lengths, repeats and empty documents", "anchors": ["hyperreal/index.py:_index_docs", "hyperreal/index.py:Index.index"]}
{"id": "C13", "title": "The field summary describes the indexed corpus", "statement": "indexed_field_summary() lists for each field the number of distinct values occurring in the corpus, their least and greatest value, and the number of stored positions.", "quantifier": "every history of index() calls", "why_tests_cant": "depends on what earlier index runs left behind", "anchors": ["hyperreal/index.py:Index.index", "hyperreal/index.py:Index.indexed_field_summary"]}
{"id": "C14", "title": "Indexing never has more than workers+1 batches in flight and loses none", "statement": "At every moment of Index.index() at most workers+1 batches are submitted and unfinished, every document is in exactly one batch of at most max(1, doc_batch_size) documents, and at the merge every batch has completed successfully.", "quantifier": "every corpus length, batch size, worker count and completion schedule", "why_tests_cant": "adversarial completion orders", "anchors": ["hyperreal/index.py:Index.index"]}
{"id": "C15", "title": "A crash during indexing leaves a consistent, usable index", "statement": "Whatever instant the process dies during Index.index(), the next session sees an index whose cluster summaries agree with its features and on which index() can be run again.", "quantifier": "every crash point between SQLite commits", "why_tests_cant": "tests never kill the process between two commits", "anchors": ["hyperreal/index.py:Index.index", "hyperreal/index.py:Index._update_changed_clusters"]}
{"id": "C16", "title": "Every public write is all-or-nothing", "statement": "A call to a method of Index that modifies the clustering (initialise/delete/merge/create/pin/refine; the worker pool not failing) that raises leaves the database exactly as before the call and leaves no transaction open; a call that returns commits its complete effect, and nothing is visible to other connections before that.", "quantifier": "every method that modifies the clustering, every argument, every reachable state (indexing: C09 and C15; nesting: C17; pool failure: C18)", "why_tests_cant": "needs every failing argument combination and nesting", "anchors": ["hyperreal/index.py:atomic"]}
{"id": "C17", "title": "Nested atomic calls commit once, at the outermost level", "statement": "While any atomic method is running, other connections see the state from before the outermost call; an exception in an inner atomic call that the outer method survives undoes exactly the inner call's effects.", "quantifier": "every program built from nested atomic calls, exceptions and handlers", "why_tests_cant": "all nestings", "anchors": ["hyperreal/index.py:atomic"]}
{"id": "C18", "title": "A failure while refreshing cluster statistics is contained", "statement": "If the background pool fails while a modifying method refreshes cluster statistics, the call raises, its changes are not kept, and the connection is left with no open transaction so that later calls work and are committed.", "quantifier": "every modifying call and every pool failure", "why_tests_cant": "requires injecting a pool failure into the finally block", "anchors": ["hyperreal/index.py:atomic", "hyperreal/index.py:Index._update_changed_clusters"]}
{"id": "C19", "title": "Changes made inside `with idx:` are kept", "statement": "Modifications made through an Index used as a context manager are committed when the block ends normally.", "quantifier": "every sequence of modifying calls in the block", "why_tests_cant": "tests never use the context manager in the foreground", "anchors": ["hyperreal/index.py:Index.__enter__", "hyperreal/index.py:Index.__exit__"]}
{"id": "C20", "title": "Cluster summaries always agree with their features", "statement": "After any history of public calls, for every listed cluster the feature count, document bitmap, document count and weight are exactly those of the union of its current features, features carry their index document counts, and no stale change marks remain.", "quantifier": "every finite history of index/initialise/delete/merge/create/pin/refine calls with any arguments, successful or failing", "why_tests_cant": "state-space is unbounded", "anchors": ["hyperreal/index.py:Index._update_changed_clusters", "hyperreal/_index_schema.py:CURRENT_SCHEMA"]}
{"id": "C21", "title": "The model is a partition of its features", "statement": "After any history of public calls every feature in the model belongs to exactly one cluster, that cluster is listed by cluster_ids, no listed cluster is empty, and every feature in the model exists in the index.", "quantifier": "every finite history of public calls", "why_tests_cant": "state-space is unbounded", "anchors": ["hyperreal/_index_schema.py:CURRENT_SCHEMA", "hyperreal/index.py:Index.cluster_ids"]}
{"id": "C22", "title": "initialise_clusters assigns exactly the eligible features, evenly", "statement": "After initialise_clusters(n, min_docs, include_fields) the model contains exactly the features of the selected fields (all fields when none are given) with at least min_docs documents, each in one of clusters 0..n-1, cluster sizes differ by at most one, nothing is pinned, and nothing of the previous model remains.", "quantifier": "every index, previous model, n, min_docs, field list without repeats, random shuffle", "why_tests_cant": "needs every random outcome", "anchors": ["hyperreal/index.py:Index.initialise_clusters"]}
{"id": "C23", "title": "merge_clusters moves exactly the named clusters' features", "statement": "merge_clusters(ids) returns the first id; afterwards that cluster holds exactly the features that were in any of the named clusters, the other named clusters are gone, every other cluster and all pins of features are unchanged; an empty list raises and changes nothing.", "quantifier": "every consistent model and every list of ids (repeats, unknown ids)", "why_tests_cant": "all id lists", "anchors": ["hyperreal/index.py:Index.merge_clusters"]}
{"id": "C24", "title": "create_cluster_from_features builds exactly the requested cluster under a fresh id", "statement": "create_cluster_from_features(fs) returns an id larger than every existing cluster id; afterwards that cluster holds exactly the features fs (whether or not they were in the model), they are in no other cluster, all other memberships are unchanged; an unknown feature raises and changes nothing.", "quantifier": "every consistent model and feature list", "why_tests_cant": "all models and lists", "anchors": ["hyperreal/index.py:Index.create_cluster_from_features", "hyperreal/index.py:Index.next_cluster_id"]}
{"id": "C25", "title": "Deleting features or clusters removes exactly those", "statement": "delete_features / delete_clusters remove exactly the named features / all features of the named clusters from the model, drop clusters that become empty, and change no other feature, cluster or pin; the boolean index is unchanged.", "quantifier": "every consistent model and id list", "why_tests_cant": "all models and lists", "anchors": ["hyperreal/index.py:Index.delete_features", "hyperreal/index.py:Index.delete_clusters"]}
{"id": "C26", "title": "Pinning changes only the pin flags", "statement": "pin_features / pin_clusters set the pin flag of exactly the named features / clusters to the given value and change nothing else.", "quantifier": "every consistent model and id list", "why_tests_cant": "all models and lists", "anchors": ["hyperreal/index.py:Index.pin_features", "hyperreal/index.py:Index.pin_clusters"]}
{"id": "C27", "title": "cluster_features and top_cluster_features return the top-k by document count", "statement": "cluster_features(c, k) returns min(k, size) distinct features of cluster c in descending document count, none of the omitted features having a larger count than a returned one; top_cluster_features lists every cluster exactly once in descending document count.", "quantifier": "every consistent model, cluster and k", "why_tests_cant": "all tie patterns", "anchors": ["hyperreal/index.py:Index.cluster_features", "hyperreal/index.py:Index.top_cluster_features"]}
{"id": "C28", "title": "cluster_query agrees with cluster_docs", "statement": "In any state reachable through the API, the matching set computed by cluster_query(c) equals the precomputed cluster_docs(c), and its bitslice counts for each document the number of the cluster's features matching it.", "quantifier": "every reachable state and cluster", "why_tests_cant": "state-space is unbounded", "anchors": ["hyperreal/index.py:Index.cluster_query", "hyperreal/index.py:Index.cluster_docs"]}
{"id": "C29", "title": "A cluster id is never reused", "statement": "next_cluster_id() is higher than anything already assigned: an id handed out for a new cluster was never used before.", "quantifier": "every history of public calls", "why_tests_cant": "needs histories with deletions", "anchors": ["hyperreal/index.py:Index.next_cluster_id"]}
{"id": "C30", "title": "Refinement neither loses, duplicates nor invents features", "statement": "refine_clusters, whatever its parameters and random outcomes, leaves the set of features in the model, their document counts and their pins unchanged, each still in exactly one cluster.", "quantifier": "every model, parameter setting, random stream and score", "why_tests_cant": "all random outcomes", "anchors": ["hyperreal/index.py:Index.refine_clusters", "hyperreal/index.py:Index._refine_feature_groups"]}
{"id": "C31", "title": "Pinned and unselected parts are untouched by refinement", "statement": "refine_clusters never changes the cluster of a pinned feature, nor the membership of a pinned cluster, nor the membership of a cluster outside the selection.", "quantifier": "every model, selection, parameters and random stream", "why_tests_cant": "all random outcomes", "anchors": ["hyperreal/index.py:Index.refine_clusters", "hyperreal/index.py:Index._refine_feature_groups"]}
{"id": "C32", "title": "Refinement respects the minimum cluster size", "statement": "With no cluster being split or dissolved, a cluster that has at least minimum_cluster_features features before refine_clusters has at least that many after.", "quantifier": "every model, parameters and random stream", "why_tests_cant": "all random outcomes", "anchors": ["hyperreal/index.py:Index._refine_feature_groups"]}
{"id": "C33", "title": "Refinement reaches the requested number of clusters", "statement": "When target_clusters is given and larger than the current number of (non-pinned, selected) clusters, the features assigned to the newly created clusters are saved under new ids.", "quantifier": "every model with enough features, selection and pinned clusters", "why_tests_cant": "depends on how local and global ids overlap", "anchors": ["hyperreal/index.py:Index.refine_clusters"]}
{"id": "C34", "title": "Refining a fully pinned model is a no-op", "statement": "refine_clusters on clusters all of whose features are pinned returns normally and changes nothing.", "quantifier": "every such model", "why_tests_cant": "never tested", "anchors": ["hyperreal/index.py:Index._refine_feature_groups"]}
{"id": "C35", "title": "Lowering the number of clusters never raises", "statement": "refine_clusters with a positive target_clusters smaller than the number of selected clusters returns normally.", "quantifier": "every model, pinned clusters, group-test setting and random stream", "why_tests_cant": "depends on pinned clusters and group-test pruning", "anchors": ["hyperreal/index.py:Index._refine_feature_groups", "hyperreal/index.py:Index._find_best_moves"]}
{"id": "C36", "title": "Feature contributions are exact objective differences", "statement": "measure_feature_contribution_to_cluster reports for each member that shares a document with another member the objective of the cluster minus the objective without it, for each outside feature that shares a document with the cluster the objective with it minus the objective, and -1 / 0 in the documented degenerate cases.", "quantifier": "every cluster, candidate set and probe query", "why_tests_cant": "all overlap patterns", "anchors": ["hyperreal/index.py:measure_feature_contribution_to_cluster"]}
{"id": "C37", "title": "Proposed moves are the best ones and do not depend on processing order", "statement": "For each feature the kept candidates are the top_k largest (delta, cluster) pairs among all scored ones, in descending order, irrespective of the order in which worker results arrive.", "quantifier": "every collection of scores and order", "why_tests_cant": "all orders", "anchors": ["hyperreal/index.py:Index._score_proposed_moves"]}
{"id": "C38", "title": "An empty selection selects nothing", "statement": "refine_clusters(cluster_ids=[]) leaves the model unchanged; pivot_clusters_by_query(q, cluster_ids=[]) and structured_doc_sample(cluster_ids=[]) return nothing.", "quantifier": "every model", "why_tests_cant": "empty list is a falsy corner case", "anchors": ["hyperreal/index.py:Index.refine_clusters", "hyperreal/index.py:Index.pivot_clusters_by_query", "hyperreal/index.py:Index.structured_doc_sample"]}
{"id": "C39", "title": "Pivoting returns the true top-k features despite early termination", "statement": "For each cluster, pivot_clusters_by_query returns exactly the k features with the largest positive Jaccard similarity to the query (ties broken by feature id), in descending order: the length-based pruning never discards one of them.", "quantifier": "every consistent model, query and k >= 1, any monotone rounding of the scores", "why_tests_cant": "pruning errors need particular size/overlap combinations", "anchors": ["hyperreal/index.py:_pivot_cluster_features_by_query_jaccard"]}
{"id": "C40", "title": "Pivoting covers every matching cluster once, best first", "statement": "pivot_clusters_by_query yields exactly the clusters sharing a document with the query, each once, with their Jaccard similarity, in descending similarity, irrespective of worker count and completion order.", "quantifier": "every model, query, worker count and schedule", "why_tests_cant": "all schedules", "anchors": ["hyperreal/index.py:Index.pivot_clusters_by_query", "hyperreal/index.py:_calculate_query_cluster_cooccurrence"]}
{"id": "C41", "title": "Field intersections line up with the field's values", "statement": "intersect_queries_with_field returns the field's occurring values in increasing order, with their document counts and, for every named query, the list of overlap sizes in the same order.", "quantifier": "every index, field and set of queries", "why_tests_cant": "all value sets", "anchors": ["hyperreal/index.py:Index.intersect_queries_with_field", "hyperreal/index.py:Index.iter_field_docs"]}
{"id": "C42", "title": "Sampling a bitmap gives a subset of the requested size", "statement": "sample_bitmap(b, k) returns a subset of b of size min(k, |b|), for every state of the random generator.", "quantifier": "every bitmap, k and random stream", "why_tests_cant": "all random outcomes", "anchors": ["hyperreal/index.py:Index.sample_bitmap"]}
{"id": "C43", "title": "Structured sampling is without replacement and correctly cross-labelled", "statement": "structured_doc_sample returns for each selected cluster a sample of its documents, pairwise disjoint, of size min(k, number of its documents not sampled before) (all of them when k<=0), and maps every cluster of the model to exactly its documents among all sampled ones.", "quantifier": "every model, k, selection and random stream", "why_tests_cant": "all random outcomes", "anchors": ["hyperreal/index.py:Index.structured_doc_sample"]}
{"id": "C44", "title": "Exported samples label each row with the right document and clusters", "statement": "export_document_sample writes one row per sampled document, carrying that document's key and content, the cluster it was sampled for, and a mark for exactly the clusters that contain it.", "quantifier": "every sample and model", "why_tests_cant": "row alignment over all samples", "anchors": ["hyperreal/index.py:Index.export_document_sample"]}
{"id": "C45", "title": "Concordance windows are exact", "statement": "extract_matching_feature_windows returns for each queried document and field every occurrence of a requested value, in order, with exactly the values at most window_size away from it.", "quantifier": "every document, feature list and window", "why_tests_cant": "all positions and lengths", "anchors": ["hyperreal/index.py:Index.extract_matching_feature_windows", "hyperreal/index.py:Index.concordances"]}
{"id": "C46", "title": "Reported passages satisfy the query", "statement": "Every passage returned by score_passages_dnf lies in the reported document, and every match counted in it has, within window_size positions in the same document, an occurrence of every clause.", "quantifier": "every indexed corpus, clause list and window", "why_tests_cant": "needs matches next to document boundaries", "anchors": ["hyperreal/index.py:_score_passages_dnf", "hyperreal/utilities.py:expand_positions_window"]}
{"id": "C47", "title": "Every matching document is reported", "statement": "Every document containing an occurrence of the feature of a one-clause query is reported by score_passages_dnf.", "quantifier": "every indexed corpus", "why_tests_cant": "the last document of each partition is special", "anchors": ["hyperreal/index.py:_score_passages_dnf"]}
{"id": "C48", "title": "Passages partition the matches into maximal runs", "statement": "The passages reported for a partition are exactly the maximal runs of matching positions that stay in one document and have gaps of at most window_size, with document-relative start and end and the number of matches in the run.", "quantifier": "every set of matching positions and boundaries", "why_tests_cant": "all gap patterns", "anchors": ["hyperreal/index.py:_score_passages_dnf"]}
{"id": "C49", "title": "Collocations count only features of the queried field", "statement": "count_collocations(field, ...) reports only features of that field.", "quantifier": "every index with several positional fields", "why_tests_cant": "tests have one positional field", "anchors": ["hyperreal/index.py:_count_collocations"]}
{"id": "C50", "title": "Collocation counts add up over partitions", "statement": "count_collocations reports for each feature the sum over all partitions of its occurrences inside the windows and of its occurrences, and the total numbers of query positions and window positions, for every completion order of the workers.", "quantifier": "every index, partitioning and schedule", "why_tests_cant": "all schedules", "anchors": ["hyperreal/index.py:Index.count_collocations", "hyperreal/index.py:_count_collocations"]}
{"id": "C51", "title": "Rendered passages contain the whole passage and the overhang", "statement": "render_passages_table shows for each passage the tokens from passage_overhang before its first match to passage_overhang after its last match.", "quantifier": "every document, passage and overhang", "why_tests_cant": "off-by-one only visible at particular overhangs", "anchors": ["hyperreal/index.py:_construct_passages"]}
{"id": "C52", "title": "The co-occurrence graph has exactly the overlapping pairs as edges", "statement": "create_cluster_cooccurrence_graph returns a node per cluster and an edge, weighted by Jaccard similarity, between exactly the pairs of distinct clusters sharing a document, for every completion order.", "quantifier": "every model and schedule", "why_tests_cant": "all schedules", "anchors": ["hyperreal/index.py:Index.create_cluster_cooccurrence_graph"]}
{"id": "C53", "title": "Feature lookup is a bijection and unknown keys give the empty set", "statement": "lookup_feature and lookup_feature_id are mutually inverse on the indexed features and raise KeyError elsewhere; indexing with an unknown id or key gives an empty set; idx[id] equals idx[lookup_feature(id)].", "quantifier": "every reachable index", "why_tests_cant": "state-space is unbounded", "anchors": ["hyperreal/index.py:Index.lookup_feature", "hyperreal/index.py:Index.lookup_feature_id", "hyperreal/index.py:Index.__getitem__"]}
{"id": "C54", "title": "Indexing with a slice retrieves the range", "statement": "idx[(field, a):(field, b)] returns the union of the documents of the values in the range, as documented for __getitem__.", "quantifier": "every index and slice", "why_tests_cant": "documented but never tested", "anchors": ["hyperreal/index.py:Index.__getitem__"]}
{"id": "C55", "title": "replace_docs replaces the corpus atomically and reports failure", "statement": "PlainTextSqliteCorpus.replace_docs either stores exactly the given texts under keys 1..n in order, or, when producing the texts fails, raises and keeps the old documents.", "quantifier": "every iterable of texts and every failure point", "why_tests_cant": "needs failing iterables", "anchors": ["hyperreal/corpus.py:PlainTextSqliteCorpus.replace_docs"]}
{"id": "C56", "title": "Re-adding a StackExchange site keeps document keys stable", "statement": "add_site_data keeps the document key of every already known (site, post id), gives new posts distinct new keys, never touches posts of other sites, skips posts that are neither questions nor answers, and adding the same posts twice gives the same documents as adding them once.", "quantifier": "every sequence of dumps", "why_tests_cant": "all overlaps of dumps", "anchors": ["hyperreal/corpus.py:StackExchangeCorpus.add_site_data"]}
{"id": "C57", "title": "Tag strings are split exactly", "statement": "Splitting the concatenation of <tag> items gives back the tags in order, for tags without angle brackets, and never an empty tag.", "quantifier": "every list of tags", "why_tests_cant": "all strings", "anchors": ["hyperreal/corpus.py:StackExchangeCorpus.add_site_data"]}
{"id": "C58", "title": "Opening a database migrates known versions and refuses everything else", "statement": "Opening an index database at the current version changes no table; at a known older version it runs exactly the migration steps of that and later versions and ends at the current version; anything else is refused with MigrationError and left untouched.", "quantifier": "every schema version and database content", "why_tests_cant": "all versions and contents", "anchors": ["hyperreal/_index_schema.py:migrate", "hyperreal/index.py:Index.__init__"]}
{"id": "C59", "title": "Opening an old index refreshes its cluster summaries", "statement": "Opening a version 4 index containing clusters migrates it, and afterwards every cluster has its document set computed.", "quantifier": "every version 4 database with clusters", "why_tests_cant": "no old database in the tests", "anchors": ["hyperreal/index.py:Index.__init__", "hyperreal/_index_schema.py:migrate"]}
{"id": "C60", "title": "Cluster page navigation visits every cluster", "statement": "On the cluster page `next` and `prev` are inverse to each other and repeatedly following `next` from any cluster visits every cluster once before returning.", "quantifier": "every non-empty list of cluster ids", "why_tests_cant": "all lengths", "anchors": ["hyperreal/server.py:Cluster.index"]}
{"id": "C61", "title": "Repeated request parameters are normalised to lists", "statement": "ensure_list turns a missing, single or repeated parameter into a list of 0, 1 or n converted values, in order, and raises if one fails to convert.", "quantifier": "every parameter value", "why_tests_cant": "all inputs", "anchors": ["hyperreal/server.py:ensure_list"]}
{"id": "C62", "title": "Plain-text corpora keep whole lines", "statement": "plaintext-corpus create stores every non-blank line of the text file as one document with its full text.", "quantifier": "every text file", "why_tests_cant": "depends on commas in the text", "anchors": ["hyperreal/cli.py:plaintext_corpus_create"]}
{"id": "C63", "title": "Tweets can be indexed with positions", "statement": "TwittersphereCorpus documents can be indexed with index_positions=True (the command line default).", "quantifier": "every tweet", "why_tests_cant": "tests for this corpus are skipped", "anchors": ["hyperreal/corpus.py:TwittersphereCorpus.index", "hyperreal/index.py:_index_docs"]}
{"id": "C64", "title": "A user-supplied working directory can be used for indexing", "statement": "Index.index(working_dir=path) indexes using that directory and leaves the directory in place.", "quantifier": "every directory path", "why_tests_cant": "the parameter is never passed in tests", "anchors": ["hyperreal/index.py:Index.index"]}
{"id": "C65", "title": "The command line keeps an existing model unless asked to restart", "statement": "`hyperreal model` initialises a new model exactly when none exists or --restart is confirmed; otherwise it only refines the existing one.", "quantifier": "every index state and option combination", "why_tests_cant": "all combinations", "anchors": ["hyperreal/cli.py:model"]}
{"id": "C66", "title": "Plain text documents are returned as requested", "statement": "PlainTextSqliteCorpus.docs(keys) yields the documents of the given keys in the given order, repeats included, and raises IndexError at the first unknown key after yielding the ones before it; docs() yields all documents in key order; keys() gives 1..n after replace_docs of n texts.", "quantifier": "every table and every list of keys", "why_tests_cant": "all key lists", "anchors": ["hyperreal/corpus.py:PlainTextSqliteCorpus.docs", "hyperreal/corpus.py:PlainTextSqliteCorpus.keys", "hyperreal/corpus.py:PlainTextSqliteCorpus.render_docs_html"]}
{"id": "C67", "title": "A plain text corpus can be stored, indexed and searched", "statement": "After replace_docs(texts) and Index.index, looking up the feature ('text', w) gives exactly the documents whose text has the token w, and document i has key i+1.", "quantifier": "every list of texts, tokeniser, batch size, completion order and previous index", "why_tests_cant": "an end-to-end statement over all of them", "anchors": ["hyperreal/corpus.py:PlainTextSqliteCorpus", "hyperreal/index.py:Index.index", "hyperreal/index.py:Index.__getitem__"]}
{"id": "C68", "title": "StackExchange documents reflect everything added", "statement": "After any sequence of add_site_data calls the document of (site, id) exists exactly if some readable dump of the site had a question or answer with that id; it has the text of its last version, the tags any version of its question had, the last name of its owner, and the comments on it, each in its last version.", "quantifier": "every sequence of dumps, failing ones included", "why_tests_cant": "all histories of overlapping dumps", "anchors": ["hyperreal/corpus.py:StackExchangeCorpus.add_site_data", "hyperreal/corpus.py:StackExchangeCorpus.docs"]}
{"id": "C69", "title": "StackExchange corpora can be indexed and searched by tag", "statement": "If creation dates parse and comments have text, every StackExchange corpus can be indexed (with or without positions), and looking up ('Tag', t) gives exactly the questions with tag t and the answers to them.", "quantifier": "every history of dumps, order of keys(), tokeniser, HTML parser, batch size and completion order", "why_tests_cant": "an end-to-end statement", "anchors": ["hyperreal/corpus.py:StackExchangeCorpus.index", "hyperreal/corpus.py:StackExchangeCorpus.keys", "hyperreal/index.py:Index.index"]}
{"id": "C70", "title": "Rendered StackExchange fields agree with the documents", "statement": "The fields used to render a document (site, id, body, tags, author, comments) are those of docs(); the title shown for an answer is the title of its question; an unknown key raises IndexError in both.", "quantifier": "every corpus and key", "why_tests_cant": "all corpora", "anchors": ["hyperreal/corpus.py:StackExchangeCorpus._get_rendered_doc_fields", "hyperreal/corpus.py:StackExchangeCorpus.render_docs_table"]}
{"id": "C71", "title": "Re-indexing keeps the clustering", "statement": "Index.index() never adds, removes, moves or unpins a clustered feature and never changes which clusters are pinned, in every outcome (success, failure, crash); after success the document count stored with each clustered feature is its new count.", "quantifier": "every database, corpus, batch size, completion order, failure and crash point", "why_tests_cant": "all outcomes and crash points", "anchors": ["hyperreal/index.py:Index.index", "hyperreal/_index_schema.py:CURRENT_SCHEMA"]}
{"id": "C72", "title": "is_index_db recognises exactly index databases", "statement": "Index.is_index_db(path) answers True exactly for SQLite databases with the application id of hyperreal and False for a missing file and for every other file, without raising; every database that opening an Index creates or migrates is recognised.", "quantifier": "every database file", "why_tests_cant": "all files", "anchors": ["hyperreal/index.py:Index.is_index_db"]}
{"id": "C73", "title": "A failed web request changes nothing", "statement": "If a POST request to the web application is not answered with a redirect (error status or exception), the index is as before the request.", "quantifier": "every request, parameters, index state and pool behaviour", "why_tests_cant": "all requests and failure points", "anchors": ["hyperreal/server.py:ClusterOverview", "hyperreal/server.py:FeatureOverview", "hyperreal/server.py:Index.recreate_model", "hyperreal/server.py:Index.refine_model"]}
{"id": "C74", "title": "Web requests do what the corresponding call does", "statement": "A well-formed POST to delete, merge, create, remove, pin, refine or recreate has exactly the effect on the index of the corresponding method call on the named clusters or features, and redirects to the page of the result.", "quantifier": "every index state and every list of ids", "why_tests_cant": "all states and lists", "anchors": ["hyperreal/server.py:ClusterOverview", "hyperreal/server.py:FeatureOverview", "hyperreal/server.py:Index.recreate_model", "hyperreal/server.py:Index.refine_model"]}
{"id": "C75", "title": "Any sequence of web requests keeps the model consistent", "statement": "After any sequence of requests, well-formed or not, whatever the pool does, cluster summaries agree with the features and the indexed documents are untouched; a request whose first pool job fails changes nothing.", "quantifier": "every sequence of requests and pool behaviours", "why_tests_cant": "all histories", "anchors": ["hyperreal/server.py:SingleIndexServer", "hyperreal/server.py:ClusterOverview", "hyperreal/server.py:FeatureOverview"]}
{"id": "C76", "title": "The cluster page describes the selected documents", "statement": "The page of a cluster, optionally restricted to a feature and/or another cluster, reports the number of documents in the intersection, lists the features of the cluster similar to it in decreasing similarity (all features when it is empty), the pin state, and with a corpus a random sample of min(n, total) of exactly those documents with their keys, or the passages for the conjunction.", "quantifier": "every index state, cluster, feature, filter and sample size", "why_tests_cant": "all combinations", "anchors": ["hyperreal/server.py:Cluster.index"]}
{"id": "C77", "title": "The requested result type is displayed", "statement": "A page asked for result_type=concordance shows concordance lines.", "quantifier": "every page with a corpus", "why_tests_cant": "never exercised", "anchors": ["hyperreal/server.py:Cluster.index", "hyperreal/server.py:Index.index"]}
{"id": "C78", "title": "Searching a field for a value finds the feature", "statement": "The search form redirects to the feature whose field and value were typed in, whatever the type of the value; an unknown value is reported.", "quantifier": "every index and value", "why_tests_cant": "all values", "anchors": ["hyperreal/server.py:Index.search", "hyperreal/server.py:Cluster.search"]}
{"id": "C79", "title": "Exported cluster tables are complete", "statement": "The exported table has exactly one line per clustered feature with its cluster, field, value and document count, cluster by cluster; with --top-k-features k the k most frequent of each cluster.", "quantifier": "every index state and k", "why_tests_cant": "all models", "anchors": ["hyperreal/server.py:Index.export_clusters", "hyperreal/cli.py:clusters"]}
{"id": "C80", "title": "Concordances show every occurrence in context", "statement": "concordances(query, features, w, n) yields min(n, |query|) documents of the query (all without n), each once, and for every requested value occurring in a sequence field of the document one line per occurrence, in order: the values at most w positions away joined by the given character; an integer in such a window raises TypeError.", "quantifier": "every index, corpus, query, list of features, window and random state", "why_tests_cant": "all documents and windows", "anchors": ["hyperreal/index.py:Index.concordances", "hyperreal/index.py:Index.extract_matching_feature_windows"]}
{"id": "C81", "title": "Sampled passage tables show whole documents of the result", "statement": "render_passages_table(scored, random_sample_size=k) shows exactly min(k, n) of the n scored documents, each once and with all its passages, in every batch size and completion order.", "quantifier": "every scored result, sample size, batch size, random state and completion order", "why_tests_cant": "all random states and schedules", "anchors": ["hyperreal/index.py:Index.render_passages_table"]}
{"id": "C82", "title": "The overview page ranks the clusters for the selected documents", "statement": "The index page for a feature or cluster reports the number of its documents and lists exactly the clusters sharing documents with it, most similar first, each with its top_k most similar features; without a selection (or documents) it lists every cluster by number of documents with its most frequent features; without a model it redirects to the details page.", "quantifier": "every index state, selection and top_k", "why_tests_cant": "all states", "anchors": ["hyperreal/server.py:Index.index"]}
{"id": "C83", "title": "Sampled exports from the command line are complete and correctly labelled", "statement": "The sample command writes each document at most once, for a cluster it belongs to, with a mark for exactly the clusters it belongs to; with --docs-per-cluster 0 every document of the model is written; otherwise at most that many per cluster, and fewer only if all documents of the cluster are in the file.", "quantifier": "every index of the current version, corpus, sample size and random state", "why_tests_cant": "all random states and models", "anchors": ["hyperreal/cli.py:make_csv_exporter", "hyperreal/index.py:Index.structured_doc_sample", "hyperreal/index.py:Index.export_document_sample"]}
{"id": "C84", "title": "Concurrent clients are serialised", "statement": "When several connections or processes run transactions on one index file at the same time, in every interleaving, with refusals and abandonments: the transactions that ended had the results and effect they would have had one at a time in some order consistent with real time; only the end of a transaction holding the write lock changes the database; there is never more than one such transaction; and no set of clients blocks for ever.", "quantifier": "every set of transactions, interleaving, refusal and abandonment", "why_tests_cant": "all schedules", "anchors": ["hyperreal/db_utilities.py:connect_sqlite", "hyperreal/index.py:atomic", "hyperreal/index.py:Index.index"]}
{"id": "C85", "title": "Simultaneous web requests behave as if served one at a time", "statement": "The answers to requests served simultaneously, and the resulting index, are those of serving them one after the other in some order consistent with time.", "quantifier": "every set of requests and interleaving", "why_tests_cant": "all schedules", "anchors": ["hyperreal/server.py:ClusterOverview", "hyperreal/server.py:FeatureOverview", "hyperreal/server.py:Index.recreate_model", "hyperreal/index.py:atomic"]}
{"id": "C86", "title": "Consistency under simultaneous editing and re-indexing", "statement": "While any number of clients edit, refine, search and re-index the same file at the same time, at every moment the database is consistent; its documents are exactly those of the last committed re-indexing; and after any change to the clustering that ended after it (or the second phase of the re-indexing), all cluster summaries are right.", "quantifier": "every interleaving of calls of every client", "why_tests_cant": "all schedules", "anchors": ["hyperreal/index.py:Index.index", "hyperreal/index.py:atomic", "hyperreal/index.py:Index._update_changed_clusters", "hyperreal/db_utilities.py:connect_sqlite"]}
{"id": "C87", "title": "A lookup during re-indexing sees one index", "statement": "A lookup of a feature while the index is rebuilt and edited gives either what the index held before, or exactly the matching documents of one of the corpora indexed in the meantime, never a mixture.", "quantifier": "every interleaving, corpus and feature", "why_tests_cant": "all schedules", "anchors": ["hyperreal/index.py:Index.__getitem__", "hyperreal/index.py:Index.index"]}
{"id": "C88", "title": "A passage search during re-indexing sees one index", "statement": "A passage search computed by several worker processes while the index is rebuilt gives the result for one state of the index.", "quantifier": "every interleaving of workers and commits", "why_tests_cant": "all schedules", "anchors": ["hyperreal/index.py:Index.score_passages_dnf", "hyperreal/index.py:_score_passages_dnf"]}
{"id": "C89", "title": "A page shows the index of one moment", "statement": "The page of a cluster requested while others edit the model is the page of one state of the index: it does not mix states, and does not fail because of the edits.", "quantifier": "every interleaving of a page's reads with other clients' calls", "why_tests_cant": "all schedules", "anchors": ["hyperreal/server.py:Cluster.index", "hyperreal/index.py:atomic"]}
{"id": "C90", "title": "Tweets are found by exactly what they say", "statement": "After indexing a Twittersphere database, a lookup of (field, value) gives exactly the collected tweets whose latest version says it: author, creation time and, for retweets, only the retweeted tweet and its author; otherwise also its words, hashtags, mentions, conversation, external links in their most resolved form and their domains, quoted and replied-to tweet and author, and the labels of its direct collections.", "quantifier": "every Twittersphere database, tokeniser, batch size, schedule, field and value", "why_tests_cant": "all databases and schedules", "anchors": ["hyperreal/corpus.py:TwittersphereCorpus.docs", "hyperreal/corpus.py:TwittersphereCorpus.index", "hyperreal/corpus.py:TwittersphereCorpus.keys"]}
{"id": "C91", "title": "Databases not made by Twittersphere are refused", "statement": "Opening a TwittersphereCorpus succeeds exactly on databases with a Twittersphere schema version of at least 15, and raises ValueError on any other database.", "quantifier": "every SQLite database", "why_tests_cant": "all databases", "anchors": ["hyperreal/corpus.py:TwittersphereCorpus.__init__"]}
{"id": "C92", "title": "Documents of the Twittersphere corpus", "statement": "docs(keys) gives the requested tweets in the requested order, each with its latest text, author and external links; without keys, all directly collected tweets in the order of their ids; an unknown tweet raises IndexError after the documents before it.", "quantifier": "every Twittersphere database and list of keys", "why_tests_cant": "all databases", "anchors": ["hyperreal/corpus.py:TwittersphereCorpus.docs", "hyperreal/corpus.py:TwittersphereCorpus.keys"]}
{"id": "C93", "title": "Exported files read back as the exported table", "statement": "Reading a file exported by the command line or the web interface as a CSV file gives exactly the header and the rows that were exported, whatever the texts contain, on every platform.", "quantifier": "every index, corpus, text and platform", "why_tests_cant": "all texts", "anchors": ["hyperreal/index.py:Index.export_document_sample", "hyperreal/cli.py:export_clusters", "hyperreal/server.py:Index.export_clusters"]}
{"id": "C94", "title": "Quoted lines are JSON strings", "statement": "plaintext-corpus create treats a line that begins and ends with a quote as a JSON string and stores the decoded text.", "quantifier": "every line and document", "why_tests_cant": "all texts", "anchors": ["hyperreal/cli.py:plaintext_corpus_create"]}
{"id": "C95", "title": "An iteration over documents reads one state of the corpus", "statement": "Whatever iterations, renderings and commits of other processes are mixed, all documents given by one iteration of docs() come from one committed state of the database: the state at its start if no other iteration was in progress. Finished, failed and abandoned iterations leave nothing behind.", "quantifier": "every interleaving of docs() iterations, renderings and commits by other processes", "why_tests_cant": "all schedules", "anchors": ["hyperreal/corpus.py:PlainTextSqliteCorpus.docs", "hyperreal/corpus.py:StackExchangeCorpus.docs", "hyperreal/corpus.py:TwittersphereCorpus.docs"]}
{"id": "C96", "title": "A failed rendering does not affect later reads", "statement": "After rendering documents raised an error (an unknown key), later reads through the same corpus object show the present contents of the corpus.", "quantifier": "every history of a corpus object", "why_tests_cant": "all histories", "anchors": ["hyperreal/corpus.py:StackExchangeCorpus.render_docs_html", "hyperreal/corpus.py:StackExchangeCorpus.render_docs_table", "hyperreal/corpus.py:TwittersphereCorpus.render_docs_html", "hyperreal/corpus.py:PlainTextSqliteCorpus.render_docs_html"]}
{"id": "C97", "title": "Replaced documents are stored when replace_docs returns", "statement": "When replace_docs returns, the given texts are the committed documents, or the old documents if the texts could not be obtained.", "quantifier": "every history of iterations and calls", "why_tests_cant": "all histories and crash points", "anchors": ["hyperreal/corpus.py:PlainTextSqliteCorpus.replace_docs"]}
{"id": "C98", "title": "Words of tweets exclude links, hashtags and mentions", "statement": "Tokenising a tweet keeps of every whitespace-delimited word exactly the part before the first 'http://', 'https://', '#' or '@' in it; no token contains one of these or is blank, and searching the text field of an indexed tweet collection for a word with one of these finds nothing.", "quantifier": "every text", "why_tests_cant": "all texts", "anchors": ["hyperreal/utilities.py:social_media_tokens", "hyperreal/utilities.py:social_media_cleaner", "hyperreal/corpus.py:TwittersphereCorpus.index"]}
{"id": "C99", "title": "Tokenising loses no word", "statement": "The tokens of a text are nonblank parts of the lower-cased text which together contain all its characters in order, except whitespace and apostrophes.", "quantifier": "every text", "why_tests_cant": "all texts", "anchors": ["hyperreal/utilities.py:tokens", "hyperreal/utilities.py:word_tokenizer"]}
{"id": "C100", "title": "StackExchange posts are found by exactly what they say", "statement": "After indexing a StackExchange corpus, looking up (field, value) gives exactly the posts whose latest version says it: its author, the words of its title and of the text of its body (Post), the words in its code blocks (CodeBlock), its tags, its commenters and the words of its comments, its site, its type and the day, month and year of its creation. Every text of the body is found under Post or CodeBlock, and words are found as they are shown.", "quantifier": "every history of dumps, HTML tree, tokeniser that ends words at spaces, batch size and schedule", "why_tests_cant": "an end-to-end statement over all bodies and histories", "anchors": ["hyperreal/corpus.py:StackExchangeCorpus.index", "hyperreal/corpus.py:StackExchangeCorpus.docs", "hyperreal/index.py:Index.index"]}
{"id": "C101", "title": "The buttons of a cluster's page do what they say", "statement": "Whatever is selected and typed in, a button on the page of a cluster changes exactly the part of the model it names (the selected features leave the cluster, or form a new one; the cluster is deleted, pinned, unpinned or split), is never rejected, and leads to a page that opens: this cluster, the new one or the next one.", "quantifier": "every consistent index, page, selection and typed text", "why_tests_cant": "all indexes and uses of the forms", "anchors": ["hyperreal/templates/cluster.html", "hyperreal/server.py:ClusterOverview", "hyperreal/server.py:FeatureOverview", "hyperreal/server.py:Cluster.index"]}
{"id": "C102", "title": "No dead links", "statement": "Every link on the page of a cluster or on the overview opens; a page offers its neighbours whenever there is another cluster, and they are the neighbours; a search from the page of a cluster stays within it.", "quantifier": "every consistent index and page", "why_tests_cant": "all indexes", "anchors": ["hyperreal/templates/cluster.html", "hyperreal/templates/macros.html", "hyperreal/server.py:Cluster.index", "hyperreal/server.py:Index.search"]}
{"id": "C103", "title": "The buttons of the overview act on the checked clusters", "statement": "Deleting, merging or refining from the overview affects exactly the checked clusters, does nothing if none is checked, and leads to a page that opens.", "quantifier": "every consistent index, overview, selection and typed text", "why_tests_cant": "all indexes and uses of the forms", "anchors": ["hyperreal/templates/index.html", "hyperreal/templates/macros.html", "hyperreal/server.py:ClusterOverview"]}
{"id": "C104", "title": "Texts are shown as they are and cannot change a page", "statement": "Whatever characters the field names, values, passages and plain documents contain, the tags of the overview, of the page of a cluster and of the details are those they would have with any other texts, and the reader sees each text as it is; the forms offer every field and send its exact name.", "quantifier": "every text, index and page", "why_tests_cant": "injection must be impossible for all strings", "anchors": ["hyperreal/templates/macros.html", "hyperreal/templates/index.html", "hyperreal/templates/cluster.html", "hyperreal/templates/details.html", "hyperreal/server.py:templates", "hyperreal/corpus.py:PlainTextSqliteCorpus.render_docs_html"]}
{"id": "C105", "title": "Posts and tweets are shown as they are", "statement": "Titles, comments, tags and the names of authors are shown as they are in a rendered StackExchange post or tweet and cannot change the page around it; a post whose author is gone says so.", "quantifier": "every post and tweet", "why_tests_cant": "injection must be impossible for all strings", "anchors": ["hyperreal/corpus.py:StackExchangeCorpus.TEMPLATE", "hyperreal/corpus.py:StackExchangeCorpus.render_docs_html", "hyperreal/corpus.py:TwittersphereCorpus.TEMPLATE", "hyperreal/corpus.py:TwittersphereCorpus.render_docs_html"]}
{"id": "C106", "title": "Indexing again is harmless", "statement": "Indexing an unchanged corpus once more leaves every table of the index as it was, whatever the schedule; going back to an earlier corpus after any series of other indexings brings back its documents, feature ids, postings, positions and clustering, leaving of the other corpora only features without documents.", "quantifier": "every corpus, batch size, schedule and series of indexings", "why_tests_cant": "all corpora and histories of indexings", "anchors": ["hyperreal/index.py:Index.index", "hyperreal/index.py:Index._update_changed_clusters"]}
{"id": "C107", "title": "From a text file to search results", "statement": "Creating a corpus from a text file and indexing it succeeds, and then searching the index for a word finds exactly the lines in which the tokeniser sees it, whatever was in the corpus file and index file before.", "quantifier": "every text file, tokeniser, batch size, schedule and earlier state of the files", "why_tests_cant": "an end-to-end statement over all texts and schedules", "anchors": ["hyperreal/cli.py:make_two_file_indexer", "hyperreal/cli.py:plaintext_corpus", "hyperreal/corpus.py:PlainTextSqliteCorpus", "hyperreal/index.py:Index.index"]}
{"id": "C108", "title": "A command changes only its own files", "statement": "Every command changes only the database it works on and its output file; a command other than indexing keeps the documents, features and postings of every index, and an index command that fails keeps its index as it was.", "quantifier": "every command, file system, and pool behaviour", "why_tests_cant": "all commands and states of the disk", "anchors": ["hyperreal/cli.py:model", "hyperreal/cli.py:export_clusters", "hyperreal/cli.py:serve", "hyperreal/cli.py:make_two_file_indexer", "hyperreal/cli.py:make_csv_exporter"]}
{"id": "C109", "title": "Files that are not an index are refused", "statement": "A command given a file that is not an index where it needs one fails and leaves the file as it is.", "quantifier": "every file, command and options", "why_tests_cant": "all files", "anchors": ["hyperreal/cli.py:model", "hyperreal/cli.py:export_clusters", "hyperreal/cli.py:serve", "hyperreal/index.py:Index.is_index_db", "hyperreal/index.py:Index.__init__"]}
{"id": "C110", "title": "An index answers for the corpus it was last built from", "statement": "After any history of commands, an index holds exactly the documents that its corpus file held when it was last indexed successfully, whatever was done to the corpus, to the index (modelling, serving, exporting, failed indexing) and to other files since.", "quantifier": "every history of commands", "why_tests_cant": "all histories", "anchors": ["hyperreal/cli.py:make_two_file_indexer", "hyperreal/cli.py:model", "hyperreal/cli.py:serve", "hyperreal/index.py:Index.index"]}
{"id": "C111", "title": "Killing a command is harmless", "statement": "Whatever command is killed and whenever, the documents of every corpus are the old ones (or, if the corpus was being created, all the new ones), every index is usable and finds what it found before (or, if it was being indexed, what the finished command would have made it find), and the command can simply be run again.", "quantifier": "every command, instant, schedule and state of the files", "why_tests_cant": "all crash points of all commands", "anchors": ["hyperreal/cli.py:model", "hyperreal/cli.py:make_two_file_indexer", "hyperreal/corpus.py:PlainTextSqliteCorpus.replace_docs", "hyperreal/index.py:Index.index", "hyperreal/index.py:atomic"]}
{"id": "C112", "title": "An index is never a mixture", "statement": "After any history of commands, some of which failed or were killed at any instant, an index file holds a usable index whose documents, features and postings are those of one corpus at one moment: the one some index command for it found when it started (or what was there at the beginning).", "quantifier": "every history of commands and kills", "why_tests_cant": "all histories and crash points", "anchors": ["hyperreal/cli.py:make_two_file_indexer", "hyperreal/cli.py:model", "hyperreal/cli.py:serve", "hyperreal/index.py:Index.index"]}
{"id": "C113", "title": "Creation dates form a timeline", "statement": "For a StackExchange or Twitter corpus, intersect_queries_with_field on a field of creation days, months, years (or, for tweets, minutes and hours) lists exactly the periods in which documents were created, once each and in the order of time, with the number of documents created in the period, overall and in each query.", "quantifier": "every corpus whose dates have the same offset from UTC, every list of queries, schedule and batch size", "why_tests_cant": "all dates and corpora: the order of the texts must agree with the order of time", "anchors": ["hyperreal/corpus.py:StackExchangeCorpus.index", "hyperreal/corpus.py:TwittersphereCorpus.index", "hyperreal/utilities.py:round_datetime", "hyperreal/index.py:Index.intersect_queries_with_field"]}
{"id": "C114", "title": "Values of every type", "statement": "A corpus may list numbers, bools, texts, dates and datetimes as values: searching the index for a field and a value of any of these types finds exactly the documents that list an equal value, with the right count; values that cannot be stored make indexing fail without effect.", "quantifier": "every corpus, mixture of types, searched value, schedule and batch size", "why_tests_cant": "all mixtures of types", "anchors": ["hyperreal/index.py:_index_docs", "hyperreal/index.py:Index.index", "hyperreal/index.py:Index.__getitem__", "hyperreal/db_utilities.py:connect_sqlite"]}
{"id": "C115", "title": "A target bounds the number of clusters", "statement": "refine_clusters with target_clusters=t leaves the selected clusters at most t in number, or as few as pinned clusters and clusters with pinned features allow; raising the number never fails as long as a feature can move.", "quantifier": "every model, selection, set of pins, parameters and random outcome", "why_tests_cant": "all models and random outcomes; bounded by dissolving evenly over the iterations and splitting", "anchors": ["hyperreal/index.py:Index.refine_clusters", "hyperreal/index.py:Index._refine_feature_groups", "hyperreal/index.py:Index._update_cluster_feature"]}
{"id": "C116", "title": "From a text file to a model", "statement": "plaintext-corpus create, index and model, one after another, all end normally, and the index then holds a model of exactly the words that occur in at least --min-docs lines, each in one of at most --clusters clusters, where the documents of a cluster are the lines with one of its words; searches still find exactly the lines.", "quantifier": "every text file, tokeniser, batch size, schedule, model options and random outcome", "why_tests_cant": "an end-to-end statement over all texts, schedules and random outcomes", "anchors": ["hyperreal/cli.py:make_two_file_indexer", "hyperreal/cli.py:plaintext_corpus", "hyperreal/cli.py:model", "hyperreal/index.py:Index.initialise_clusters", "hyperreal/index.py:Index.refine_clusters"]}
{"id": "C117", "title": "From a text file to the exported tables", "statement": "plaintext-corpus create, index, model, export clusters and sample, one after another, all end normally; the table of clusters then lists exactly the words of the model, once each, with cluster and number of lines; the table of documents lists lines of the file, each at most once, with their text, a cluster of which they have a word, and a mark for exactly the clusters of which they have a word, at most --docs-per-cluster for each cluster, and all of them if it is 0.", "quantifier": "every text file, tokeniser, batch size, schedule, model options and random outcome", "why_tests_cant": "an end-to-end statement over all texts, schedules and random outcomes", "anchors": ["hyperreal/cli.py:make_two_file_indexer", "hyperreal/cli.py:make_csv_exporter", "hyperreal/cli.py:export_clusters", "hyperreal/cli.py:model", "hyperreal/index.py:Index.export_document_sample", "hyperreal/index.py:Index.structured_doc_sample"]}
{"id": "C118", "title": "An iteration over the values of a field reads one state of the index", "statement": "iter_field_docs(field, min_docs) gives the values of the field with at least min_docs documents, in order, each with its number of documents and its documents, as they were in one committed state of the index, whatever is called or committed (another indexing too) between two items; it is the state of its first step if no other iteration is underway then.", "quantifier": "every history of iterations, item requests, other calls and commits of other processes", "why_tests_cant": "all interleavings of a generator with other calls and processes", "anchors": ["hyperreal/index.py:Index.iter_field_docs", "hyperreal/index.py:atomic", "hyperreal/index.py:Index.__init__"]}
{"id": "C119", "title": "Calls made while iterating see the present index", "statement": "While an iteration over the values of a field is underway, other calls on the same object read the index as last committed, and calls that change it succeed if they would without the iteration.", "quantifier": "every history of iterations, item requests, other calls and commits of other processes", "why_tests_cant": "all interleavings of a generator with other calls and processes", "anchors": ["hyperreal/index.py:Index.iter_field_docs", "hyperreal/index.py:atomic", "hyperreal/index.py:Index.__init__"]}
{"id": "C120", "title": "docs(query) gives the documents of one index and one corpus", "statement": "The documents given by docs(query) are documents of the query, each with its number, key and content, in the order of their keys and none twice, as they were in one committed state of the index and one of the corpus, whatever happens to both between two items; if it ends by itself it has given all of them, and it raises only for a document that is missing.", "quantifier": "every history of docs calls, item requests, other calls, and commits of other processes to the index and to the corpus", "why_tests_cant": "all interleavings of a generator with other calls and processes", "anchors": ["hyperreal/index.py:Index.docs", "hyperreal/index.py:Index.convert_query_to_keys", "hyperreal/corpus.py:PlainTextSqliteCorpus.docs"]}
{"id": "C121", "title": "From the dumps to the posts on a page", "statement": "After any sequence of add_site_data calls (some of which failed), render_docs_html(keys) gives the HTML of each post asked for, in that order, or raises IndexError if there is no such post; where names, sites, licenses and tags mean nothing in HTML and bodies are complete, a reader of a post sees its last title (of an answer: of its question), its body, its tags, the last name of its author, and the last version of every comment with the last name of its author, whatever characters titles and comments contain; other titles and comments give the same posts with the same HTML tags; and posts found by a tag show that tag.", "quantifier": "every history of dumps, every post, every order of iteration over sets", "why_tests_cant": "all histories of dumps and all texts", "anchors": ["hyperreal/corpus.py:StackExchangeCorpus.render_docs_html", "hyperreal/corpus.py:StackExchangeCorpus.add_site_data", "hyperreal/corpus.py:StackExchangeCorpus._get_rendered_doc_fields", "hyperreal/corpus.py:StackExchangeCorpus.TEMPLATE"]}
{"id": "C122", "title": "From the tweets of a database to the page", "statement": "render_docs_html(ids) gives the HTML of each tweet asked for, in that order and each as it would be alone, or raises IndexError if one of them or its author is not in the database; where user names, image addresses and dates mean nothing in HTML, a reader of a tweet sees its text (which Twitter sends with &, < and > replaced, and quotes as they are), its author's last user name and full name, its date, the time it was retrieved and the four counts that are known, whatever the text is; other texts give the same HTML tags, and the page goes on normally after the tweet; tweets found by the name of their author show that name.", "quantifier": "every Twittersphere database, every list of ids, every text", "why_tests_cant": "all databases and all texts", "anchors": ["hyperreal/corpus.py:TwittersphereCorpus.render_docs_html", "hyperreal/corpus.py:TwittersphereCorpus.docs", "hyperreal/corpus.py:TwittersphereCorpus.TEMPLATE", "hyperreal/corpus.py:TwittersphereCorpus.index"]}
{"id": "C123", "title": "Exported posts read back as the posts", "statement": "After any sequence of add_site_data calls and an index of the corpus, export_document_sample writes a CSV file which, as long as no cell is longer than the reader's field size limit, reads back as a header and one line for each sampled document, in the order of the sample: its key, the cluster it was sampled from, and the columns of the post in its last version: site, number, author and the name the author was last given, license, type, body, parent, its title or else that of its question, link, the tags each once separated by ', ', and in comments a JSON text which reads as the last version of each comment on it with name, text and license (null where unknown). The sample command writes such a file, with 1 in the column of each cluster the post belongs to.", "quantifier": "every history of dumps, every index of the corpus, every sample of its documents, every order of iteration over sets, all texts of characters below U+0100", "why_tests_cant": "all histories of dumps and all texts", "anchors": ["hyperreal/corpus.py:StackExchangeCorpus.render_docs_table", "hyperreal/corpus.py:StackExchangeCorpus.table_fields", "hyperreal/corpus.py:StackExchangeCorpus._get_rendered_doc_fields", "hyperreal/index.py:Index.export_document_sample", "hyperreal/cli.py:make_csv_exporter"]}
{"id": "C124", "title": "Calls the corpus cannot support are refused without effect", "statement": "index, docs, extract_matching_feature_windows, render_passages_table, render_docs_html, render_docs_table and export_document_sample raise CorpusMissingError on an index without a corpus, and UnsupportedCorpusOperation if the corpus lacks a method that the call needs (giving documents; also rendering HTML; also rendering a table with named columns). The index is as before and free for the next call; in a with block, or in another call, what was done before stays as it was (export_document_sample directly in a with block that changed clusters brings their summaries up to date first). With a corpus that has the methods the call is never refused: the plain text and StackExchange corpora support all seven, the Twittersphere corpus all but the two tables.", "quantifier": "every corpus object (any set of attributes) or none, every state of the index between calls, in with blocks and in calls", "why_tests_cant": "all corpus objects and connection states", "anchors": ["hyperreal/index.py:requires_corpus", "hyperreal/index.py:Index.export_document_sample", "hyperreal/corpus.py:BaseCorpus", "hyperreal/corpus.py:WebRenderableCorpus", "hyperreal/corpus.py:TableRenderableCorpus"]}
{"id": "C125", "title": "Copies sent to workers or pickled see the committed data", "statement": "A pickled and unpickled copy of a corpus with a path works on the same path with the same tokeniser, can be copied again, and at any later time reads the committed documents of the file: not what the original has changed in an open transaction, and also if the original is closed. Copying a Twittersphere corpus checks the schema version again and raises ValueError if it is missing or below 15. A copy of an index of the current schema version, made at any moment, works on the same path with a copy of the corpus, is between transactions, sees the committed index, has the settings on disk and changes nothing on disk; it has neither the pool nor the random seed of the original. A StackExchange corpus on a private database (an empty path) has no usable copy.", "quantifier": "every corpus and index object in every transaction state, all contents of the files now and later, every tokeniser", "why_tests_cant": "all states of the original and all later contents", "anchors": ["hyperreal/corpus.py:SqliteBackedCorpus", "hyperreal/corpus.py:PlainTextSqliteCorpus", "hyperreal/corpus.py:TwittersphereCorpus", "hyperreal/index.py:Index.__getstate__", "hyperreal/index.py:Index.__setstate__"]}
