"""Writes /verif/properties.jsonl (one JSON object per line) from the table below."""
import json, os
P = []
def p(title, statement, quantifier, why, *anchors):
    P.append(dict(id=f"C{len(P)+1:02d}", title=title, statement=statement,
                  quantifier=quantifier, why_tests_cant=why, anchors=list(anchors)))

IX="hyperreal/index.py"; UT="hyperreal/utilities.py"; SC="hyperreal/_index_schema.py"
CO="hyperreal/corpus.py"; SV="hyperreal/server.py"; CL="hyperreal/cli.py"; DBU="hyperreal/db_utilities.py"

# ---- utilities -------------------------------------------------------------
p("Bit-sliced counting is exact",
  "utilities.compute_bitslice (and so Index.union_bitslice / cluster_query) returns as `matching` exactly the union of the given bitmaps and as `bitslice` a list whose binary reading gives, for every document, exactly the number of given bitmaps that contain it; the last slice is not empty unless it is the only one.",
  "every finite sequence of bitmaps, every document id", "the ripple-carry can only be wrong for particular carry patterns; any test samples finitely many sequences",
  UT+":compute_bitslice", IX+":Index.union_bitslice")
p("Bit-sliced top-k selects exactly the heaviest documents",
  "utilities.bstm(matching, bitslice, k) with k>=1 returns matching itself when it has at most k members, and otherwise {d in matching | weight d >= t} for a threshold t such that at least k members weigh >= t and fewer than k weigh > t (all ties at the threshold are returned).",
  "every matching set, every bitslice, every k >= 1", "needs every tie pattern and every bit width",
  UT+":bstm")
p("Bitslice weights are enumerated once, in order, and exactly",
  "utilities.weight_bitslice yields each document that occurs in some slice exactly once, in increasing id order, with weight equal to the sum of 2^layer over the layers that contain it, and yields nothing else.",
  "every list of slices", "merge/groupby interleavings over all slice lists", UT+":weight_bitslice")
p("Window expansion stays inside the document",
  "utilities.expand_positions_window(positions, boundaries, w) returns exactly the positions that lie within w of a given position *and inside the same document*.",
  "every well-formed boundary list, every set of positions inside it, every w", "the boundary case is hit only when a match is within w of the end of its document",
  UT+":expand_positions_window")
p("Datetime rounding buckets are nested and canonical",
  "utilities.round_datetime maps a datetime to minute/hour/day/month/year values such that each is the latest datetime of its granularity not after the input, the buckets are nested (year<=month<=day<=hour<=minute<=input), and two datetimes get the same bucket iff they agree on all fields down to that granularity.",
  "every datetime", "the domain of datetimes is too large to enumerate", UT+":round_datetime")
# ---- indexing --------------------------------------------------------------
p("The boolean index is exact",
  "After a successful Index.index() of a corpus, idx[(field, value)] is exactly the set of ids of documents whose corpus.index(doc) lists value (not None) under field, and the stored document count is the size of that set; this holds for every batch size, every number of workers and with or without positions.",
  "every corpus, every doc_batch_size, every worker count, every previous index content", "tests check totals on one corpus",
  IX+":Index.index", IX+":_index_docs", DBU+":RoaringUnion")
p("Indexing does not depend on the schedule of the worker batches",
  "The database committed by Index.index() is the same whatever order the background batches finish and write their segments in.",
  "every interleaving/completion order of the batches", "a test run sees one schedule", IX+":Index.index", IX+":_index_docs")
p("Feature ids are stable across reindexing",
  "Re-running Index.index(), on any other corpus, keeps the id of every (field, value) that was already known, never gives one id to two features, and keeps features that no longer occur addressable with an empty document set.",
  "every pair of old index and new corpus", "needs every old/new vocabulary overlap", IX+":Index.index")
p("A failed indexing run leaves the old index untouched",
  "If Index.index() raises before its merge has been committed (a document fails to index, a batch fails, a key is duplicated, ...) or the process dies before that point, the database other readers and later sessions see is exactly the one from before the call.",
  "every corpus and every failing batch / crash point before the first commit", "needs every failure point", IX+":Index.index")
p("Indexing an empty corpus gives an empty index",
  "Index.index() on a corpus with no documents succeeds and yields an index with no matching documents.",
  "every previous index", "empty corpus is never tested and depends on the side table created by workers", IX+":Index.index", IX+":_index_docs")
p("Document ids and keys are in one-to-one correspondence",
  "After indexing, document ids are 0..n-1 in the order of corpus.keys(); convert_query_to_keys maps exactly the queried ids to their keys with nothing lost or merged; docs(query) yields exactly the queried documents once each, in key order; asking for an unindexed id raises.",
  "every corpus with distinct keys and every query", "needs all corpora and all subsets of ids", IX+":Index.index", IX+":Index.convert_query_to_keys", IX+":Index.docs")
p("The positional index is a lossless encoding of the sequences",
  "With index_positions=True, for every partition, document and offset of a sequence field, the only feature of that field holding the global position boundary(doc)+offset is the one for the value at that offset; every stored position arises that way; the document boundaries are strictly increasing and pair up with the documents that have a non-empty sequence.",
  "every corpus, every batch size", "needs all sequence lengths, repeats and empty documents", IX+":_index_docs", IX+":Index.index")
p("The field summary describes the indexed corpus",
  "indexed_field_summary() lists for each field the number of distinct values occurring in the corpus, their least and greatest value, and the number of stored positions.",
  "every history of index() calls", "depends on what earlier index runs left behind", IX+":Index.index", IX+":Index.indexed_field_summary")
p("Indexing never has more than workers+1 batches in flight and loses none",
  "At every moment of Index.index() at most workers+1 batches are submitted and unfinished, every document is in exactly one batch of at most max(1, doc_batch_size) documents, and at the merge every batch has completed successfully.",
  "every corpus length, batch size, worker count and completion schedule", "adversarial completion orders", IX+":Index.index")
p("A crash during indexing leaves a consistent, usable index",
  "Whatever instant the process dies during Index.index(), the next session sees an index whose cluster summaries agree with its features and on which index() can be run again.",
  "every crash point between SQLite commits", "tests never kill the process between two commits", IX+":Index.index", IX+":Index._update_changed_clusters")
# ---- transactions ----------------------------------------------------------
p("Every public write is all-or-nothing",
  "A call to a method of Index that modifies the clustering (initialise/delete/merge/create/pin/refine; the worker pool not failing) that raises leaves the database exactly as before the call and leaves no transaction open; a call that returns commits its complete effect, and nothing is visible to other connections before that.",
  "every method that modifies the clustering, every argument, every reachable state (indexing: C09 and C15; nesting: C17; pool failure: C18)", "needs every failing argument combination and nesting", IX+":atomic")
p("Nested atomic calls commit once, at the outermost level",
  "While any atomic method is running, other connections see the state from before the outermost call; an exception in an inner atomic call that the outer method survives undoes exactly the inner call's effects.",
  "every program built from nested atomic calls, exceptions and handlers", "all nestings", IX+":atomic")
p("A failure while refreshing cluster statistics is contained",
  "If the background pool fails while a modifying method refreshes cluster statistics, the call raises, its changes are not kept, and the connection is left with no open transaction so that later calls work and are committed.",
  "every modifying call and every pool failure", "requires injecting a pool failure into the finally block", IX+":atomic", IX+":Index._update_changed_clusters")
p("Changes made inside `with idx:` are kept",
  "Modifications made through an Index used as a context manager are committed when the block ends normally.",
  "every sequence of modifying calls in the block", "tests never use the context manager in the foreground", IX+":Index.__enter__", IX+":Index.__exit__")
# ---- cluster model ---------------------------------------------------------
p("Cluster summaries always agree with their features",
  "After any history of public calls, for every listed cluster the feature count, document bitmap, document count and weight are exactly those of the union of its current features, features carry their index document counts, and no stale change marks remain.",
  "every finite history of index/initialise/delete/merge/create/pin/refine calls with any arguments, successful or failing", "state-space is unbounded",
  IX+":Index._update_changed_clusters", SC+":CURRENT_SCHEMA")
p("The model is a partition of its features",
  "After any history of public calls every feature in the model belongs to exactly one cluster, that cluster is listed by cluster_ids, no listed cluster is empty, and every feature in the model exists in the index.",
  "every finite history of public calls", "state-space is unbounded", SC+":CURRENT_SCHEMA", IX+":Index.cluster_ids")
p("initialise_clusters assigns exactly the eligible features, evenly",
  "After initialise_clusters(n, min_docs, include_fields) the model contains exactly the features of the selected fields (all fields when none are given) with at least min_docs documents, each in one of clusters 0..n-1, cluster sizes differ by at most one, nothing is pinned, and nothing of the previous model remains.",
  "every index, previous model, n, min_docs, field list without repeats, random shuffle", "needs every random outcome", IX+":Index.initialise_clusters")
p("merge_clusters moves exactly the named clusters' features",
  "merge_clusters(ids) returns the first id; afterwards that cluster holds exactly the features that were in any of the named clusters, the other named clusters are gone, every other cluster and all pins of features are unchanged; an empty list raises and changes nothing.",
  "every consistent model and every list of ids (repeats, unknown ids)", "all id lists", IX+":Index.merge_clusters")
p("create_cluster_from_features builds exactly the requested cluster under a fresh id",
  "create_cluster_from_features(fs) returns an id larger than every existing cluster id; afterwards that cluster holds exactly the features fs (whether or not they were in the model), they are in no other cluster, all other memberships are unchanged; an unknown feature raises and changes nothing.",
  "every consistent model and feature list", "all models and lists", IX+":Index.create_cluster_from_features", IX+":Index.next_cluster_id")
p("Deleting features or clusters removes exactly those",
  "delete_features / delete_clusters remove exactly the named features / all features of the named clusters from the model, drop clusters that become empty, and change no other feature, cluster or pin; the boolean index is unchanged.",
  "every consistent model and id list", "all models and lists", IX+":Index.delete_features", IX+":Index.delete_clusters")
p("Pinning changes only the pin flags",
  "pin_features / pin_clusters set the pin flag of exactly the named features / clusters to the given value and change nothing else.",
  "every consistent model and id list", "all models and lists", IX+":Index.pin_features", IX+":Index.pin_clusters")
p("cluster_features and top_cluster_features return the top-k by document count",
  "cluster_features(c, k) returns min(k, size) distinct features of cluster c in descending document count, none of the omitted features having a larger count than a returned one; top_cluster_features lists every cluster exactly once in descending document count.",
  "every consistent model, cluster and k", "all tie patterns", IX+":Index.cluster_features", IX+":Index.top_cluster_features")
p("cluster_query agrees with cluster_docs",
  "In any state reachable through the API, the matching set computed by cluster_query(c) equals the precomputed cluster_docs(c), and its bitslice counts for each document the number of the cluster's features matching it.",
  "every reachable state and cluster", "state-space is unbounded", IX+":Index.cluster_query", IX+":Index.cluster_docs")
p("A cluster id is never reused",
  "next_cluster_id() is higher than anything already assigned: an id handed out for a new cluster was never used before.",
  "every history of public calls", "needs histories with deletions", IX+":Index.next_cluster_id")
# ---- refinement ------------------------------------------------------------
p("Refinement neither loses, duplicates nor invents features",
  "refine_clusters, whatever its parameters and random outcomes, leaves the set of features in the model, their document counts and their pins unchanged, each still in exactly one cluster.",
  "every model, parameter setting, random stream and score", "all random outcomes", IX+":Index.refine_clusters", IX+":Index._refine_feature_groups")
p("Pinned and unselected parts are untouched by refinement",
  "refine_clusters never changes the cluster of a pinned feature, nor the membership of a pinned cluster, nor the membership of a cluster outside the selection.",
  "every model, selection, parameters and random stream", "all random outcomes", IX+":Index.refine_clusters", IX+":Index._refine_feature_groups")
p("Refinement respects the minimum cluster size",
  "With no cluster being split or dissolved, a cluster that has at least minimum_cluster_features features before refine_clusters has at least that many after.",
  "every model, parameters and random stream", "all random outcomes", IX+":Index._refine_feature_groups")
p("Refinement reaches the requested number of clusters",
  "When target_clusters is given and larger than the current number of (non-pinned, selected) clusters, the features assigned to the newly created clusters are saved under new ids.",
  "every model with enough features, selection and pinned clusters", "depends on how local and global ids overlap", IX+":Index.refine_clusters")
p("Refining a fully pinned model is a no-op",
  "refine_clusters on clusters all of whose features are pinned returns normally and changes nothing.",
  "every such model", "never tested", IX+":Index._refine_feature_groups")
p("Lowering the number of clusters never raises",
  "refine_clusters with a positive target_clusters smaller than the number of selected clusters returns normally.",
  "every model, pinned clusters, group-test setting and random stream", "depends on pinned clusters and group-test pruning", IX+":Index._refine_feature_groups", IX+":Index._find_best_moves")
p("Feature contributions are exact objective differences",
  "measure_feature_contribution_to_cluster reports for each member that shares a document with another member the objective of the cluster minus the objective without it, for each outside feature that shares a document with the cluster the objective with it minus the objective, and -1 / 0 in the documented degenerate cases.",
  "every cluster, candidate set and probe query", "all overlap patterns", IX+":measure_feature_contribution_to_cluster")
p("Proposed moves are the best ones and do not depend on processing order",
  "For each feature the kept candidates are the top_k largest (delta, cluster) pairs among all scored ones, in descending order, irrespective of the order in which worker results arrive.",
  "every collection of scores and order", "all orders", IX+":Index._score_proposed_moves")
p("An empty selection selects nothing",
  "refine_clusters(cluster_ids=[]) leaves the model unchanged; pivot_clusters_by_query(q, cluster_ids=[]) and structured_doc_sample(cluster_ids=[]) return nothing.",
  "every model", "empty list is a falsy corner case", IX+":Index.refine_clusters", IX+":Index.pivot_clusters_by_query", IX+":Index.structured_doc_sample")
# ---- querying --------------------------------------------------------------
p("Pivoting returns the true top-k features despite early termination",
  "For each cluster, pivot_clusters_by_query returns exactly the k features with the largest positive Jaccard similarity to the query (ties broken by feature id), in descending order: the length-based pruning never discards one of them.",
  "every consistent model, query and k >= 1, any monotone rounding of the scores", "pruning errors need particular size/overlap combinations", IX+":_pivot_cluster_features_by_query_jaccard")
p("Pivoting covers every matching cluster once, best first",
  "pivot_clusters_by_query yields exactly the clusters sharing a document with the query, each once, with their Jaccard similarity, in descending similarity, irrespective of worker count and completion order.",
  "every model, query, worker count and schedule", "all schedules", IX+":Index.pivot_clusters_by_query", IX+":_calculate_query_cluster_cooccurrence")
p("Field intersections line up with the field's values",
  "intersect_queries_with_field returns the field's occurring values in increasing order, with their document counts and, for every named query, the list of overlap sizes in the same order.",
  "every index, field and set of queries", "all value sets", IX+":Index.intersect_queries_with_field", IX+":Index.iter_field_docs")
p("Sampling a bitmap gives a subset of the requested size",
  "sample_bitmap(b, k) returns a subset of b of size min(k, |b|), for every state of the random generator.",
  "every bitmap, k and random stream", "all random outcomes", IX+":Index.sample_bitmap")
p("Structured sampling is without replacement and correctly cross-labelled",
  "structured_doc_sample returns for each selected cluster a sample of its documents, pairwise disjoint, of size min(k, number of its documents not sampled before) (all of them when k<=0), and maps every cluster of the model to exactly its documents among all sampled ones.",
  "every model, k, selection and random stream", "all random outcomes", IX+":Index.structured_doc_sample")
p("Exported samples label each row with the right document and clusters",
  "export_document_sample writes one row per sampled document, carrying that document's key and content, the cluster it was sampled for, and a mark for exactly the clusters that contain it.",
  "every sample and model", "row alignment over all samples", IX+":Index.export_document_sample")
p("Concordance windows are exact",
  "extract_matching_feature_windows returns for each queried document and field every occurrence of a requested value, in order, with exactly the values at most window_size away from it.",
  "every document, feature list and window", "all positions and lengths", IX+":Index.extract_matching_feature_windows", IX+":Index.concordances")
p("Reported passages satisfy the query",
  "Every passage returned by score_passages_dnf lies in the reported document, and every match counted in it has, within window_size positions in the same document, an occurrence of every clause.",
  "every indexed corpus, clause list and window", "needs matches next to document boundaries", IX+":_score_passages_dnf", UT+":expand_positions_window")
p("Every matching document is reported",
  "Every document containing an occurrence of the feature of a one-clause query is reported by score_passages_dnf.",
  "every indexed corpus", "the last document of each partition is special", IX+":_score_passages_dnf")
p("Passages partition the matches into maximal runs",
  "The passages reported for a partition are exactly the maximal runs of matching positions that stay in one document and have gaps of at most window_size, with document-relative start and end and the number of matches in the run.",
  "every set of matching positions and boundaries", "all gap patterns", IX+":_score_passages_dnf")
p("Collocations count only features of the queried field",
  "count_collocations(field, ...) reports only features of that field.",
  "every index with several positional fields", "tests have one positional field", IX+":_count_collocations")
p("Collocation counts add up over partitions",
  "count_collocations reports for each feature the sum over all partitions of its occurrences inside the windows and of its occurrences, and the total numbers of query positions and window positions, for every completion order of the workers.",
  "every index, partitioning and schedule", "all schedules", IX+":Index.count_collocations", IX+":_count_collocations")
p("Rendered passages contain the whole passage and the overhang",
  "render_passages_table shows for each passage the tokens from passage_overhang before its first match to passage_overhang after its last match.",
  "every document, passage and overhang", "off-by-one only visible at particular overhangs", IX+":_construct_passages")
p("The co-occurrence graph has exactly the overlapping pairs as edges",
  "create_cluster_cooccurrence_graph returns a node per cluster and an edge, weighted by Jaccard similarity, between exactly the pairs of distinct clusters sharing a document, for every completion order.",
  "every model and schedule", "all schedules", IX+":Index.create_cluster_cooccurrence_graph")
p("Feature lookup is a bijection and unknown keys give the empty set",
  "lookup_feature and lookup_feature_id are mutually inverse on the indexed features and raise KeyError elsewhere; indexing with an unknown id or key gives an empty set; idx[id] equals idx[lookup_feature(id)].",
  "every reachable index", "state-space is unbounded", IX+":Index.lookup_feature", IX+":Index.lookup_feature_id", IX+":Index.__getitem__")
p("Indexing with a slice retrieves the range",
  "idx[(field, a):(field, b)] returns the union of the documents of the values in the range, as documented for __getitem__.",
  "every index and slice", "documented but never tested", IX+":Index.__getitem__")
# ---- corpus / schema / cli / server ----------------------------------------
p("replace_docs replaces the corpus atomically and reports failure",
  "PlainTextSqliteCorpus.replace_docs either stores exactly the given texts under keys 1..n in order, or, when producing the texts fails, raises and keeps the old documents.",
  "every iterable of texts and every failure point", "needs failing iterables", CO+":PlainTextSqliteCorpus.replace_docs")
p("Re-adding a StackExchange site keeps document keys stable",
  "add_site_data keeps the document key of every already known (site, post id), gives new posts distinct new keys, never touches posts of other sites, skips posts that are neither questions nor answers, and adding the same posts twice gives the same documents as adding them once.",
  "every sequence of dumps", "all overlaps of dumps", CO+":StackExchangeCorpus.add_site_data")
p("Tag strings are split exactly",
  "Splitting the concatenation of <tag> items gives back the tags in order, for tags without angle brackets, and never an empty tag.",
  "every list of tags", "all strings", CO+":StackExchangeCorpus.add_site_data")
p("Opening a database migrates known versions and refuses everything else",
  "Opening an index database at the current version changes no table; at a known older version it runs exactly the migration steps of that and later versions and ends at the current version; anything else is refused with MigrationError and left untouched.",
  "every schema version and database content", "all versions and contents", SC+":migrate", IX+":Index.__init__")
p("Opening an old index refreshes its cluster summaries",
  "Opening a version 4 index containing clusters migrates it, and afterwards every cluster has its document set computed.",
  "every version 4 database with clusters", "no old database in the tests", IX+":Index.__init__", SC+":migrate")
p("Cluster page navigation visits every cluster",
  "On the cluster page `next` and `prev` are inverse to each other and repeatedly following `next` from any cluster visits every cluster once before returning.",
  "every non-empty list of cluster ids", "all lengths", SV+":Cluster.index")
p("Repeated request parameters are normalised to lists",
  "ensure_list turns a missing, single or repeated parameter into a list of 0, 1 or n converted values, in order, and raises if one fails to convert.",
  "every parameter value", "all inputs", SV+":ensure_list")
p("Plain-text corpora keep whole lines",
  "plaintext-corpus create stores every non-blank line of the text file as one document with its full text.",
  "every text file", "depends on commas in the text", CL+":plaintext_corpus_create")
p("Tweets can be indexed with positions",
  "TwittersphereCorpus documents can be indexed with index_positions=True (the command line default).",
  "every tweet", "tests for this corpus are skipped", CO+":TwittersphereCorpus.index", IX+":_index_docs")
p("A user-supplied working directory can be used for indexing",
  "Index.index(working_dir=path) indexes using that directory and leaves the directory in place.",
  "every directory path", "the parameter is never passed in tests", IX+":Index.index")
p("The command line keeps an existing model unless asked to restart",
  "`hyperreal model` initialises a new model exactly when none exists or --restart is confirmed; otherwise it only refines the existing one.",
  "every index state and option combination", "all combinations", CL+":model")

EXTRA = os.path.join(os.path.dirname(__file__), "extra_properties.py")
if os.path.exists(EXTRA):
    exec(open(EXTRA).read())

out = os.path.join(os.path.dirname(__file__), "..", "properties.jsonl")
with open(out, "w") as f:
    for x in P:
        f.write(json.dumps(x) + "\n")
print(len(P))
