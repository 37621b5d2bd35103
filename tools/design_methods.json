{
"C01": "Fold of the ripple-carry adder; invariant: the slices read in binary at each document give the number of bitmaps seen so far containing it.",
"C02": "Loop over slices from the highest; invariant on the \"greater\" and \"equal\" sets relative to weights truncated to the slices seen. Specified by weights, not slices; also for an arbitrary bitslice.",
"C03": "heapq.merge of per-slice sorted streams followed by a grouped sum; sortedness and exact sums; composed with C01 for the round trip.",
"C04": "State machine over the positions; exact set of positions returned, and a concrete leak.",
"C05": "Granularities as truncation of the fields; idempotence, nesting, monotonicity for every pair of granularities.",
"C06": "Index.index as a function of old tables, corpus, batch size and completion order; invariants over batches and over the merge of segments; refined to \"document i has value v in field f\".",
"C07": "The merged segments are grouped by key, so their order is irrelevant (permutation argument); faults included: the set of possible outcomes is the same.",
"C08": "The merge only inserts ids for unknown (field, value) pairs: preservation of the lookup map by the fold.",
"C09": "Every raise before the commit restores the savepoint; by cases on where the fault occurs. Crash before the merge commits keeps the disk.",
"C10": "The path with no batch: the temporary database has no tables; concrete and general refutation.",
"C11": "doc ids 1..n in corpus order; from the enumeration of the corpus.",
"C12": "Decoding function in the specification (positions of a feature cut at document starts) applied to the produced rows gives the sequences; induction over documents of a batch with the running base position.",
"C13": "Exact values of every summary column by field; refutation with a retired value.",
"C14": "Dispatch loop as a transition system with an adversarial completion oracle; invariant: submitted = collected + in flight, in flight <= workers + 1.",
"C15": "All crash points between the commits; consistency invariant of each, concrete broken one, repair by the next modifying call.",
"C16": "Generic lemma over atomic (any body): result Ok gives exactly the body's effect committed, an exception gives the old database; instantiated at all public writes.",
"C17": "Programs of nested atomic blocks (History.prog); induction on the program.",
"C18": "Failure inside the refresh leaves the savepoint stack non-empty; invariants for all later calls.",
"C19": "__enter__ begins a transaction that __exit__ closes the connection on; concrete and general loss.",
"C20": "Invariant over every finite history of calls, failures, crashes and reopenings (History.history).",
"C21": "Same induction with the partition invariant.",
"C22": "Exact rows produced from the shuffled list of eligible features, size bounds by arithmetic of striding.",
"C23": "Exact new membership map, pointwise over features and clusters.",
"C24": "Exact new membership map, new id, error for an unknown feature.",
"C25": "Exact membership maps after deletion.",
"C26": "Exact flags; everything else equal.",
"C27": "Sortedness, membership, length and maximality of the returned list.",
"C28": "Both sides equal the union of the features' documents; needs summaries (C20).",
"C29": "Maximum of existing ids + 1; concrete reuse after deletion.",
"C30": "Invariant of the refinement loop for every random stream: the assignment stays a function on the same feature set; then the save step.",
"C31": "Loop invariant on pinned features and clusters; save touches only moved rows.",
"C32": "Loop invariant on cluster sizes (moves only from clusters above the minimum, dissolved ones end empty).",
"C33": "Exact ids of new clusters before and after saving; concrete loss; the side conditions that exclude it.",
"C34": "Exact conditions of the division by zero, unchanged state otherwise.",
"C35": "Totality proof of the loop (RefineTotal.v) under the stated condition; concrete IndexError.",
"C36": "Objective as a rational; algebra over sums of cluster counts with and without a feature.",
"C37": "The heap of candidate moves equals the k best of the full list; independence of clusters' order by permutation.",
"C38": "Both readings computed; equality of empty and absent selection.",
"C39": "Pruned loop keeps the top-k heap equal to exhaustive selection, since the bound is an upper bound of every remaining score.",
"C40": "Permutation of the matching clusters and sortedness of the scores.",
"C41": "Rows ordered by value, each intersection pointwise.",
"C42": "Subset and size, for every random stream.",
"C43": "Invariants of the per-cluster sampling loop; no document twice; labels = all sampled clusters containing it.",
"C44": "Row-by-row specification of the export.",
"C45": "Windows by list slicing; exact list of windows per occurrence.",
"C46": "Conjunctive narrowing of windows over partitions; refined to token distances in the corpus via C12.",
"C47": "Converse of C46; every co-occurrence gives a match, every match but a last lone one a passage.",
"C48": "Walk over sorted matches; runs are maximal with gap > window.",
"C49": "Set of features counted per partition; concrete leak between fields.",
"C50": "Sums of per-partition counters in any order, refined to tokens.",
"C51": "Slices of the token sequence; off-by-one exact.",
"C52": "Edges over pairs of clusters with non-empty intersection, each once, exact weights.",
"C53": "Injectivity of (field, value) and inverse functions; unknown keys.",
"C54": "The branch without return.",
"C55": "Statement list of replace_docs in a transaction, with failures of the generator at any point and a crash at any point.",
"C56": "Histories of dumps; key of a (site, post id) fixed at first insertion; induction over dumps.",
"C57": "Split on the brackets; inverse of the encoding.",
"C58": "Opening a file as a function of the whole file; every version by cases; transaction of the migration.",
"C59": "Opening at version 4; marks; composition with C20.",
"C60": "prev/next as cyclic neighbours in the list of clusters; inverse and reachability by iteration.",
"C61": "Parameter dictionary before and after.",
"C62": "The CSV reader state machine run on the characters of the file; induction over lines.",
"C63": "index() of tweets with positions through the indexing model.",
"C64": "index() with each kind of working_dir; the AttributeError paths.",
"C65": "cli model as calls on the index; by cases on prompts.",
"C66": "Lookups by key in order; unknown key error.",
"C67": "Composition of C55, C06 and the lookup.",
"C68": "Documents as joins over all dumps.",
"C69": "Composition of C68 and C06.",
"C70": "Rendered values vs indexed values field by field.",
"C71": "Index.index leaves clusters and memberships, via C08.",
"C72": "is_index_db as a function of the file.",
"C73": "All handlers by cases: failing answer implies unchanged database, with exact exceptions.",
"C74": "Each handler equals the API call with the parsed parameters.",
"C75": "Induction over request sequences, using C20/C21.",
"C76": "The page's data equal the readers' answers for the selected documents.",
"C77": "results_of by result type.",
"C78": "search redirects to the lookup of the typed text.",
"C79": "Rows = all (cluster, feature) pairs; limit by C27.",
"C80": "Lift of C45 through the joining of windows; error case by totality of the traversal.",
"C81": "C51 applied to the drawn sublist.",
"C82": "overview handler composed from C39/C40 (query) and C27 (no query).",
"C83": "is_index_db check, opening, structured sample (C43) and export (C44) composed; one-row-per-document by disjointness of samples.",
"C84": "Small-step model of connections sharing a WAL database; invariant: the committed log, with reads placed at their snapshots, is a sequential run.",
"C85": "C84 specialised to requests; refutation by executing an interleaving.",
"C86": "Each client's transaction keeps soundness when alone; lifted along the order given by C84.",
"C87": "C84 plus: index contents only change by a committed re-indexing.",
"C88": "Refutation by an execution with a commit between two worker reads; positive part from C84.",
"C89": "The handler as a function of one database per read; refutation by executing an interleaving; positive part: constant views give the page of C76, at a point of the order of C84.",
"C90": "The SQL of TwittersphereCorpus.docs as list comprehensions over the tables; every clause of the specification derived from the tables, then C06/C11 for the index.",
"C91": "Case analysis on the metadata row.",
"C92": "Induction over the requested keys.",
"C93": "The writer and the reader's state machine of Python's csv module, character by character; induction over cells and rows; counterexample executed.",
"C94": "Counterexample executed; positive part from C62.",
"C95": "A connection as committed contents, savepoint stack and snapshot, with any number of iterators advanced in any order; invariants over runs: the docs savepoints number the iterations in progress, and an iteration in progress reads the snapshot; composed over continuations of a run.",
"C96": "From C95 for plain text; otherwise invariant: the savepoint of the failed rendering stays at the bottom of the stack, so the snapshot stays.",
"C97": "From the invariants of C95; the release of the inner savepoint commits exactly when it is the outermost.",
"C98": "Scanner over characters with a skip flag; induction over the whitespace-delimited words against a declarative specification, shown to be functional; composed with C90.",
"C99": "Induction over the pieces of the splitter.",
"C100": "HTML trees with texts and tails; structural induction relates itertext, the code nodes and their removal to an independent reading of the tree; composed with the exactness of indexing (C06) and the document histories (C68).",
"C101": "Forms of the templates as data (Controls.v); a relation says what a browser may send for a form; CherryPy's decoding; composed with C74 (effects) and C60/C76 (pages).",
"C102": "Links of the templates as data; the total correctness of the pages (C76, C82) shows that each opens.",
"C103": "As C101, for the overview.",
"C104": "The templates as lists of pieces (literal, escaped, raw), transcribed by tools/gen_markup.py; a browser's tokeniser as specification (SpecMarkup.v). Escaped text is read literally in text and in quotes (induction); two pages with different texts are compared piece by piece.",
"C105": "As C104 for the templates of corpus.py, where autoescape is off; the refutations compute the reading of a page.",
"C106": "Two successful runs give permutations of the same segments; the exactness of C06 fixes the rows of every feature, and the summaries of C29 those of every cluster. Series of calls by induction.",
"C107": "The commands as functions on a file system (Commands.v), composed from the models of csv, corpus, schema migration and indexing; C62, C58 and C06 are applied in turn.",
"C108": "Case analysis of the command, with the invariants of the calls it makes (C18, C29, C57).",
"C109": "As C108; the refutation holds for every run on an empty file.",
"C110": "Induction over the history with the invariant that the file holds a sound index or none.",
"C111": "The instants of a command as a relation (Kills.v) built on the log of commits of every call; every computation on a connection extends the log and ends in its newest entry, and every entry is a usable index. The refutation computes a killed command.",
"C112": "Induction over histories with the step lemma of C111.",
"C113": "isoformat as a function on datetimes (Dates.v); fixed-width decimal digits sort like numbers, by induction on the width. Combined with C90/C100 (which documents have a value) and C70 (order of the values).",
"C114": "Python values with their equality and sqlite3's adapters (Values.v); the worker of Indexing.v is run on codes of the dictionary keys and the keys are adapted when rows are written. A simulation shows that renaming values injectively commutes with the worker; the adapters are injective except between texts and dates.",
"C115": "Induction over the iterations: the clusters still to dissolve fit into the iterations left, and each pass dissolves its share or all that can be dissolved; then the renaming and saving of clusters.",
"C116": "Composition of C107, C65, C71 and C115; a bijection between the documents of the index and the lines gives the number of lines of a word.",
"C117": "Composition of C116, C79, C83 and C93; the clusters' documents are translated into lines with their words.",
"C118": "Generators and the transaction that an unfinished statement keeps open as a state machine (Browse.v); invariant: an iteration that has started holds the rest of the rows of a committed state, and the view is some committed state.",
"C119": "The same machine; invariant: there is a view only while an iteration is underway, and it is the present index unless another process has committed. A concrete run refutes the rest.",
"C120": "The generator of the index on top of the model of corpus iterators of C89; invariant relating each generator to one committed index, one committed corpus and what it has given.",
"C121": "Composition: the invariant of C68 gives the columns of a post from the history, these fill the pieces of the template, and the pieces are read as in C105. Erasing titles and comments commutes with adding dumps and with the template.",
"C122": "Composition: the document of C92 fills the pieces of the template, which are read as in C105 with the text escaped as Twitter does; the search part by C90.",
"C123": "Composition: the history invariant of C68 gives the columns of a post, json.dumps is inverted by an independent reader (induction over texts and over the list of comments), and the written file is read as in C93.",
"C124": "Case analysis over the decorated methods; the one with atomic outside by the lemmas for failing bodies of atomic; the classes of the library by computation on their (finite) attribute sets.",
"C125": "Objects as class, path, tokeniser and the state of their connection; getstate, setstate and __init__ as functions over the committed files; for the index composed with the opening of C58."
}
