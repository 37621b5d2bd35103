p("Plain text documents are returned as requested",
  "PlainTextSqliteCorpus.docs(keys) yields the documents of the given keys in the given order, repeats included, and raises IndexError at the first unknown key after yielding the ones before it; docs() yields all documents in key order; keys() gives 1..n after replace_docs of n texts.",
  "every table and every list of keys", "all key lists", CO+":PlainTextSqliteCorpus.docs", CO+":PlainTextSqliteCorpus.keys", CO+":PlainTextSqliteCorpus.render_docs_html")
p("A plain text corpus can be stored, indexed and searched",
  "After replace_docs(texts) and Index.index, looking up the feature ('text', w) gives exactly the documents whose text has the token w, and document i has key i+1.",
  "every list of texts, tokeniser, batch size, completion order and previous index", "an end-to-end statement over all of them", CO+":PlainTextSqliteCorpus", IX+":Index.index", IX+":Index.__getitem__")
p("StackExchange documents reflect everything added",
  "After any sequence of add_site_data calls the document of (site, id) exists exactly if some readable dump of the site had a question or answer with that id; it has the text of its last version, the tags any version of its question had, the last name of its owner, and the comments on it, each in its last version.",
  "every sequence of dumps, failing ones included", "all histories of overlapping dumps", CO+":StackExchangeCorpus.add_site_data", CO+":StackExchangeCorpus.docs")
p("StackExchange corpora can be indexed and searched by tag",
  "If creation dates parse and comments have text, every StackExchange corpus can be indexed (with or without positions), and looking up ('Tag', t) gives exactly the questions with tag t and the answers to them.",
  "every history of dumps, order of keys(), tokeniser, HTML parser, batch size and completion order", "an end-to-end statement", CO+":StackExchangeCorpus.index", CO+":StackExchangeCorpus.keys", IX+":Index.index")
p("Rendered StackExchange fields agree with the documents",
  "The fields used to render a document (site, id, body, tags, author, comments) are those of docs(); the title shown for an answer is the title of its question; an unknown key raises IndexError in both.",
  "every corpus and key", "all corpora", CO+":StackExchangeCorpus._get_rendered_doc_fields", CO+":StackExchangeCorpus.render_docs_table")
p("Re-indexing keeps the clustering",
  "Index.index() never adds, removes, moves or unpins a clustered feature and never changes which clusters are pinned, in every outcome (success, failure, crash); after success the document count stored with each clustered feature is its new count.",
  "every database, corpus, batch size, completion order, failure and crash point", "all outcomes and crash points", IX+":Index.index", SC+":CURRENT_SCHEMA")
p("is_index_db recognises exactly index databases",
  "Index.is_index_db(path) answers True exactly for SQLite databases with the application id of hyperreal and False for a missing file and for every other file, without raising; every database that opening an Index creates or migrates is recognised.",
  "every database file", "all files", IX+":Index.is_index_db")
p("A failed web request changes nothing",
  "If a POST request to the web application is not answered with a redirect (error status or exception), the index is as before the request.",
  "every request, parameters, index state and pool behaviour", "all requests and failure points", SV+":ClusterOverview", SV+":FeatureOverview", SV+":Index.recreate_model", SV+":Index.refine_model")
p("Web requests do what the corresponding call does",
  "A well-formed POST to delete, merge, create, remove, pin, refine or recreate has exactly the effect on the index of the corresponding method call on the named clusters or features, and redirects to the page of the result.",
  "every index state and every list of ids", "all states and lists", SV+":ClusterOverview", SV+":FeatureOverview", SV+":Index.recreate_model", SV+":Index.refine_model")
p("Any sequence of web requests keeps the model consistent",
  "After any sequence of requests, well-formed or not, whatever the pool does, cluster summaries agree with the features and the indexed documents are untouched; a request whose first pool job fails changes nothing.",
  "every sequence of requests and pool behaviours", "all histories", SV+":SingleIndexServer", SV+":ClusterOverview", SV+":FeatureOverview")
p("The cluster page describes the selected documents",
  "The page of a cluster, optionally restricted to a feature and/or another cluster, reports the number of documents in the intersection, lists the features of the cluster similar to it in decreasing similarity (all features when it is empty), the pin state, and with a corpus a random sample of min(n, total) of exactly those documents with their keys, or the passages for the conjunction.",
  "every index state, cluster, feature, filter and sample size", "all combinations", SV+":Cluster.index")
p("The requested result type is displayed",
  "A page asked for result_type=concordance shows concordance lines.",
  "every page with a corpus", "never exercised", SV+":Cluster.index", SV+":Index.index")
p("Searching a field for a value finds the feature",
  "The search form redirects to the feature whose field and value were typed in, whatever the type of the value; an unknown value is reported.",
  "every index and value", "all values", SV+":Index.search", SV+":Cluster.search")
p("Exported cluster tables are complete",
  "The exported table has exactly one line per clustered feature with its cluster, field, value and document count, cluster by cluster; with --top-k-features k the k most frequent of each cluster.",
  "every index state and k", "all models", SV+":Index.export_clusters", CL+":clusters")
p("Concordances show every occurrence in context",
  "concordances(query, features, w, n) yields min(n, |query|) documents of the query (all without n), each once, and for every requested value occurring in a sequence field of the document one line per occurrence, in order: the values at most w positions away joined by the given character; an integer in such a window raises TypeError.",
  "every index, corpus, query, list of features, window and random state", "all documents and windows", IX+":Index.concordances", IX+":Index.extract_matching_feature_windows")
p("Sampled passage tables show whole documents of the result",
  "render_passages_table(scored, random_sample_size=k) shows exactly min(k, n) of the n scored documents, each once and with all its passages, in every batch size and completion order.",
  "every scored result, sample size, batch size, random state and completion order", "all random states and schedules", IX+":Index.render_passages_table")
p("The overview page ranks the clusters for the selected documents",
  "The index page for a feature or cluster reports the number of its documents and lists exactly the clusters sharing documents with it, most similar first, each with its top_k most similar features; without a selection (or documents) it lists every cluster by number of documents with its most frequent features; without a model it redirects to the details page.",
  "every index state, selection and top_k", "all states", SV+":Index.index")
p("Sampled exports from the command line are complete and correctly labelled",
  "The sample command writes each document at most once, for a cluster it belongs to, with a mark for exactly the clusters it belongs to; with --docs-per-cluster 0 every document of the model is written; otherwise at most that many per cluster, and fewer only if all documents of the cluster are in the file.",
  "every index of the current version, corpus, sample size and random state", "all random states and models", CL+":make_csv_exporter", IX+":Index.structured_doc_sample", IX+":Index.export_document_sample")
p("Concurrent clients are serialised",
  "When several connections or processes run transactions on one index file at the same time, in every interleaving, with refusals and abandonments: the transactions that ended had the results and effect they would have had one at a time in some order consistent with real time; only the end of a transaction holding the write lock changes the database; there is never more than one such transaction; and no set of clients blocks for ever.",
  "every set of transactions, interleaving, refusal and abandonment", "all schedules", DBU+":connect_sqlite", IX+":atomic", IX+":Index.index")
p("Simultaneous web requests behave as if served one at a time",
  "The answers to requests served simultaneously, and the resulting index, are those of serving them one after the other in some order consistent with time.",
  "every set of requests and interleaving", "all schedules", SV+":ClusterOverview", SV+":FeatureOverview", SV+":Index.recreate_model", IX+":atomic")
p("Consistency under simultaneous editing and re-indexing",
  "While any number of clients edit, refine, search and re-index the same file at the same time, at every moment the database is consistent; its documents are exactly those of the last committed re-indexing; and after any change to the clustering that ended after it (or the second phase of the re-indexing), all cluster summaries are right.",
  "every interleaving of calls of every client", "all schedules", IX+":Index.index", IX+":atomic", IX+":Index._update_changed_clusters", DBU+":connect_sqlite")
p("A lookup during re-indexing sees one index",
  "A lookup of a feature while the index is rebuilt and edited gives either what the index held before, or exactly the matching documents of one of the corpora indexed in the meantime, never a mixture.",
  "every interleaving, corpus and feature", "all schedules", IX+":Index.__getitem__", IX+":Index.index")
p("A passage search during re-indexing sees one index",
  "A passage search computed by several worker processes while the index is rebuilt gives the result for one state of the index.",
  "every interleaving of workers and commits", "all schedules", IX+":Index.score_passages_dnf", IX+":_score_passages_dnf")
p("A page shows the index of one moment",
  "The page of a cluster requested while others edit the model is the page of one state of the index: it does not mix states, and does not fail because of the edits.",
  "every interleaving of a page's reads with other clients' calls", "all schedules", SV+":Cluster.index", IX+":atomic")
p("Tweets are found by exactly what they say",
  "After indexing a Twittersphere database, a lookup of (field, value) gives exactly the collected tweets whose latest version says it: author, creation time and, for retweets, only the retweeted tweet and its author; otherwise also its words, hashtags, mentions, conversation, external links in their most resolved form and their domains, quoted and replied-to tweet and author, and the labels of its direct collections.",
  "every Twittersphere database, tokeniser, batch size, schedule, field and value", "all databases and schedules", CO+":TwittersphereCorpus.docs", CO+":TwittersphereCorpus.index", CO+":TwittersphereCorpus.keys")
p("Databases not made by Twittersphere are refused",
  "Opening a TwittersphereCorpus succeeds exactly on databases with a Twittersphere schema version of at least 15, and raises ValueError on any other database.",
  "every SQLite database", "all databases", CO+":TwittersphereCorpus.__init__")
p("Documents of the Twittersphere corpus",
  "docs(keys) gives the requested tweets in the requested order, each with its latest text, author and external links; without keys, all directly collected tweets in the order of their ids; an unknown tweet raises IndexError after the documents before it.",
  "every Twittersphere database and list of keys", "all databases", CO+":TwittersphereCorpus.docs", CO+":TwittersphereCorpus.keys")
p("Exported files read back as the exported table",
  "Reading a file exported by the command line or the web interface as a CSV file gives exactly the header and the rows that were exported, whatever the texts contain, on every platform.",
  "every index, corpus, text and platform", "all texts", IX+":Index.export_document_sample", CL+":export_clusters", SV+":Index.export_clusters")
p("Quoted lines are JSON strings",
  "plaintext-corpus create treats a line that begins and ends with a quote as a JSON string and stores the decoded text.",
  "every line and document", "all texts", CL+":plaintext_corpus_create")
p("An iteration over documents reads one state of the corpus",
  "Whatever iterations, renderings and commits of other processes are mixed, all documents given by one iteration of docs() come from one committed state of the database: the state at its start if no other iteration was in progress. Finished, failed and abandoned iterations leave nothing behind.",
  "every interleaving of docs() iterations, renderings and commits by other processes", "all schedules", CO+":PlainTextSqliteCorpus.docs", CO+":StackExchangeCorpus.docs", CO+":TwittersphereCorpus.docs")
p("A failed rendering does not affect later reads",
  "After rendering documents raised an error (an unknown key), later reads through the same corpus object show the present contents of the corpus.",
  "every history of a corpus object", "all histories", CO+":StackExchangeCorpus.render_docs_html", CO+":StackExchangeCorpus.render_docs_table", CO+":TwittersphereCorpus.render_docs_html", CO+":PlainTextSqliteCorpus.render_docs_html")
p("Replaced documents are stored when replace_docs returns",
  "When replace_docs returns, the given texts are the committed documents, or the old documents if the texts could not be obtained.",
  "every history of iterations and calls", "all histories and crash points", CO+":PlainTextSqliteCorpus.replace_docs")
p("Words of tweets exclude links, hashtags and mentions",
  "Tokenising a tweet keeps of every whitespace-delimited word exactly the part before the first 'http://', 'https://', '#' or '@' in it; no token contains one of these or is blank, and searching the text field of an indexed tweet collection for a word with one of these finds nothing.",
  "every text", "all texts", UT+":social_media_tokens", UT+":social_media_cleaner", CO+":TwittersphereCorpus.index")
p("Tokenising loses no word",
  "The tokens of a text are nonblank parts of the lower-cased text which together contain all its characters in order, except whitespace and apostrophes.",
  "every text", "all texts", UT+":tokens", UT+":word_tokenizer")
p("StackExchange posts are found by exactly what they say",
  "After indexing a StackExchange corpus, looking up (field, value) gives exactly the posts whose latest version says it: its author, the words of its title and of the text of its body (Post), the words in its code blocks (CodeBlock), its tags, its commenters and the words of its comments, its site, its type and the day, month and year of its creation. Every text of the body is found under Post or CodeBlock, and words are found as they are shown.",
  "every history of dumps, HTML tree, tokeniser that ends words at spaces, batch size and schedule", "an end-to-end statement over all bodies and histories", CO+":StackExchangeCorpus.index", CO+":StackExchangeCorpus.docs", IX+":Index.index")
p("The buttons of a cluster's page do what they say",
  "Whatever is selected and typed in, a button on the page of a cluster changes exactly the part of the model it names (the selected features leave the cluster, or form a new one; the cluster is deleted, pinned, unpinned or split), is never rejected, and leads to a page that opens: this cluster, the new one or the next one.",
  "every consistent index, page, selection and typed text", "all indexes and uses of the forms", "hyperreal/templates/cluster.html", SV+":ClusterOverview", SV+":FeatureOverview", SV+":Cluster.index")
p("No dead links",
  "Every link on the page of a cluster or on the overview opens; a page offers its neighbours whenever there is another cluster, and they are the neighbours; a search from the page of a cluster stays within it.",
  "every consistent index and page", "all indexes", "hyperreal/templates/cluster.html", "hyperreal/templates/macros.html", SV+":Cluster.index", SV+":Index.search")
p("The buttons of the overview act on the checked clusters",
  "Deleting, merging or refining from the overview affects exactly the checked clusters, does nothing if none is checked, and leads to a page that opens.",
  "every consistent index, overview, selection and typed text", "all indexes and uses of the forms", "hyperreal/templates/index.html", "hyperreal/templates/macros.html", SV+":ClusterOverview")
p("Texts are shown as they are and cannot change a page",
  "Whatever characters the field names, values, passages and plain documents contain, the tags of the overview, of the page of a cluster and of the details are those they would have with any other texts, and the reader sees each text as it is; the forms offer every field and send its exact name.",
  "every text, index and page", "injection must be impossible for all strings", "hyperreal/templates/macros.html", "hyperreal/templates/index.html", "hyperreal/templates/cluster.html", "hyperreal/templates/details.html", SV+":templates", CO+":PlainTextSqliteCorpus.render_docs_html")
p("Posts and tweets are shown as they are",
  "Titles, comments, tags and the names of authors are shown as they are in a rendered StackExchange post or tweet and cannot change the page around it; a post whose author is gone says so.",
  "every post and tweet", "injection must be impossible for all strings", CO+":StackExchangeCorpus.TEMPLATE", CO+":StackExchangeCorpus.render_docs_html", CO+":TwittersphereCorpus.TEMPLATE", CO+":TwittersphereCorpus.render_docs_html")
p("Indexing again is harmless",
  "Indexing an unchanged corpus once more leaves every table of the index as it was, whatever the schedule; going back to an earlier corpus after any series of other indexings brings back its documents, feature ids, postings, positions and clustering, leaving of the other corpora only features without documents.",
  "every corpus, batch size, schedule and series of indexings", "all corpora and histories of indexings", IX+":Index.index", IX+":Index._update_changed_clusters")
p("From a text file to search results",
  "Creating a corpus from a text file and indexing it succeeds, and then searching the index for a word finds exactly the lines in which the tokeniser sees it, whatever was in the corpus file and index file before.",
  "every text file, tokeniser, batch size, schedule and earlier state of the files", "an end-to-end statement over all texts and schedules", CL+":make_two_file_indexer", CL+":plaintext_corpus", CO+":PlainTextSqliteCorpus", IX+":Index.index")
p("A command changes only its own files",
  "Every command changes only the database it works on and its output file; a command other than indexing keeps the documents, features and postings of every index, and an index command that fails keeps its index as it was.",
  "every command, file system, and pool behaviour", "all commands and states of the disk", CL+":model", CL+":export_clusters", CL+":serve", CL+":make_two_file_indexer", CL+":make_csv_exporter")
p("Files that are not an index are refused",
  "A command given a file that is not an index where it needs one fails and leaves the file as it is.",
  "every file, command and options", "all files", CL+":model", CL+":export_clusters", CL+":serve", IX+":Index.is_index_db", IX+":Index.__init__")
p("An index answers for the corpus it was last built from",
  "After any history of commands, an index holds exactly the documents that its corpus file held when it was last indexed successfully, whatever was done to the corpus, to the index (modelling, serving, exporting, failed indexing) and to other files since.",
  "every history of commands", "all histories", CL+":make_two_file_indexer", CL+":model", CL+":serve", IX+":Index.index")
p("Killing a command is harmless",
  "Whatever command is killed and whenever, the documents of every corpus are the old ones (or, if the corpus was being created, all the new ones), every index is usable and finds what it found before (or, if it was being indexed, what the finished command would have made it find), and the command can simply be run again.",
  "every command, instant, schedule and state of the files", "all crash points of all commands", CL+":model", CL+":make_two_file_indexer", CO+":PlainTextSqliteCorpus.replace_docs", IX+":Index.index", IX+":atomic")
p("An index is never a mixture",
  "After any history of commands, some of which failed or were killed at any instant, an index file holds a usable index whose documents, features and postings are those of one corpus at one moment: the one some index command for it found when it started (or what was there at the beginning).",
  "every history of commands and kills", "all histories and crash points", CL+":make_two_file_indexer", CL+":model", CL+":serve", IX+":Index.index")
p("Creation dates form a timeline",
  "For a StackExchange or Twitter corpus, intersect_queries_with_field on a field of creation days, months, years (or, for tweets, minutes and hours) lists exactly the periods in which documents were created, once each and in the order of time, with the number of documents created in the period, overall and in each query.",
  "every corpus whose dates have the same offset from UTC, every list of queries, schedule and batch size", "all dates and corpora: the order of the texts must agree with the order of time", CO+":StackExchangeCorpus.index", CO+":TwittersphereCorpus.index", UT+":round_datetime", IX+":Index.intersect_queries_with_field")
p("Values of every type",
  "A corpus may list numbers, bools, texts, dates and datetimes as values: searching the index for a field and a value of any of these types finds exactly the documents that list an equal value, with the right count; values that cannot be stored make indexing fail without effect.",
  "every corpus, mixture of types, searched value, schedule and batch size", "all mixtures of types", IX+":_index_docs", IX+":Index.index", IX+":Index.__getitem__", DBU+":connect_sqlite")
p("A target bounds the number of clusters",
  "refine_clusters with target_clusters=t leaves the selected clusters at most t in number, or as few as pinned clusters and clusters with pinned features allow; raising the number never fails as long as a feature can move.",
  "every model, selection, set of pins, parameters and random outcome", "all models and random outcomes; bounded by dissolving evenly over the iterations and splitting", IX+":Index.refine_clusters", IX+":Index._refine_feature_groups", IX+":Index._update_cluster_feature")
p("From a text file to a model",
  "plaintext-corpus create, index and model, one after another, all end normally, and the index then holds a model of exactly the words that occur in at least --min-docs lines, each in one of at most --clusters clusters, where the documents of a cluster are the lines with one of its words; searches still find exactly the lines.",
  "every text file, tokeniser, batch size, schedule, model options and random outcome", "an end-to-end statement over all texts, schedules and random outcomes", CL+":make_two_file_indexer", CL+":plaintext_corpus", CL+":model", IX+":Index.initialise_clusters", IX+":Index.refine_clusters")
p("From a text file to the exported tables",
  "plaintext-corpus create, index, model, export clusters and sample, one after another, all end normally; the table of clusters then lists exactly the words of the model, once each, with cluster and number of lines; the table of documents lists lines of the file, each at most once, with their text, a cluster of which they have a word, and a mark for exactly the clusters of which they have a word, at most --docs-per-cluster for each cluster, and all of them if it is 0.",
  "every text file, tokeniser, batch size, schedule, model options and random outcome", "an end-to-end statement over all texts, schedules and random outcomes", CL+":make_two_file_indexer", CL+":make_csv_exporter", CL+":export_clusters", CL+":model", IX+":Index.export_document_sample", IX+":Index.structured_doc_sample")
p("An iteration over the values of a field reads one state of the index",
  "iter_field_docs(field, min_docs) gives the values of the field with at least min_docs documents, in order, each with its number of documents and its documents, as they were in one committed state of the index, whatever is called or committed (another indexing too) between two items; it is the state of its first step if no other iteration is underway then.",
  "every history of iterations, item requests, other calls and commits of other processes", "all interleavings of a generator with other calls and processes", IX+":Index.iter_field_docs", IX+":atomic", IX+":Index.__init__")
p("Calls made while iterating see the present index",
  "While an iteration over the values of a field is underway, other calls on the same object read the index as last committed, and calls that change it succeed if they would without the iteration.",
  "every history of iterations, item requests, other calls and commits of other processes", "all interleavings of a generator with other calls and processes", IX+":Index.iter_field_docs", IX+":atomic", IX+":Index.__init__")
p("docs(query) gives the documents of one index and one corpus",
  "The documents given by docs(query) are documents of the query, each with its number, key and content, in the order of their keys and none twice, as they were in one committed state of the index and one of the corpus, whatever happens to both between two items; if it ends by itself it has given all of them, and it raises only for a document that is missing.",
  "every history of docs calls, item requests, other calls, and commits of other processes to the index and to the corpus", "all interleavings of a generator with other calls and processes", IX+":Index.docs", IX+":Index.convert_query_to_keys", CO+":PlainTextSqliteCorpus.docs")
p("From the dumps to the posts on a page",
  "After any sequence of add_site_data calls (some of which failed), render_docs_html(keys) gives the HTML of each post asked for, in that order, or raises IndexError if there is no such post; where names, sites, licenses and tags mean nothing in HTML and bodies are complete, a reader of a post sees its last title (of an answer: of its question), its body, its tags, the last name of its author, and the last version of every comment with the last name of its author, whatever characters titles and comments contain; other titles and comments give the same posts with the same HTML tags; and posts found by a tag show that tag.",
  "every history of dumps, every post, every order of iteration over sets", "all histories of dumps and all texts", CO+":StackExchangeCorpus.render_docs_html", CO+":StackExchangeCorpus.add_site_data", CO+":StackExchangeCorpus._get_rendered_doc_fields", CO+":StackExchangeCorpus.TEMPLATE")
p("From the tweets of a database to the page",
  "render_docs_html(ids) gives the HTML of each tweet asked for, in that order and each as it would be alone, or raises IndexError if one of them or its author is not in the database; where user names, image addresses and dates mean nothing in HTML, a reader of a tweet sees its text (which Twitter sends with &, < and > replaced, and quotes as they are), its author's last user name and full name, its date, the time it was retrieved and the four counts that are known, whatever the text is; other texts give the same HTML tags, and the page goes on normally after the tweet; tweets found by the name of their author show that name.",
  "every Twittersphere database, every list of ids, every text", "all databases and all texts", CO+":TwittersphereCorpus.render_docs_html", CO+":TwittersphereCorpus.docs", CO+":TwittersphereCorpus.TEMPLATE", CO+":TwittersphereCorpus.index")
p("Exported posts read back as the posts",
  "After any sequence of add_site_data calls and an index of the corpus, export_document_sample writes a CSV file which, as long as no cell is longer than the reader's field size limit, reads back as a header and one line for each sampled document, in the order of the sample: its key, the cluster it was sampled from, and the columns of the post in its last version: site, number, author and the name the author was last given, license, type, body, parent, its title or else that of its question, link, the tags each once separated by ', ', and in comments a JSON text which reads as the last version of each comment on it with name, text and license (null where unknown). The sample command writes such a file, with 1 in the column of each cluster the post belongs to.",
  "every history of dumps, every index of the corpus, every sample of its documents, every order of iteration over sets, all texts of characters below U+0100", "all histories of dumps and all texts", CO+":StackExchangeCorpus.render_docs_table", CO+":StackExchangeCorpus.table_fields", CO+":StackExchangeCorpus._get_rendered_doc_fields", IX+":Index.export_document_sample", CL+":make_csv_exporter")
p("Calls the corpus cannot support are refused without effect",
  "index, docs, extract_matching_feature_windows, render_passages_table, render_docs_html, render_docs_table and export_document_sample raise CorpusMissingError on an index without a corpus, and UnsupportedCorpusOperation if the corpus lacks a method that the call needs (giving documents; also rendering HTML; also rendering a table with named columns). The index is as before and free for the next call; in a with block, or in another call, what was done before stays as it was (export_document_sample directly in a with block that changed clusters brings their summaries up to date first). With a corpus that has the methods the call is never refused: the plain text and StackExchange corpora support all seven, the Twittersphere corpus all but the two tables.",
  "every corpus object (any set of attributes) or none, every state of the index between calls, in with blocks and in calls", "all corpus objects and connection states", IX+":requires_corpus", IX+":Index.export_document_sample", CO+":BaseCorpus", CO+":WebRenderableCorpus", CO+":TableRenderableCorpus")
p("Copies sent to workers or pickled see the committed data",
  "A pickled and unpickled copy of a corpus with a path works on the same path with the same tokeniser, can be copied again, and at any later time reads the committed documents of the file: not what the original has changed in an open transaction, and also if the original is closed. Copying a Twittersphere corpus checks the schema version again and raises ValueError if it is missing or below 15. A copy of an index of the current schema version, made at any moment, works on the same path with a copy of the corpus, is between transactions, sees the committed index, has the settings on disk and changes nothing on disk; it has neither the pool nor the random seed of the original. A StackExchange corpus on a private database (an empty path) has no usable copy.",
  "every corpus and index object in every transaction state, all contents of the files now and later, every tokeniser", "all states of the original and all later contents", CO+":SqliteBackedCorpus", CO+":PlainTextSqliteCorpus", CO+":TwittersphereCorpus", IX+":Index.__getstate__", IX+":Index.__setstate__")
