(** Support.v: operations that need a corpus: the decorator [requires_corpus]
    (hyperreal/index.py:52-77), the calls it is used for, and what the classes of
    hyperreal/corpus.py have. *)
From Verif Require Export Conn.

(** What can be done with documents. Names of the attributes a corpus object has. *)
Definition attributes := gset string.
(** corpus.py:29-86: the members of the protocol BaseCorpus. *)
Definition base_members : list string := ["CORPUS_TYPE"; "docs"; "keys"; "index"; "close"; "__getitem__"; "__iter__"].
(** corpus.py:89-94. *)
Definition web_members : list string := base_members ++ ["render_docs_html"].
(** corpus.py:97-111. *)
Definition table_members : list string := base_members ++ ["table_fields"; "render_docs_table"].

(** index.py:52-77. [None]: the index has no corpus ([self.corpus is None]). [isinstance] with
    a runtime-checkable protocol: the object has all its members. Simplification: a subclass
    of a protocol is one of it even without the members; and an attribute that is a method is
    not None. *)
Definition requires {A} (members : list string) (corpus : option attributes) (func : M A) : M A :=
  match corpus with
  | None => pfail CorpusMissingError
  | Some a => if forallb (fun x => bool_decide (x ∈ a)) members then func else pfail UnsupportedCorpusOperation
  end.

(** The decorated methods: index.py:300, 631, 638, 746, 791, 807, 868-869. *)
Inductive document_call :=
  | CallIndex | CallDocs | CallWindows | CallPassagesTable | CallRenderHtml | CallRenderTable | CallExport.
(** The method with its decorators around its body [func]. *)
Definition document_method {A} (m : document_call) (corpus : option attributes) (func : M A) : M A :=
  match m with
  | CallIndex => requires base_members corpus func
  | CallDocs => requires base_members corpus func
  | CallWindows => requires base_members corpus (atomic "extract_matching_feature_windows" false func)
  | CallPassagesTable => requires base_members corpus (atomic "render_passages_table" false func)
  | CallRenderHtml => requires web_members corpus func
  | CallRenderTable => requires table_members corpus func
  | CallExport => atomic "export_document_sample" false (requires table_members corpus func)
  end.

(** corpus.py:42-86, 114-147: what every corpus based on SQLite has. *)
Definition sqlite_attributes : list string :=
  ["docs"; "keys"; "index"; "close"; "__getitem__"; "__iter__"; "__init__"; "db"; "db_path"; "_db"; "__getstate__"; "__setstate__"].
(** corpus.py:150-232. *)
Definition plain_text_attributes : attributes :=
  list_to_set (sqlite_attributes ++ ["CORPUS_TYPE"; "table_fields"; "tokeniser"; "replace_docs"; "render_docs_html"; "render_docs_table"]).
(** corpus.py:235-766. *)
Definition stackexchange_attributes : attributes :=
  list_to_set (sqlite_attributes ++ ["CORPUS_TYPE"; "table_fields"; "add_site_data"; "TEMPLATE"; "_get_rendered_doc_fields"; "render_docs_html"; "render_docs_table"]).
(** corpus.py:769-1043. *)
Definition twittersphere_attributes : attributes :=
  list_to_set (sqlite_attributes ++ ["CORPUS_TYPE"; "_retrieve_user"; "TEMPLATE"; "render_docs_html"]).
