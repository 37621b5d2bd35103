(** SpecSupport.v: which corpus can be used for what. *)
From Verif Require Export Support SpecConn.

(** A corpus must give, name and index documents; for pages it must also render them as HTML,
    for tables as rows with named columns. *)
Definition gives_documents (a : attributes) : Prop :=
  "CORPUS_TYPE" ∈ a /\ "docs" ∈ a /\ "keys" ∈ a /\ "index" ∈ a /\ "close" ∈ a /\ "__getitem__" ∈ a /\ "__iter__" ∈ a.
Definition can_do (m : document_call) (a : attributes) : Prop :=
  match m with
  | CallIndex | CallDocs | CallWindows | CallPassagesTable => gives_documents a
  | CallRenderHtml => gives_documents a /\ "render_docs_html" ∈ a
  | CallRenderTable | CallExport => gives_documents a /\ "table_fields" ∈ a /\ "render_docs_table" ∈ a
  end.
(** The error a call should raise, if it cannot be done. *)
Inductive refusal (m : document_call) : option attributes -> exn -> Prop :=
| no_corpus : refusal m None CorpusMissingError
| not_supported a : ~ can_do m a -> refusal m (Some a) UnsupportedCorpusOperation.
