(** SpecCsv.v: text files and tables as a user sees them. *)
From stdpp Require Import pretty.
From Verif Require Export Csv SpecCorpus.

(** A table with cells that Python's csv module can hold. *)
Definition fits (limit : nat) (rows : list (list string)) : Prop :=
  forall row cell, row ∈ rows -> cell ∈ row -> String.length cell <= limit.

(** One line: no line breaks in it; quotes; the file made of lines. *)
Definition one_line (s : string) : Prop := lf ∉ chars s /\ cr ∉ chars s.
Definition line_file (lines : list string) : list char := concat ((fun l => chars l ++ [lf]) <$> lines).

(** The same with the line ends of Windows, or of old Macs. *)
Definition crlf_file (lines : list string) : list char := concat ((fun l => chars l ++ [cr; lf]) <$> lines).
Definition cr_file (lines : list string) : list char := concat ((fun l => chars l ++ [cr]) <$> lines).

(** The newline after the last line may be missing. *)
Definition text_file (lines : list string) (file : list char) : Prop :=
  file = line_file lines \/ exists init final, lines = init ++ [final] /\ final ≠ "" /\ file = line_file init ++ chars final.

(** A text with its quotes doubled. *)
Inductive doubled : list char -> list char -> Prop :=
| doubled_nil : doubled [] []
| doubled_quote l l' : doubled l l' -> doubled (quote :: l) (quote :: quote :: l')
| doubled_other a l l' : a ≠ quote -> doubled l l' -> doubled (a :: l) (a :: l').

(** How a document can be written so that [plaintext-corpus create] stores it unchanged:
    as it is, if it is a single line without commas that does not begin with a quote, or
    between quotes, with the quotes in it doubled. *)
Inductive doc_line (d : string) : list char -> Prop :=
| doc_plain : one_line d -> comma ∉ chars d -> (forall l, chars d ≠ quote :: l) -> doc_line d (chars d ++ [lf])
| doc_quoted l : cr ∉ chars d -> doubled (chars d) l -> doc_line d (quote :: l ++ [quote; lf]).

(** JSON strings (RFC 8259), with the escapes of one character. *)
Inductive json_text : list char -> list char -> Prop :=
| json_end : json_text [] []
| json_plain a l l' : a ≠ quote -> a ≠ "\"%char -> 32 <= Ascii.nat_of_ascii a -> json_text l l' -> json_text (a :: l) (a :: l')
| json_quote l l' : json_text l l' -> json_text ("\"%char :: quote :: l) (quote :: l')
| json_backslash l l' : json_text l l' -> json_text ("\"%char :: "\"%char :: l) ("\"%char :: l')
| json_tab l l' : json_text l l' -> json_text ("\"%char :: "t"%char :: l) (Ascii.ascii_of_nat 9 :: l')
| json_newline l l' : json_text l l' -> json_text ("\"%char :: "n"%char :: l) (lf :: l').
(** The line is the JSON string of the document. *)
Definition json_line (line doc : string) : Prop := exists l, chars line = quote :: l ++ [quote] /\ json_text l (chars doc).

(** What the exported tables say, as texts: numbers in decimal. *)
Definition value_text (v : value) : string := match v with VText s => s | VInt z => pretty z end.
Definition clusters_table (rows : list (Z * N * string * value * N)) : list (list string) :=
  ["cluster_id"; "feature_id"; "field"; "value"; "docs_count"] ::
  ((fun '(cluster, feature, field, v, docs) => [pretty cluster; pretty feature; field; value_text v; pretty docs]) <$> rows).
(** The columns: the document's key, the cluster it was sampled for, the fields of the
    corpus, and one for each cluster, with "1" for its documents. *)
Definition sample_table (t : list column * list (list cell)) : list (list string) :=
  ((fun c => match c with ColKey => "doc_key" | ColSampled => "sampled_cluster" | ColField s => s | ColCluster c => ("cluster_" ++ pretty c)%string end) <$> t.1) ::
  ((fun row : list cell => (fun c => match c with CKey v => value_text v | CCluster c => pretty c | CText s => s | CMark => "1" | CBlank => "" end) <$> row) <$> t.2).
