(** Csv.v: the CSV files that are written (hyperreal/index.py:882-911, hyperreal/cli.py:466-474,
    hyperreal/server.py:477-487) and read (hyperreal/cli.py:131-135), character by character:
    Python's [csv] module (dialect excel, CPython's _csv.c) and the newline handling of [open].
    Simplification: a character is a byte (texts of the model are byte strings); none of the
    special characters occurs inside the UTF-8 encoding of another. *)
From stdpp Require Import pretty.
From Verif Require Export Corpus Web.
From Verif Require Import Reports.

Notation char := Ascii.ascii.
Definition comma : char := ","%char.
Definition quote : char := """"%char.
Definition lf : char := Ascii.ascii_of_nat 10.
Definition cr : char := Ascii.ascii_of_nat 13.

Notation text := String.string_of_list_ascii.

(** ** Writing: [csv.writer(..., dialect="excel", quoting=csv.QUOTE_ALL)] *)
(** A cell: quoted, with quotes doubled. *)
Definition write_cell (s : string) : list char :=
  quote :: concat ((fun a => if Ascii.eqb a quote then [quote; quote] else [a]) <$> String.list_ascii_of_string s) ++ [quote].
Fixpoint write_cells (row : list string) : list char :=
  match row with
  | [] => []
  | [s] => write_cell s
  | s :: rest => write_cell s ++ comma :: write_cells rest
  end.
Definition write_row (row : list string) : list char := write_cells row ++ [cr; lf].
Definition write_rows (rows : list (list string)) : list char := concat (write_row <$> rows).

(** [open(path, "w")], index.py:882, cli.py:466: every line feed is written as the line
    separator of the platform. *)
Definition written_as (linesep : list char) (l : list char) : list char :=
  concat ((fun a => if Ascii.eqb a lf then linesep else [a]) <$> l).

(** The strings of the cells: [str] of the values; a missing cell is empty. *)
Definition show_value (v : value) : string := match v with VText s => s | VInt z => pretty z end.
Definition show_cell (c : cell) : string :=
  match c with
  | CKey v => show_value v
  | CCluster c => pretty c
  | CText s => s
  | CMark => "1"
  | CBlank => ""
  end.
Definition show_column (c : column) : string :=
  match c with
  | ColKey => "doc_key"
  | ColSampled => "sampled_cluster"
  | ColField f => f
  | ColCluster c => ("cluster_" ++ pretty c)%string
  end.
(** index.py:882-911. *)
Definition sample_file (linesep : list char) (t : list column * list (list cell)) : list char :=
  written_as linesep (write_rows ((show_column <$> t.1) :: ((fun row : list cell => show_cell <$> row) <$> t.2))).
(** cli.py:466-474; server.py:477-487 with the line separator "\n" (the output is a StringIO). *)
Definition clusters_header : list string := ["cluster_id"; "feature_id"; "field"; "value"; "docs_count"].
Definition show_line (x : Z * N * string * value * N) : list string :=
  let '(c, f, field, v, n) := x in [pretty c; pretty f; field; show_value v; pretty n].
Definition clusters_file (linesep : list char) (rows : list (Z * N * string * value * N)) : list char :=
  written_as linesep (write_rows (clusters_header :: (show_line <$> rows))).
(** server.py:464-487: the rows are written into a [StringIO], which translates nothing. *)
Definition web_file (d : db) : list char := write_rows (clusters_header :: (show_line <$> web_export d)).

(** ** Reading *)
(** The lines of a file opened with [newline=""], with their ends: after "\n", "\r" or "\r\n". *)
Fixpoint raw_lines (cur : list char) (l : list char) : list (list char) :=
  match l with
  | [] => match cur with [] => [] | _ => [cur] end
  | a :: l' =>
      if Ascii.eqb a lf then (cur ++ [a]) :: raw_lines [] l'
      else if Ascii.eqb a cr then
        match l' with
        | b :: l'' => if Ascii.eqb b lf then (cur ++ [a; b]) :: raw_lines [] l'' else (cur ++ [a]) :: raw_lines [] l'
        | [] => [cur ++ [a]]
        end
      else raw_lines (cur ++ [a]) l'
  end.
(** [open(path, "r")], cli.py:131: "\r\n" and "\r" are read as "\n". *)
Fixpoint universal (l : list char) : list char :=
  match l with
  | [] => []
  | a :: l' =>
      if Ascii.eqb a cr then
        match l' with
        | b :: l'' => if Ascii.eqb b lf then lf :: universal l'' else lf :: universal l'
        | [] => [lf]
        end
      else a :: universal l'
  end.

(** [csv.reader], _csv.c:parse_process_char (Python 3.11): the state machine. [None]: the end
    of a line. [limit]: csv.field_size_limit(), 131072. *)
Inductive csv_state := StartRecord | StartField | InField | InQuoted | QuoteInQuoted | EatNewline.
Record csv_parser := Parser { p_state : csv_state; p_field : list char; p_fields : list string }.
Definition parser0 := Parser StartRecord [] [].
Definition save_field (st : csv_state) (p : csv_parser) : csv_parser :=
  Parser st [] (p_fields p ++ [text (p_field p)]).
Definition add_char (limit : nat) (st : csv_state) (a : char) (p : csv_parser) : res csv_parser :=
  if (limit <=? List.length (p_field p))%nat then Err CsvError else Ok (Parser st (p_field p ++ [a]) (p_fields p)).
Definition newline_char (a : char) : bool := Ascii.eqb a lf || Ascii.eqb a cr.
Definition start_field (limit : nat) (c : option char) (p : csv_parser) : res csv_parser :=
  match c with
  | None => Ok (save_field StartRecord p)
  | Some a =>
      if newline_char a then Ok (save_field EatNewline p)
      else if Ascii.eqb a quote then Ok (Parser InQuoted (p_field p) (p_fields p))
      else if Ascii.eqb a comma then Ok (save_field StartField p)
      else add_char limit InField a p
  end.
Definition process_char (limit : nat) (c : option char) (p : csv_parser) : res csv_parser :=
  match p_state p with
  | StartRecord =>
      match c with
      | None => Ok p
      | Some a => if newline_char a then Ok (Parser EatNewline (p_field p) (p_fields p)) else start_field limit c p
      end
  | StartField => start_field limit c p
  | InField =>
      match c with
      | None => Ok (save_field StartRecord p)
      | Some a =>
          if newline_char a then Ok (save_field EatNewline p)
          else if Ascii.eqb a comma then Ok (save_field StartField p)
          else add_char limit InField a p
      end
  | InQuoted =>
      match c with
      | None => Ok p
      | Some a => if Ascii.eqb a quote then Ok (Parser QuoteInQuoted (p_field p) (p_fields p)) else add_char limit InQuoted a p
      end
  | QuoteInQuoted =>
      match c with
      | None => Ok (save_field StartRecord p)
      | Some a =>
          if Ascii.eqb a quote then add_char limit InQuoted a p
          else if Ascii.eqb a comma then Ok (save_field StartField p)
          else if newline_char a then Ok (save_field EatNewline p)
          else add_char limit InField a p
      end
  | EatNewline =>
      match c with
      | None => Ok (Parser StartRecord (p_field p) (p_fields p))
      | Some a => if newline_char a then Ok p else Err CsvError
      end
  end.
Fixpoint process_chars (limit : nat) (l : list char) (p : csv_parser) : res csv_parser :=
  match l with
  | [] => process_char limit None p
  | a :: l => rbind (process_char limit (Some a) p) (process_chars limit l)
  end.
(** _csv.c:Reader_iternext: lines are read until a record is complete; at the end of the
    input an unfinished quoted cell is kept. *)
Fixpoint read_records (limit : nat) (p : csv_parser) (lines : list (list char)) : generator (list string) :=
  match lines with
  | [] => (match p_field p, p_state p with
           | [], InQuoted | _ :: _, _ => [p_fields (save_field StartRecord p)]
           | [], _ => []
           end, Ok tt)
  | l :: lines =>
      match process_chars limit l p with
      | Err e => ([], Err e)
      | Ok p' =>
          match p_state p' with
          | StartRecord => let '(rows, r) := read_records limit parser0 lines in (p_fields p' :: rows, r)
          | _ => read_records limit p' lines
          end
      end
  end.
Definition field_limit : N := 131072.
(** What a program gets that reads the file as the documentation of [csv] says. *)
Definition csv_read (limit : nat) (file : list char) : generator (list string) :=
  read_records limit parser0 (raw_lines [] file).

(** ** cli.py:112-135 [plaintext_corpus_create], from the characters of the file. *)
Definition file_docs (limit : nat) (file : list char) : items :=
  let '(rows, r) := read_records limit parser0 (raw_lines [] (universal file)) in
  csv_docs rows ++ match r with Ok _ => [] | Err e => [Err e] end.
Definition plaintext_create_file (limit : nat) (file : list char) (st : pt_db) : pt_db * res unit :=
  replace_docs (file_docs limit file) st.
