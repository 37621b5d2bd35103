(** Commands.v: the command line (hyperreal/cli.py) on a file system, for plain text
    corpora and indexes: [plaintext-corpus create], [index], [sample] and [serve],
    [model], [export clusters], [serve].
    Simplifications: a path names a file or nothing (directories, links and permissions
    are not modelled, [dir_okay=False]); commands run one after another and are not
    interrupted; a file that is not empty is an SQLite database or it is not; the files
    beside a database (-wal, -shm) are part of it. *)
From stdpp Require Import pretty.
From Verif Require Export Csv Reports.

(** What a path leads to. A database: its tables as in Migrate.v, the rows of an index,
    and [docs], the rows of the table doc, which mean something only if there is such a
    table. *)
Inductive stored_file :=
| PlainFile (text : list char)
| DbFile (f : file) (docs : gmap N value).
Notation filesystem := (gmap string stored_file).

(** How a command ends: normally; refused by click because a file is missing; stopped
    by the user; sqlite3.DatabaseError (the file is not a database); or with another
    exception. *)
Inductive cmd_outcome := Done | NoSuchFile | StoppedByUser | NotADb | Failed (e : exn).
#[global] Instance cmd_outcome_eq_dec : EqDecision cmd_outcome.
Proof. solve_decision. Defined.

(** [sqlite3.connect]: no file and an empty file are an empty database. *)
Definition as_database (c : option stored_file) : option (file * gmap N value) :=
  match c with
  | None | Some (PlainFile []) => Some (empty_file, ∅)
  | Some (PlainFile _) => None
  | Some (DbFile f docs) => Some (f, docs)
  end.

(** corpus.py:172-178: the table doc of a plain text corpus. *)
Definition doc_columns : list string := ["doc_id"; "text"].
Definition doc_table_of (f : file) (docs : gmap N value) : doc_table :=
  if bool_decide (tables f !! "doc" = Some doc_columns) then Some docs else None.

(** index.py:137-194: the index object needs the tables of the schema for anything it
    does later; [open_file] only looks at the version and the settings. *)
Definition schema_tables : list (string * list string) :=
  omap (fun s => match s with CreateTable t cols => Some (t, cols) | _ => None end) CURRENT_SCHEMA.
Definition has_tables (f : file) : bool :=
  bool_decide (Forall (fun tc : string * list string => tables f !! tc.1 = Some tc.2) schema_tables).

(** index.py:137-194 [Index(path)]: the file system left behind, and the open file or
    the end of the command. *)
Definition open_path (path : string) (fs : filesystem) : filesystem * (file * gmap N value + cmd_outcome) :=
  match as_database (fs !! path) with
  | None => (fs, inr NotADb)
  | Some (f, docs) =>
      let '(f1, r) := open_file f in
      let fs1 := <[path := DbFile f1 docs]> fs in
      match r with
      | Err e => (fs1, inr (Failed e))
      | Ok _ => if has_tables f1 then (fs1, inl (f1, docs)) else (fs1, inr (Failed OperationalError))
      end
  end.

(** cli.py:41-42, 146-147, 430-431, 461-462, 489-490: [is_index_db] first; the file must exist. *)
Definition on_disk_of (c : option stored_file) : on_disk :=
  match c with
  | None => NoFile
  | Some (PlainFile []) => Database empty_file
  | Some (PlainFile _) => NotADatabase
  | Some (DbFile f _) => Database f
  end.
Definition open_checked (path : string) (fs : filesystem) : filesystem * (file * gmap N value + cmd_outcome) :=
  match is_index_db (on_disk_of (fs !! path)) with
  | None => (fs, inr NotADb)
  | Some false => (fs, inr (Failed ValueError))
  | Some true => open_path path fs
  end.

(** The rows of the index at [path] after a call. *)
Definition store (path : string) (f : file) (docs : gmap N value) (d : db) (fs : filesystem) : filesystem :=
  <[path := DbFile (set_rows d f) docs]> fs.

(** corpus.py:211-212 with index.py:338-372, 536-541: [keys()] raises (no table doc): the
    transaction is rolled back. *)
Definition index_without_docs : M unit := fun cn =>
  let '(cn0, _) := sql_foreign_keys false cn in
  match sql_begin cn0 with
  | (cn1, Err _) => (cn1, Err IndexingError)
  | (cn1, Ok _) =>
      let '(cn2, _) := sql_rollback cn1 in
      let '(cn3, _) := sql_foreign_keys true cn2 in (cn3, Err OperationalError)
  end.

(** corpus.py:223-232 [render_docs_table] of one document. *)
Definition text_row (tbl : doc_table) : renderer := fun k =>
  match k with
  | VInt z => rmap (fun x : N * value => {["text" := show_value x.2]})
                (if (z <? 0)%Z then Err IndexError else pt_get tbl (Z.to_N z))
  | VText _ => Err IndexError
  end.

(** The commands. [garbage]: what the csv reader makes of a database given as the text
    file; [sched]: the behaviour of the worker pool, for every number of batches;
    [p]: that of the pool used for housekeeping; [rest]: what a failing command leaves in
    its output file, if it has opened it. *)
Inductive command :=
| Create (text corpus : string) (garbage : items)
| BuildIndex (corpus index : string) (batch_size : nat) (positions : bool)
    (sched : nat -> schedule) (p : nat -> option nat)
| Model (index : string) (o : model_options) (yes : bool) (g1 g2 : rng) (p : nat -> option nat)
| SampleDocs (corpus index output : string) (per_cluster : Z) (g : rng) (rest : option (list char))
| ExportClusters (index output : string) (top_k : nat)
| ServeRequest (index : string) (v : visit).

Definition end_of (r : res unit) : cmd_outcome := match r with Ok _ => Done | Err e => Failed e end.

Section Commands.
  (** Python's csv field size limit, the tokeniser of the corpus, [int()] of a text, and
      the line separator of the platform. *)
  Variables (limit : nat) (tok : string -> list string) (parse : string -> option Z) (linesep : list char).

  (** cli.py:112-135 with corpus.py:165-190; the journal mode is set first. *)
  Definition run_create (text corpus : string) (garbage : items) (fs : filesystem) : filesystem * cmd_outcome :=
    match fs !! text with
    | None => (fs, NoSuchFile)
    | Some source =>
        match as_database (fs !! corpus) with
        | None => (fs, NotADb)
        | Some (f, docs) =>
            let xs := match source with PlainFile l => file_docs limit l | DbFile _ _ => garbage end in
            let '(st, r) := replace_docs xs (PtDb (doc_table_of f docs) None) in
            let f1 := set_wal f in
            let new := match pt_disk st with
                       | Some m => DbFile (set_tables (<["doc" := doc_columns]> (tables f1)) f1) m
                       | None => DbFile f1 docs
                       end in
            (<[corpus := new]> fs, end_of r)
        end
    end.

  (** cli.py:56-95. *)
  Definition run_index_command (corpus index : string) (bsz : nat) (pos : bool) (sched : nat -> schedule)
      (p : nat -> option nat) (fs : filesystem) : filesystem * cmd_outcome :=
    match fs !! corpus with
    | None => (fs, NoSuchFile)
    | Some _ =>
        match open_path index fs with
        | (fs1, inr o) => (fs1, o)
        | (fs1, inl (f, docs)) =>
            match as_database (fs1 !! corpus) with
            | None => (fs1, NotADb)
            | Some (cf, cdocs) =>
                let call := match doc_table_of cf cdocs with
                            | None => index_without_docs
                            | Some m => let c := pt_corpus tok m in
                                        run_index bsz pos c (sched (length (batches bsz c)))
                            end in
                let '(cn, r) := call (open_index (rows f) p) in
                (store index f docs (disk cn) fs1, end_of r)
            end
        end
    end.

  (** cli.py:278-408. *)
  Definition run_model (index : string) (o : model_options) (yes : bool) (g1 g2 : rng)
      (p : nat -> option nat) (fs : filesystem) : filesystem * cmd_outcome :=
    match fs !! index with
    | None => (fs, NoSuchFile)
    | Some _ =>
        match open_path index fs with
        | (fs1, inr out) => (fs1, out)
        | (fs1, inl (f, docs)) =>
            let '(cn, e) := cli_model o yes g1 g2 (open_index (rows f) p) in
            (store index f docs (disk cn) fs1,
             match e with Finished => Done | Aborted => StoppedByUser | Raised e => Failed e end)
        end
    end.

  (** cli.py:26-51 with index.py:868-911. *)
  Definition run_sample (corpus index output : string) (per : Z) (g : rng) (rest : option (list char))
      (fs : filesystem) : filesystem * cmd_outcome :=
    match fs !! corpus, fs !! index with
    | Some _, Some _ =>
        match open_checked index fs with
        | (fs1, inr o) => (fs1, o)
        | (fs1, inl (f, docs)) =>
            let failed o := (match rest with None => fs1 | Some l => <[output := PlainFile l]> fs1 end, o) in
            match as_database (fs1 !! corpus) with
            | None => failed NotADb
            | Some (cf, cdocs) =>
                match rbind (structured_doc_sample (rows f) per None g) (fun '(samples, labels) =>
                      export_document_sample (rows f) (text_row (doc_table_of cf cdocs)) ["text"] samples labels) with
                | Err e => failed (Failed e)
                | Ok table => (<[output := PlainFile (sample_file linesep table)]> fs1, Done)
                end
            end
        end
    | _, _ => (fs, NoSuchFile)
    end.

  (** cli.py:447-474. *)
  Definition run_export (index output : string) (top_k : nat) (fs : filesystem) : filesystem * cmd_outcome :=
    match fs !! index with
    | None => (fs, NoSuchFile)
    | Some _ =>
        match open_checked index fs with
        | (fs1, inr o) => (fs1, o)
        | (fs1, inl (f, docs)) =>
            (<[output := PlainFile (clusters_file linesep (cli_export (rows f) top_k))]> fs1, Done)
        end
    end.

  (** cli.py:138-161, 477-497 with server.py:593-604: one request to a served index; every
      request opens the index anew. Simplification: the check of the file is made for every
      request; the answer itself is in Web.v. *)
  Definition run_request (index : string) (v : visit) (fs : filesystem) : filesystem * cmd_outcome :=
    match fs !! index with
    | None => (fs, NoSuchFile)
    | Some _ =>
        match open_checked index fs with
        | (fs1, inr o) => (fs1, o)
        | (fs1, inl (f, docs)) =>
            let '(d, a) := Web.serve parse (v_pool v) (v_g1 v) (v_g2 v) (v_request v) (rows f) in
            (store index f docs d fs1, match a with Crashed e => Failed e | _ => Done end)
        end
    end.

  Definition run_command (c : command) (fs : filesystem) : filesystem * cmd_outcome :=
    match c with
    | Create text corpus garbage => run_create text corpus garbage fs
    | BuildIndex corpus index bsz pos sched p => run_index_command corpus index bsz pos sched p fs
    | Model index o yes g1 g2 p => run_model index o yes g1 g2 p fs
    | SampleDocs corpus index output per g rest => run_sample corpus index output per g rest fs
    | ExportClusters index output k => run_export index output k fs
    | ServeRequest index v => run_request index v fs
    end.

  (** A series of commands, with how each ended. *)
  Fixpoint run_commands (l : list command) (fs : filesystem) : filesystem * list cmd_outcome :=
    match l with
    | [] => (fs, [])
    | c :: l' =>
        let '(fs1, o) := run_command c fs in
        let '(fs2, os) := run_commands l' fs1 in (fs2, o :: os)
    end.
End Commands.
