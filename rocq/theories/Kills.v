(** Kills.v: the states of the files while a command runs, which are those that a killed
    command may leave. The databases are changed by transactions; the -wal file is rolled
    back by the next connection, whoever opens it.
    Simplification: a killed process takes its worker processes with it. *)
From stdpp Require Import pretty.
From Verif Require Export Commands SpecConn.

(** index.py:137-194, db_utilities.py:19-40, _index_schema.py:230-290: while [Index(path)]
    runs: nothing has happened yet; an empty file; the journal mode is set; the schema is
    migrated; the index is open. *)
Inductive while_opening (path : string) (fs : filesystem) : filesystem -> Prop :=
| opening_not_yet : while_opening path fs fs
| opening_new : fs !! path = None -> while_opening path fs (<[path := PlainFile []]> fs)
| opening_some f docs f' : as_database (fs !! path) = Some (f, docs) ->
    f' ∈ [set_wal f; (migrate (set_wal f)).1; (open_file f).1] ->
    while_opening path fs (<[path := DbFile f' docs]> fs).

(** cli.py:26-51, 138-161, 447-497: the commands that check the file first. *)
Definition checks (c : command) : bool :=
  match c with SampleDocs _ _ _ _ _ _ | ExportClusters _ _ _ | ServeRequest _ _ => true | _ => false end.
Definition index_of (c : command) : option string :=
  match c with
  | Create _ _ _ => None
  | BuildIndex _ index _ _ _ _ | Model index _ _ _ _ _ | SampleDocs _ index _ _ _ _
  | ExportClusters index _ _ | ServeRequest index _ => Some index
  end.

(** A database with the table doc holding [t]. *)
Definition with_doc_table (f : file) (docs : gmap N value) (t : doc_table) : stored_file :=
  match t with
  | Some m => DbFile (set_tables (<["doc" := doc_columns]> (tables f)) f) m
  | None => DbFile f docs
  end.

Section Kills.
  Variables (limit : nat) (tok : string -> list string) (parse : string -> option Z) (linesep : list char).

  (** The call made by the index command, cli.py:87-95. *)
  Definition index_call (bsz : nat) (pos : bool) (sched : nat -> schedule) (t : doc_table) : M unit :=
    match t with
    | None => index_without_docs
    | Some m => let c := pt_corpus tok m in run_index bsz pos c (sched (length (batches bsz c)))
    end.

  (** The files at some instant of a command. A database is changed only by the commits of
      the call ([crash_states]); an output file may hold any part of the output. *)
  Inductive during : command -> filesystem -> filesystem -> Prop :=
  | during_start c fs : during c fs fs
  | during_open c index fs fs' : index_of c = Some index ->
      (checks c = true -> is_index_db (on_disk_of (fs !! index)) = Some true) ->
      while_opening index fs fs' -> during c fs fs'
  | during_create_file text corpus garbage fs : fs !! corpus = None ->
      during (Create text corpus garbage) fs (<[corpus := PlainFile []]> fs)
  | during_create text corpus garbage fs source f docs n :
      fs !! text = Some source -> as_database (fs !! corpus) = Some (f, docs) ->
      let xs := match source with PlainFile l => file_docs limit l | DbFile _ _ => garbage end in
      during (Create text corpus garbage) fs
        (<[corpus := with_doc_table (set_wal f) docs (replace_crash xs (PtDb (doc_table_of f docs) None) n)]> fs)
  | during_index corpus index bsz pos sched p fs fs1 f docs cf cdocs cn r d :
      open_path index fs = (fs1, inl (f, docs)) -> as_database (fs1 !! corpus) = Some (cf, cdocs) ->
      fs !! corpus <> None ->
      index_call bsz pos sched (doc_table_of cf cdocs) (open_index (rows f) p) = (cn, r) ->
      crash_states (open_index (rows f) p) cn d ->
      during (BuildIndex corpus index bsz pos sched p) fs (store index f docs d fs1)
  | during_model index o yes g1 g2 p fs fs1 f docs cn e d :
      open_path index fs = (fs1, inl (f, docs)) -> cli_model o yes g1 g2 (open_index (rows f) p) = (cn, e) ->
      crash_states (open_index (rows f) p) cn d ->
      during (Model index o yes g1 g2 p) fs (store index f docs d fs1)
  | during_request index v fs fs1 f docs ps cn r d :
      open_checked index fs = (fs1, inl (f, docs)) ->
      ensure_list (list_params parse (q_route (v_request v))) (q_params (v_request v)) = Ok ps ->
      handle parse (v_g1 v) (v_g2 v) (q_route (v_request v)) ps (open_index (rows f) (v_pool v)) = (cn, r) ->
      crash_states (open_index (rows f) (v_pool v)) cn d ->
      during (ServeRequest index v) fs (store index f docs d fs1)
  | during_output c index output fs fs1 f docs l : index_of c = Some index ->
      match c with SampleDocs _ _ o _ _ _ | ExportClusters _ o _ => o = output | _ => False end ->
      open_checked index fs = (fs1, inl (f, docs)) ->
      during c fs (<[output := PlainFile l]> fs1).

  (** A history: commands that ran to their end ([Some]) or were killed ([None]), each
      with the files it found. *)
  Inductive evolves : list (command * option cmd_outcome * filesystem) -> filesystem -> filesystem -> Prop :=
  | evolves_nil fs : evolves [] fs fs
  | evolves_run c o l fs fs1 fs2 :
      run_command limit tok parse linesep c fs = (fs1, o) -> evolves l fs1 fs2 -> evolves ((c, Some o, fs) :: l) fs fs2
  | evolves_kill c l fs fs1 fs2 :
      during c fs fs1 -> evolves l fs1 fs2 -> evolves ((c, None, fs) :: l) fs fs2.
End Kills.
