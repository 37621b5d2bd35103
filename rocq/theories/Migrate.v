(** Migrate.v: hyperreal/_index_schema.py (the schema script, the migration steps and
    [migrate]) and the opening of an index, hyperreal/index.py:137-227.

    Simplifications: a database file is its version numbers, its journal mode, the
    columns of its tables, the names of its other objects (indexes, triggers,
    views), the settings and the rows of the tables of an index ([Db.v]); the rows of
    other tables are not modelled (no statement below touches them, except that
    skipgram_count is dropped). Column types and constraints are not modelled. *)
From Verif Require Export Indexing.

Record file := File {
  user_version : Z; application_id : Z; wal : bool;
  tables : gmap string (list string); objects : gset string;
  settings : gmap string Z; rows : db }.
#[global] Instance file_eq_dec : EqDecision file.
Proof. solve_decision. Defined.

Definition set_version x (f : file) := File x (application_id f) (wal f) (tables f) (objects f) (settings f) (rows f).
Definition set_application x (f : file) := File (user_version f) x (wal f) (tables f) (objects f) (settings f) (rows f).
Definition set_wal (f : file) := File (user_version f) (application_id f) true (tables f) (objects f) (settings f) (rows f).
Definition set_tables x (f : file) := File (user_version f) (application_id f) (wal f) x (objects f) (settings f) (rows f).
Definition set_objects x (f : file) := File (user_version f) (application_id f) (wal f) (tables f) x (settings f) (rows f).
Definition set_settings x (f : file) := File (user_version f) (application_id f) (wal f) (tables f) (objects f) x (rows f).
Definition set_rows x (f : file) := File (user_version f) (application_id f) (wal f) (tables f) (objects f) (settings f) x.

(** A file that does not exist yet, or is empty. *)
Definition empty_file : file := File 0 0 false ∅ ∅ ∅ empty_db.

(** ** The statements of the schema script and of the migration steps *)
Inductive stmt :=
| CreateTable (t : string) (columns : list string)          (* create table if not exists *)
| CreateIndex (name t : string) (columns : list string)     (* create index if not exists *)
| CreateTrigger (name t : string)                           (* create trigger if not exists ... on t *)
| DropTable (t : string)                                    (* drop table if exists *)
| DropTrigger (name : string)                               (* drop trigger if exists *)
| AddColumn (t column : string)                             (* alter table t add column *)
| ReplaceSetting (key : string) (value : Z)
| MarkAllClusters                                           (* insert into changed_cluster select ... *)
| ClearFieldSummary                                         (* delete from field_summary *)
| FillFieldSummary                                          (* insert into field_summary select ... *)
| SetUserVersion (v : Z)
| SetApplicationId (v : Z).

(** The rows of [t] after adding [column]: every row has its default. *)
Definition default_column (t column : string) (d : db) : db :=
  if bool_decide (t = "cluster") then
    set_cluster ((fun r =>
      if bool_decide (column = "docs_count") then ClusterRow (c_feature_count r) 0 (c_weight r) (c_doc_ids r) (c_pinned r)
      else if bool_decide (column = "weight") then ClusterRow (c_feature_count r) (c_docs_count r) 0 (c_doc_ids r) (c_pinned r)
      else if bool_decide (column = "doc_ids") then ClusterRow (c_feature_count r) (c_docs_count r) (c_weight r) None (c_pinned r)
      else if bool_decide (column = "pinned") then ClusterRow (c_feature_count r) (c_docs_count r) (c_weight r) (c_doc_ids r) false
      else r) <$> cluster d) d
  else if bool_decide (t = "feature_cluster" /\ column = "pinned") then
    set_feature_cluster ((fun r => FcRow (fc_cluster r) (fc_docs_count r) false) <$> feature_cluster d) d
  else if bool_decide (t = "field_summary" /\ column = "position_count") then
    set_field_summary ((fun r => FsumRow (fs_distinct r) (fs_min r) (fs_max r) 0) <$> field_summary d) d
  else d.

Definition columns_of (f : file) (t : string) : list string := default [] (tables f !! t).

(** Simplification: [insert into field_summary select] on a table with other columns
    than these five, in this order, is an error here (SQLite checks their number). *)
Definition field_summary_columns : list string :=
  ["field"; "distinct_values"; "min_value"; "max_value"; "position_count"].

Definition exec (s : stmt) (f : file) : res file :=
  match s with
  | CreateTable t cols =>
      Ok (match tables f !! t with Some _ => f | None => set_tables (<[t := cols]> (tables f)) f end)
  | CreateIndex n t cols =>
      if bool_decide (n ∈ objects f) then Ok f
      else if bool_decide (is_Some (tables f !! t) /\ Forall (fun c => c ∈ columns_of f t) cols)
      then Ok (set_objects ({[n]} ∪ objects f) f) else Err OperationalError
  | CreateTrigger n t =>
      if bool_decide (n ∈ objects f) then Ok f
      else if bool_decide (is_Some (tables f !! t)) then Ok (set_objects ({[n]} ∪ objects f) f)
      else Err OperationalError
  | DropTable t => Ok (set_tables (delete t (tables f)) f)
  | DropTrigger n => Ok (set_objects (objects f ∖ {[n]}) f)
  | AddColumn t c =>
      match tables f !! t with
      | None => Err OperationalError
      | Some cols =>
          if bool_decide (c ∈ cols) then Err OperationalError
          else Ok (set_rows (default_column t c (rows f)) (set_tables (<[t := cols ++ [c]]> (tables f)) f))
      end
  | ReplaceSetting k v =>
      if bool_decide (is_Some (tables f !! "settings"))
      then Ok (set_settings (<[k := v]> (settings f)) f) else Err OperationalError
  | MarkAllClusters =>
      if bool_decide (is_Some (tables f !! "changed_cluster") /\ is_Some (tables f !! "cluster"))
      then rbind (mark_all_clusters (rows f)) (fun d => Ok (set_rows d f)) else Err OperationalError
  | ClearFieldSummary =>
      if bool_decide (is_Some (tables f !! "field_summary"))
      then Ok (set_rows (set_field_summary ∅ (rows f)) f) else Err OperationalError
  | FillFieldSummary =>
      if bool_decide (columns_of f "field_summary" = field_summary_columns)
      then if bool_decide (field_summary (rows f) = ∅) then Ok (set_rows (write_field_summary (rows f)) f)
           else Err IntegrityError
      else Err OperationalError
  | SetUserVersion v => Ok (set_version v f)
  | SetApplicationId v => Ok (set_application v f)
  end.

(** Statements in order, stopping at the first error. *)
Definition run_stmts (l : list stmt) (f : file) : res file := rfold (fun f s => exec s f) l f.

(** _index_schema.py:16-17 *)
Definition MAGIC_APPLICATION_ID : Z := 715973853.
Definition CURRENT_SCHEMA_VERSION : Z := 10.

(** _index_schema.py:19-170 [CURRENT_SCHEMA], statement by statement. *)
Definition CURRENT_SCHEMA : list stmt := [
  CreateTable "settings" ["key"; "value"];
  ReplaceSetting "position_window_size" 0;
  CreateTable "doc_key" ["doc_id"; "doc_key"];
  CreateTable "inverted_index" ["feature_id"; "field"; "value"; "docs_count"; "doc_ids"];
  CreateTable "position_doc_map" ["field"; "first_doc_id"; "last_doc_id"; "docs_count"; "doc_ids"; "doc_boundaries"];
  CreateTable "position_index" ["feature_id"; "first_doc_id"; "position_count"; "positions"];
  CreateTable "field_summary" field_summary_columns;
  DropTable "skipgram_count";
  CreateIndex "docs_counts" "inverted_index" ["docs_count"];
  CreateIndex "field_docs_counts" "inverted_index" ["field"; "docs_count"];
  CreateTable "cluster" ["cluster_id"; "feature_count"; "docs_count"; "weight"; "doc_ids"; "pinned"];
  CreateTable "feature_cluster" ["feature_id"; "cluster_id"; "docs_count"; "pinned"];
  CreateIndex "cluster_features" "feature_cluster" ["cluster_id"; "docs_count"];
  CreateTable "changed_cluster" ["cluster_id"];
  DropTrigger "mark_cluster_changed";
  DropTrigger "ensure_cluster";
  DropTrigger "delete_feature_cluster";
  DropTrigger "ensure_cluster_update";
  DropTrigger "update_cluster_feature_counts";
  CreateTrigger "insert_feature_checks" "feature_cluster";
  CreateTrigger "update_feature_checks" "feature_cluster";
  CreateTrigger "delete_feature_checks" "feature_cluster";
  SetUserVersion CURRENT_SCHEMA_VERSION;
  SetApplicationId MAGIC_APPLICATION_ID].

(** _index_schema.py:172-219 [migrations], in the order of [sorted(migrations.items())]:
    version, steps before the schema script, steps after it. *)
Definition migrations : list (Z * (list stmt * list stmt)) := [
  (4%Z, ([AddColumn "cluster" "docs_count"; AddColumn "cluster" "weight"; AddColumn "cluster" "doc_ids"],
         [MarkAllClusters]));
  (5%Z, ([], []));
  (6%Z, ([], []));
  (7%Z, ([AddColumn "cluster" "pinned"; AddColumn "feature_cluster" "pinned"], []));
  (8%Z, ([], []));
  (9%Z, ([AddColumn "field_summary" "position_count"], [ClearFieldSummary; FillFieldSummary]))].

(** The number of entries of sqlite_master is positive. *)
Definition has_objects (f : file) : bool := negb (bool_decide (tables f = ∅ /\ objects f = ∅)).

(** _index_schema.py:230-290 [migrate]: the file after the call and its outcome.
    The work is one transaction ([begin] ... [commit]); an exception leaves it open on
    a connection nobody keeps, so that it is rolled back. The message of the first
    MigrationError uses the name db_path, which does not exist (line 247). *)
Definition migrate (f : file) : file * res bool :=
  let transaction l r :=
    match run_stmts l f with Ok f' => (f', Ok r) | Err e => (f, Err e) end in
  if (user_version f =? 0)%Z then
    if has_objects f then (f, Err NameError)
    else transaction CURRENT_SCHEMA false
  else if (user_version f =? CURRENT_SCHEMA_VERSION)%Z then (f, Ok false)
  else if bool_decide (user_version f ∈ migrations.*1) then
    let steps := filter (fun m : Z * (list stmt * list stmt) => (user_version f <= m.1)%Z) migrations in
    transaction (concat (fst <$> steps.*2) ++ CURRENT_SCHEMA ++ concat (snd <$> steps.*2)) true
  else (f, Err MigrationError).

(** ** Opening *)

(** The refresh of the summaries at the end of a migration, index.py:168-171 with
    1770-1826. The jobs carry the index object itself; when there are any, pickling it
    ([__getstate__], line 235) needs the attribute [corpus], which is set only later
    (line 173): AttributeError from the first result, before any row is updated. The
    transaction opened here is never committed. *)
Definition refresh_on_open (d : db) : db * res unit :=
  match housekeeping_jobs (update_feature_counts d) with
  | [] =>
      match delete_clusters_where true (fun row => (c_feature_count row =? 0)%N) (update_feature_counts d) with
      | Ok d1 => (set_changed_cluster ∅ d1, Ok tt)
      | Err e => (d, Err e)
      end
  | _ => (d, Err AttributeError)
  end.

(** index.py:137-194 [__init__]: the file left on disk, and the settings read by the
    new index object (whose connection is then [open_index (rows f)]) or an exception. *)
Definition open_file (f : file) : file * res (gmap string Z) :=
  let f0 := set_wal f in
  match migrate f0 with
  | (f1, Err e) => (f1, Err e)
  | (f1, Ok migrated) =>
      let '(f2, r) :=
        if migrated then let '(d, r) := refresh_on_open (rows f1) in (set_rows d f1, r)
        else (f1, Ok tt) in
      match r with
      | Err e => (f2, Err e)
      | Ok _ =>
          if bool_decide (tables f2 !! "settings" = Some ["key"; "value"])
          then (f2, Ok (settings f2)) else (f2, Err OperationalError)
      end
  end.

(** What a path may lead to. *)
Inductive on_disk := NoFile | NotADatabase | Database (f : file).
(** index.py:216-227 [is_index_db]; [None]: sqlite3.DatabaseError, which is not an
    OperationalError. Simplification: the path contains none of the characters with a
    meaning in an SQLite URI. *)
Definition is_index_db (p : on_disk) : option bool :=
  match p with
  | NoFile => Some false
  | NotADatabase => None
  | Database f => Some (application_id f =? MAGIC_APPLICATION_ID)%Z
  end.
