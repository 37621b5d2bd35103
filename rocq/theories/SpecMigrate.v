(** SpecMigrate.v: what an index database looks like, at the current and at older
    schema versions. *)
From Verif Require Export Migrate SpecIndexing.

(** The tables the library reads and writes, with their columns. *)
Definition index_tables : gmap string (list string) := list_to_map [
  ("settings", ["key"; "value"]);
  ("doc_key", ["doc_id"; "doc_key"]);
  ("inverted_index", ["feature_id"; "field"; "value"; "docs_count"; "doc_ids"]);
  ("position_doc_map", ["field"; "first_doc_id"; "last_doc_id"; "docs_count"; "doc_ids"; "doc_boundaries"]);
  ("position_index", ["feature_id"; "first_doc_id"; "position_count"; "positions"]);
  ("field_summary", ["field"; "distinct_values"; "min_value"; "max_value"; "position_count"]);
  ("cluster", ["cluster_id"; "feature_count"; "docs_count"; "weight"; "doc_ids"; "pinned"]);
  ("feature_cluster", ["feature_id"; "cluster_id"; "docs_count"; "pinned"]);
  ("changed_cluster", ["cluster_id"])].
Definition index_triggers : gset string :=
  {["insert_feature_checks"; "update_feature_checks"; "delete_feature_checks"]}.
Definition retired_triggers : gset string :=
  {["mark_cluster_changed"; "ensure_cluster"; "delete_feature_cluster"; "ensure_cluster_update"; "update_cluster_feature_counts"]}.

(** A database at the current version. *)
Definition is_current (f : file) : Prop :=
  user_version f = 10%Z /\ application_id f = 715973853%Z /\
  (forall t cols, index_tables !! t = Some cols -> tables f !! t = Some cols) /\
  index_triggers ⊆ objects f /\ retired_triggers ## objects f.

(** The last version without the column. *)
Definition added_after (t c : string) : option Z :=
  match t, c with
  | "cluster", "docs_count" | "cluster", "weight" | "cluster", "doc_ids" => Some 4%Z
  | "cluster", "pinned" | "feature_cluster", "pinned" => Some 7%Z
  | "field_summary", "position_count" => Some 9%Z
  | _, _ => None
  end.
Definition had_column (v : Z) (t c : string) : Prop :=
  match added_after t c with Some last => (last < v)%Z | None => True end.
#[global] Instance had_column_dec v t c : Decision (had_column v t c).
Proof. unfold had_column. destruct (added_after t c); apply _. Defined.

(** A database written by the library at version [v]: of every table that exists, the
    columns of the time; the tables changed since do exist; a version 4 database has
    no cluster waiting to be summarised. *)
Record written_at (v : Z) (f : file) : Prop := WrittenAt {
  wa_version : user_version f = v;
  wa_columns : forall t cols old, index_tables !! t = Some cols -> tables f !! t = Some old ->
    old = filter (had_column v t) cols;
  wa_exist : forall t c last, added_after t c = Some last -> (v <= last)%Z -> is_Some (tables f !! t);
  wa_marks : v = 4%Z -> dom (cluster (rows f)) ## changed_cluster (rows f) }.

(** The summary of every field is right about the values the index knows. *)
Definition field_summary_correct (d : db) : Prop :=
  forall F, match field_summary d !! F with
    | None => forall v, ~ known d F v
    | Some row => exists vals : gset value, vals ≠ ∅ /\ (forall v, v ∈ vals <-> known d F v) /\
        fs_distinct row = N.of_nat (size vals) /\
        fs_min row ∈ vals /\ (forall v, v ∈ vals -> value_le (fs_min row) v) /\
        fs_max row ∈ vals /\ (forall v, v ∈ vals -> value_le v (fs_max row)) /\
        fs_position_count row = N.of_nat (stored_positions d F)
    end.

(** The documents, features and positions are the same. *)
Definition same_documents (d d' : db) : Prop :=
  doc_key d' = doc_key d /\ inverted_index d' = inverted_index d /\
  position_doc_map d' = position_doc_map d /\ position_index d' = position_index d.
