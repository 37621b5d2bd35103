(** Db.v: the index database: the tables of hyperreal/_index_schema.py and the
    meaning of every SQL statement that hyperreal/index.py runs on the
    clustering tables, with triggers and foreign keys.

    Simplifications:
    - a table is a finite map from primary key to row; the [settings] table, the
      secondary SQL indexes and the page level storage are not modelled;
    - SQL values and document keys are integers or texts ([value]), compared as
      SQLite does (integers before texts, texts bytewise);
    - cluster ids are integers ([Z]), feature ids and document ids naturals. *)
From Verif Require Export Base.

(** ** SQL values *)
Inductive value := VInt (z : Z) | VText (s : string).
#[global] Instance value_eq_dec : EqDecision value.
Proof. solve_decision. Defined.
#[global] Instance value_countable : Countable value.
Proof.
  refine (inj_countable'
    (fun v => match v with VInt z => inl z | VText s => inr s end)
    (fun e => match e with inl z => VInt z | inr s => VText s end) _).
  by intros [].
Defined.

(** Bytewise order on texts. *)
Fixpoint string_le (a b : string) : bool :=
  match a, b with
  | EmptyString, _ => true
  | _, EmptyString => false
  | String x a', String y b' =>
      let nx := Ascii.N_of_ascii x in
      let ny := Ascii.N_of_ascii y in
      if (nx <? ny)%N then true
      else if (ny <? nx)%N then false
      else string_le a' b'
  end.

(** SQLite's order across types: INTEGER values sort before TEXT values. *)
Definition value_leb (a b : value) : bool :=
  match a, b with
  | VInt x, VInt y => (x <=? y)%Z
  | VInt _, VText _ => true
  | VText _, VInt _ => false
  | VText x, VText y => string_le x y
  end.
Definition value_le (a b : value) : Prop := value_leb a b = true.
#[global] Instance value_le_dec : RelDecision value_le.
Proof. intros a b. unfold value_le. apply _. Defined.

(** ** Tables (_index_schema.py:19-119) *)

(** _index_schema.py:36-43 table [inverted_index] (key: feature_id). *)
Record feature_row := FeatureRow {
  f_field : string; f_value : value; f_docs_count : N; f_doc_ids : bitmap }.

(** _index_schema.py:46-54 table [position_doc_map] (key: field, first_doc_id). *)
Record posmap_row := PosMapRow {
  pm_last_doc_id : N; pm_docs_count : N; pm_doc_ids : bitmap; pm_boundaries : bitmap }.

(** _index_schema.py:57-63 table [position_index] (key: feature_id, first_doc_id). *)
Record pos_row := PosRow { p_count : N; p_positions : bitmap }.

(** _index_schema.py:66-72 table [field_summary] (key: field). *)
Record fsum_row := FsumRow {
  fs_distinct : N; fs_min : value; fs_max : value; fs_position_count : N }.

(** _index_schema.py:85-95 table [cluster] (key: cluster_id). *)
Record cluster_row := ClusterRow {
  c_feature_count : N; c_docs_count : N; c_weight : N;
  c_doc_ids : option bitmap; c_pinned : bool }.

(** _index_schema.py:98-104 table [feature_cluster] (key: feature_id). *)
Record fc_row := FcRow { fc_cluster : Z; fc_docs_count : N; fc_pinned : bool }.

#[global] Instance feature_row_eq_dec : EqDecision feature_row.
Proof. solve_decision. Defined.
#[global] Instance posmap_row_eq_dec : EqDecision posmap_row.
Proof. solve_decision. Defined.
#[global] Instance pos_row_eq_dec : EqDecision pos_row.
Proof. solve_decision. Defined.
#[global] Instance fsum_row_eq_dec : EqDecision fsum_row.
Proof. solve_decision. Defined.
#[global] Instance cluster_row_eq_dec : EqDecision cluster_row.
Proof. solve_decision. Defined.
#[global] Instance fc_row_eq_dec : EqDecision fc_row.
Proof. solve_decision. Defined.

Record db := Db {
  doc_key : gmap N value;
  inverted_index : gmap N feature_row;
  position_doc_map : gmap (string * N) posmap_row;
  position_index : gmap (N * N) pos_row;
  field_summary : gmap string fsum_row;
  cluster : gmap Z cluster_row;
  feature_cluster : gmap N fc_row;
  changed_cluster : gset Z }.

#[global] Instance db_eq_dec : EqDecision db.
Proof. solve_decision. Defined.

(** A newly created index (all tables empty). *)
Definition empty_db : db := Db ∅ ∅ ∅ ∅ ∅ ∅ ∅ ∅.

Definition set_doc_key x (d : db) := Db x (inverted_index d) (position_doc_map d)
  (position_index d) (field_summary d) (cluster d) (feature_cluster d) (changed_cluster d).
Definition set_inverted_index x (d : db) := Db (doc_key d) x (position_doc_map d)
  (position_index d) (field_summary d) (cluster d) (feature_cluster d) (changed_cluster d).
Definition set_position_doc_map x (d : db) := Db (doc_key d) (inverted_index d) x
  (position_index d) (field_summary d) (cluster d) (feature_cluster d) (changed_cluster d).
Definition set_position_index x (d : db) := Db (doc_key d) (inverted_index d)
  (position_doc_map d) x (field_summary d) (cluster d) (feature_cluster d) (changed_cluster d).
Definition set_field_summary x (d : db) := Db (doc_key d) (inverted_index d)
  (position_doc_map d) (position_index d) x (cluster d) (feature_cluster d) (changed_cluster d).
Definition set_cluster x (d : db) := Db (doc_key d) (inverted_index d) (position_doc_map d)
  (position_index d) (field_summary d) x (feature_cluster d) (changed_cluster d).
Definition set_feature_cluster x (d : db) := Db (doc_key d) (inverted_index d)
  (position_doc_map d) (position_index d) (field_summary d) (cluster d) x (changed_cluster d).
Definition set_changed_cluster x (d : db) := Db (doc_key d) (inverted_index d)
  (position_doc_map d) (position_index d) (field_summary d) (cluster d) (feature_cluster d) x.

(** ** Statements on the clustering tables.
    A statement is a function [db -> res db]: an error leaves the database as it
    was (SQLite undoes the failing statement only). *)

(** Column defaults of table [cluster], _index_schema.py:85-95. *)
Definition default_cluster_row : cluster_row := ClusterRow 0 0 0 None false.

(** [insert or ignore into cluster(cluster_id) values (c)], _index_schema.py:138,149. *)
Definition ensure_cluster (c : Z) (d : db) : db :=
  match cluster d !! c with
  | Some _ => d
  | None => set_cluster (<[c := default_cluster_row]> (cluster d)) d
  end.

(** [insert or ignore into changed_cluster(cluster_id) values (c)],
    _index_schema.py:140,153,162. OR IGNORE does not cover foreign keys: the row
    must exist in [cluster] when foreign keys are enforced. *)
Definition mark_changed (c : Z) (d : db) : res db :=
  match cluster d !! c with
  | Some _ => Ok (set_changed_cluster ({[c]} ∪ changed_cluster d) d)
  | None => Err IntegrityError
  end.

(** [insert [or ignore] into feature_cluster(feature_id, cluster_id, docs_count)]
    with the trigger [insert_feature_checks] (_index_schema.py:135-141), which
    fires before the conflict on the primary key is detected; [or_ignore] skips
    the row on that conflict, otherwise it is an IntegrityError. The foreign
    key to inverted_index is checked in both cases. *)
Definition insert_feature_cluster (or_ignore : bool) (f : N) (c : Z) (docs_count : N)
    (d : db) : res db :=
  rbind (mark_changed c (ensure_cluster c d)) (fun d1 =>
  match feature_cluster d1 !! f with
  | Some _ => if or_ignore then Ok d1 else Err IntegrityError
  | None =>
      match inverted_index d1 !! f with
      | None => Err IntegrityError
      | Some _ =>
          Ok (set_feature_cluster (<[f := FcRow c docs_count false]> (feature_cluster d1)) d1)
      end
  end).

(** One row of [update feature_cluster set cluster_id = c ...], with the trigger
    [update_feature_checks] (_index_schema.py:144-155). *)
Definition update_row_cluster (c : Z) (d : db) (f : N) : res db :=
  match feature_cluster d !! f with
  | None => Ok d
  | Some row =>
      rbind
        (if (fc_cluster row =? c)%Z then Ok d
         else rbind (mark_changed c (ensure_cluster c d)) (mark_changed (fc_cluster row)))
        (fun d1 => Ok (set_feature_cluster
           (<[f := FcRow c (fc_docs_count row) (fc_pinned row)]> (feature_cluster d1)) d1))
  end.

(** The feature ids of the rows of feature_cluster in cluster [c], in rowid order. *)
Definition features_of_cluster (c : Z) (d : db) : list N :=
  bm_list (dom (filter (fun kv => fc_cluster kv.2 = c) (feature_cluster d))).

(** [update feature_cluster set cluster_id = ? where cluster_id = ?], index.py:1003-1006. *)
Definition update_cluster_of_cluster (new old : Z) (d : db) : res db :=
  rfold (update_row_cluster new) (features_of_cluster old d) d.

(** [update feature_cluster set cluster_id = ? where feature_id = ?], index.py:1061-1064, 1759-1768. *)
Definition update_cluster_of_feature (new : Z) (f : N) (d : db) : res db :=
  update_row_cluster new d f.

(** One row of a [delete from feature_cluster], with the trigger
    [delete_feature_checks] (_index_schema.py:158-164). *)
Definition delete_fc_row (d : db) (f : N) : res db :=
  match feature_cluster d !! f with
  | None => Ok d
  | Some row =>
      rbind (mark_changed (fc_cluster row) d) (fun d1 =>
      Ok (set_feature_cluster (delete f (feature_cluster d1)) d1))
  end.

(** [delete from feature_cluster], index.py:935. *)
Definition delete_all_fc (d : db) : res db :=
  rfold delete_fc_row (bm_list (dom (feature_cluster d))) d.

(** [delete from feature_cluster where cluster_id = ?], index.py:989-992. *)
Definition delete_fc_of_cluster (c : Z) (d : db) : res db :=
  rfold delete_fc_row (features_of_cluster c d) d.

(** [delete from feature_cluster where feature_id=?], index.py:1015-1018. *)
Definition delete_fc_of_feature (f : N) (d : db) : res db := delete_fc_row d f.

(** [delete from cluster where P]. With foreign keys on, the rows of
    changed_cluster go with their cluster; a row of feature_cluster still in a
    deleted cluster makes the statement fail (the cascaded delete fires
    [delete_feature_checks], whose insert then violates the foreign key).
    With foreign keys off only the table [cluster] is touched. *)
Definition delete_clusters_where (fk : bool) (P : cluster_row -> bool) (d : db) : res db :=
  let gone := dom (filter (fun kv => P kv.2 = true) (cluster d)) in
  let d1 := set_cluster (filter (fun kv => P kv.2 = false) (cluster d)) d in
  if fk then
    if bool_decide (map_Forall (fun _ row => fc_cluster row ∉ gone) (feature_cluster d))
    then Ok (set_changed_cluster (changed_cluster d ∖ gone) d1)
    else Err IntegrityError
  else Ok d1.

(** [update feature_cluster set pinned = ? where feature_id = ?], index.py:1081-1084. *)
Definition update_feature_pinned (p : bool) (f : N) (d : db) : res db :=
  match feature_cluster d !! f with
  | None => Ok d
  | Some row => Ok (set_feature_cluster
       (<[f := FcRow (fc_cluster row) (fc_docs_count row) p]> (feature_cluster d)) d)
  end.

(** [update cluster set pinned = ? where cluster_id = ?], index.py:1095-1098. *)
Definition update_cluster_pinned (p : bool) (c : Z) (d : db) : res db :=
  match cluster d !! c with
  | None => Ok d
  | Some row => Ok (set_cluster
       (<[c := ClusterRow (c_feature_count row) (c_docs_count row) (c_weight row)
                          (c_doc_ids row) p]> (cluster d)) d)
  end.

(** ** Bodies of Python methods as transformations of the connection's database.
    An error keeps the statements that already succeeded (the enclosing [atomic]
    rolls them back). *)
Definition dbm (A : Type) : Type := db -> db * res A.
Definition dret {A} (a : A) : dbm A := fun d => (d, Ok a).
Definition dfail {A} (e : exn) : dbm A := fun d => (d, Err e).
Definition dbind {A B} (m : dbm A) (k : A -> dbm B) : dbm B := fun d =>
  match m d with
  | (d1, Ok a) => k a d1
  | (d1, Err e) => (d1, Err e)
  end.
(** Runs one statement. *)
Definition dstmt (s : db -> res db) : dbm unit := fun d =>
  match s d with Ok d1 => (d1, Ok tt) | Err e => (d, Err e) end.
Definition dget {A} (f : db -> A) : dbm A := fun d => (d, Ok (f d)).
(** Lifts a computation that does not touch the database. *)
Definition dres {A} (r : res A) : dbm A := fun d => (d, r).
(** [executemany]: one statement per parameter, stopping at the first error. *)
Fixpoint dmany {A} (s : A -> db -> res db) (l : list A) : dbm unit :=
  match l with
  | [] => dret tt
  | x :: r => dbind (dstmt (s x)) (fun _ => dmany s r)
  end.
