(** ClusterOps.v: the public methods of [Index] that change the clustering, and
    the readers of the clustering tables (hyperreal/index.py:920-1275). *)
From Verif Require Export Conn Utilities.

(** ** Bodies of the methods *)

(** index.py:948-963: the selection of features, in feature_id order; joining with
    the temporary table repeats a feature once per occurrence of its field. *)
Definition selected_features (min_docs : Z) (fields : list string) (d : db) : list (N * N) :=
  concat ((fun f =>
     match inverted_index d !! f with
     | Some row =>
         if (min_docs <=? Z.of_N (f_docs_count row))%Z
         then replicate (length (filter (fun x => x = f_field row) fields)) (f, f_docs_count row)
         else []
     | None => []
     end) <$> bm_list (dom (inverted_index d))).

(** index.py:967: [clusters], then index.py:974-978: the rows to insert. *)
Definition initial_rows (n_clusters : nat) (features : list (N * N)) : list (Z * (N * N)) :=
  concat ((fun i => (fun f => (Z.of_nat i, f)) <$> stride i n_clusters features)
            <$> seq 0 n_clusters).

(** index.py:920-983 [initialise_clusters]. [include_fields = []] stands for both
    [None] and an empty list (the test is on truth value). The temporary table
    include_field is created and dropped inside the call and is not modelled. *)
Definition initialise_clusters_body (n_clusters : nat) (min_docs : Z)
    (include_fields : list string) (g : rng) : dbm unit :=
  dbind (dstmt delete_all_fc) (fun _ =>
  dbind (dstmt (delete_clusters_where true (fun _ => true))) (fun _ =>
  dbind (dget (fun d =>
           let fields := match include_fields with
                         | [] => (map_to_list (field_summary d)).*1
                         | _ => include_fields
                         end in
           selected_features min_docs fields d)) (fun feature_ids =>
  let shuffled := (py_shuffle feature_ids g).1 in
  dmany (fun '(c, (f, dc)) => insert_feature_cluster false f c dc)
        (initial_rows n_clusters shuffled)))).

(** index.py:985-994 [delete_clusters]. *)
Definition delete_clusters_body (cluster_ids : list Z) : dbm unit :=
  dmany delete_fc_of_cluster cluster_ids.

(** index.py:996-1010 [merge_clusters]. *)
Definition merge_clusters_body (cluster_ids : list Z) : dbm Z :=
  match cluster_ids with
  | [] => dfail IndexError
  | merge_cluster_id :: rest =>
      dbind (dmany (update_cluster_of_cluster merge_cluster_id) rest) (fun _ =>
      dret merge_cluster_id)
  end.

(** index.py:1012-1020 [delete_features]. *)
Definition delete_features_body (feature_ids : list N) : dbm unit :=
  dmany delete_fc_of_feature feature_ids.

(** The greatest key of the table [cluster], if any ([max(cluster_id)]). *)
Definition max_cluster_id (d : db) : option Z := last (z_list (dom (cluster d))).

(** index.py:1022-1034 [next_cluster_id]: [coalesce(max(cluster_id), 0) + 1]. *)
Definition next_cluster_id (d : db) : Z :=
  (match max_cluster_id d with Some m => m | None => 0 end + 1)%Z.

(** index.py:1047-1059: the inserted docs_count is looked up in inverted_index; a
    missing feature fails the foreign key check in any case. *)
Definition insert_new_feature (c : Z) (f : N) (d : db) : res db :=
  insert_feature_cluster true f c
    (match inverted_index d !! f with Some row => f_docs_count row | None => 0%N end) d.

(** index.py:1036-1068 [create_cluster_from_features]. *)
Definition create_cluster_body (feature_ids : list N) : dbm Z :=
  dbind (dget next_cluster_id) (fun c =>
  dbind (dmany (insert_new_feature c) feature_ids) (fun _ =>
  dbind (dmany (update_cluster_of_feature c) feature_ids) (fun _ =>
  dret c))).

(** index.py:1070-1084 [pin_features]. *)
Definition pin_features_body (feature_ids : list N) (pinned : bool) : dbm unit :=
  dmany (update_feature_pinned pinned) feature_ids.

(** index.py:1086-1098 [pin_clusters]. *)
Definition pin_clusters_body (cluster_ids : list Z) (pinned : bool) : dbm unit :=
  dmany (update_cluster_pinned pinned) cluster_ids.

(** ** The methods: each is decorated with [@atomic(writes=True)]. *)
Definition initialise_clusters n min_docs fields g : M unit :=
  atomic "initialise_clusters" true (on_db (initialise_clusters_body n min_docs fields g)).
Definition delete_clusters cs : M unit :=
  atomic "delete_clusters" true (on_db (delete_clusters_body cs)).
Definition merge_clusters cs : M Z :=
  atomic "merge_clusters" true (on_db (merge_clusters_body cs)).
Definition delete_features fs : M unit :=
  atomic "delete_features" true (on_db (delete_features_body fs)).
Definition create_cluster_from_features fs : M Z :=
  atomic "create_cluster_from_features" true (on_db (create_cluster_body fs)).
Definition pin_features fs p : M unit :=
  atomic "pin_features" true (on_db (pin_features_body fs p)).
Definition pin_clusters cs p : M unit :=
  atomic "pin_clusters" true (on_db (pin_clusters_body cs p)).

(** ** Readers *)

(** index.py:1100-1107 [cluster_ids]. *)
Definition cluster_ids (d : db) : list Z := z_list (dom (cluster d)).

(** index.py:1109-1116 [pinned_cluster_ids]. *)
Definition pinned_cluster_ids (d : db) : gset Z :=
  dom (filter (fun kv => c_pinned kv.2 = true) (cluster d)).

(** [order by docs_count desc] over rows scanned through the index
    (cluster_id, docs_count) backwards: ties come in decreasing feature_id. SQL
    leaves the order of ties open; no theorem depends on it. *)
Definition feature_order (x y : N * string * value * N) : Prop :=
  (y.2 < x.2)%N \/ (x.2 = y.2 /\ (y.1.1.1 <= x.1.1.1)%N).
#[global] Instance feature_order_dec : RelDecision feature_order.
Proof. intros x y. unfold feature_order. apply _. Defined.

(** index.py:1208-1236 [cluster_features]: rows (feature_id, field, value,
    docs_count); [None] for the default (no limit). *)
Definition cluster_features (d : db) (c : Z) (top_k : option nat) : list (N * string * value * N) :=
  let rows := omap (fun f =>
      match feature_cluster d !! f, inverted_index d !! f with
      | Some fc, Some ii => Some (f, f_field ii, f_value ii, fc_docs_count fc)
      | _, _ => None
      end) (features_of_cluster c d) in
  let sorted := merge_sort feature_order rows in
  match top_k with Some k => take k sorted | None => sorted end.

(** [order by docs_count desc] over the table cluster (ties by cluster_id). *)
Definition cluster_order (x y : Z * N) : Prop :=
  (y.2 < x.2)%N \/ (x.2 = y.2 /\ (x.1 <= y.1)%Z).
#[global] Instance cluster_order_dec : RelDecision cluster_order.
Proof. intros x y. unfold cluster_order. apply _. Defined.

Definition clusters_by_docs (d : db) : list (Z * N) :=
  merge_sort cluster_order ((fun kv => (kv.1, c_docs_count kv.2)) <$> map_to_list (cluster d)).

(** index.py:1118-1136 [top_cluster_features]. *)
Definition top_cluster_features (d : db) (top_k : nat)
    : list (Z * N * list (N * string * value * N)) :=
  (fun '(c, n) => (c, n, cluster_features d c (Some top_k))) <$> clusters_by_docs d.

(** index.py:1268-1275 [cluster_docs]: IndexError for an unknown cluster. A NULL
    doc_ids comes back as None; [cluster_docs] returns it unchanged. *)
Definition cluster_docs (d : db) (c : Z) : res (option bitmap) :=
  match cluster d !! c with Some row => Ok (c_doc_ids row) | None => Err IndexError end.

(** index.py:1238-1247 [union_bitslice], for feature ids. *)
Definition union_bitslice (d : db) (fs : list N) : bitmap * list bitmap :=
  compute_bitslice (docs_of d <$> fs).

(** index.py:1249-1266 [cluster_query]. *)
Definition cluster_query (d : db) (c : Z) : bitmap * list bitmap :=
  union_bitslice d ((cluster_features d c None).*1.*1.*1).
