(** SpecCluster.v: what a clustering of features is and what the stored
    summaries of its clusters have to say, independently of how they are
    maintained. Only the tables themselves ([Db.v]) are mentioned. *)
From Verif Require Export Db.

(** The features assigned to cluster [c]. *)
Definition members (d : db) (c : Z) : gset N :=
  dom (filter (fun kv => fc_cluster kv.2 = c) (feature_cluster d)).

(** The documents of a feature. *)
Definition feature_docs (d : db) (f : N) : gset N :=
  match inverted_index d !! f with Some row => f_doc_ids row | None => ∅ end.

(** The cluster a feature is assigned to. *)
Definition assigned (d : db) (f : N) : option Z := fc_cluster <$> (feature_cluster d !! f).
(** Whether a feature / a cluster is pinned. *)
Definition feature_pinned (d : db) (f : N) : bool :=
  match feature_cluster d !! f with Some row => fc_pinned row | None => false end.
Definition cluster_pinned (d : db) (c : Z) : bool :=
  match cluster d !! c with Some row => c_pinned row | None => false end.

(** The stored row of cluster [c] says the truth about its features: how many there
    are, which documents they cover, how many those are, and the total number of
    feature occurrences over documents. *)
Definition summary_correct (d : db) (c : Z) (row : cluster_row) : Prop :=
  c_feature_count row = N.of_nat (size (members d c)) /\
  (exists docs, c_doc_ids row = Some docs /\
     (forall doc, doc ∈ docs <-> exists f, f ∈ members d c /\ doc ∈ feature_docs d f) /\
     c_docs_count row = N.of_nat (size docs)) /\
  c_weight row = N.of_nat (sum_list_with (fun f => size (feature_docs d f)) (elements (members d c))).

(** All stored summaries are correct; the clusters listed are exactly those with
    at least one feature; nothing is waiting to be summarised. *)
Definition summaries_agree (d : db) : Prop :=
  (forall c row, cluster d !! c = Some row -> summary_correct d c row) /\
  (forall c, is_Some (cluster d !! c) <-> members d c ≠ ∅) /\
  changed_cluster d = ∅.

(** Referential soundness of the clustering tables. *)
Definition references_ok (d : db) : Prop :=
  (forall f row, feature_cluster d !! f = Some row ->
     (exists ii, inverted_index d !! f = Some ii /\ fc_docs_count row = f_docs_count ii) /\
     is_Some (cluster d !! fc_cluster row)) /\
  (forall f ii, inverted_index d !! f = Some ii -> f_docs_count ii = N.of_nat (size (f_doc_ids ii))) /\
  (forall c, c ∈ changed_cluster d -> is_Some (cluster d !! c)).

(** Weaker than [summaries_agree]: every cluster with a wrong or missing summary
    is marked as changed. Holds inside transactions and after a crash. *)
Definition stale_marked (d : db) : Prop :=
  forall c row, cluster d !! c = Some row -> c ∉ changed_cluster d ->
    summary_correct d c row /\ members d c ≠ ∅.

(** What every database on disk satisfies, and what one satisfies between calls. *)
Definition usable (d : db) : Prop := references_ok d /\ stale_marked d.
Definition quiet (d : db) : Prop := references_ok d /\ summaries_agree d.

(** Everything except the clustering is the same. *)
Definition same_index (d d' : db) : Prop :=
  doc_key d' = doc_key d /\ inverted_index d' = inverted_index d /\
  position_doc_map d' = position_doc_map d /\ position_index d' = position_index d /\
  field_summary d' = field_summary d.

(** The features a call of initialise_clusters is asked to use: at least [md]
    documents, and a field among [fields], or among the fields of the index when no
    field is named. *)
Definition eligible (d : db) (md : Z) (fields : list string) (f : N) : Prop :=
  exists row, inverted_index d !! f = Some row /\ (md <= Z.of_N (f_docs_count row))%Z /\
    match fields with
    | [] => is_Some (field_summary d !! f_field row)
    | _ => f_field row ∈ fields
    end.
