(** Query.v: pivoting, field intersections, sampling, export, feature windows and the
    co-occurrence graph (hyperreal/index.py:579-911, 1137-1205, 1828-1876, 2192-2243).
    Simplification: a Python float is a rational; every division of two counts goes
    through an arbitrary function [rnd] (the rounding), so statements about it hold for
    any rounding with the stated properties. *)
From Verif Require Export Lookup Measure.

(** ** Similarity *)
Definition ratio (rnd : Qc -> Qc) (a b : nat) : Qc := rnd (Qof a / Qof b)%Qc.

(** pyroaring's [jaccard_index]: intersection cardinality / union cardinality. Used on a
    non-empty query only. *)
Definition jaccard (rnd : Qc -> Qc) (a b : bitmap) : Qc := ratio rnd (size (a ∩ b)) (size (a ∪ b)).

(** index.py:2192-2204 [_calculate_query_cluster_cooccurrence], without the key. A NULL
    doc_ids is None, on which intersection_cardinality raises TypeError. *)
Definition query_cooccurrence (rnd : Qc -> Qc) (d : db) (query : bitmap) (cs : list Z)
    : res (list (Z * Qc * nat)) :=
  rmap (@concat _) (rtraverse (fun c =>
    rbind (cluster_docs d c) (fun docs =>
    match docs with
    | None => Err TypeError
    | Some docs =>
        let inter := size (query ∩ docs) in
        Ok (if inter =? 0 then [] else [(c, jaccard rnd query docs, inter)])
    end)) cs).

(** ** Pivoting, index.py:1137-1205, 2207-2243 *)

(** index.py:2215-2218: the greatest similarity a feature in [docs_count] documents can
    have when the cluster shares [inter] documents with a query of [q] documents. *)
Definition max_threshold (rnd : Qc -> Qc) (q inter docs_count : nat) : Qc :=
  let m := min docs_count inter in ratio rnd m (q + docs_count - m).

(** index.py:2220: [sorted(features, reverse=True)] on tuples (threshold, feature id, ...);
    the ids differ. *)
Definition search_ge (a b : Qc * N) : Prop := cand_leb N.leb b a = true.
#[global] Instance search_ge_dec : RelDecision search_ge.
Proof. intros a b. unfold search_ge. apply _. Defined.

(** index.py:2224-2231: the search. The heap is its contents in increasing order (see
    Measure.v); [results[0]] raises IndexError when top_k is 0. *)
Fixpoint pivot_loop (rnd : Qc -> Qc) (d : db) (query : bitmap) (order : list (Qc * N))
    (heap : list (Qc * Z)) : res (list (Qc * Z)) :=
  match order with
  | [] => Ok heap
  | (threshold, f) :: rest =>
      match heap with
      | [] => Err IndexError
      | (least, _) :: _ =>
          if bool_decide (threshold < least)%Qc then Ok heap
          else pivot_loop rnd d query rest
                 (tail (heap_insert Z.leb (jaccard rnd query (docs_of d f), Z.of_N f) heap))
      end
  end.

Definition by_similarity (a b : N * string * value * Qc) : Prop := (b.2 <= a.2)%Qc.
#[global] Instance by_similarity_dec : RelDecision by_similarity.
Proof. intros a b. unfold by_similarity. apply _. Defined.

(** The row (feature id, field, value, similarity) for an entry of the heap.
    Simplification: field and value are looked up by the id at the end instead of being
    carried through the heap, where they never decide a comparison. *)
Definition pivot_row (d : db) (e : Qc * Z) : option (N * string * value * Qc) :=
  (fun row => (Z.to_N e.2, f_field row, f_value row, e.1)) <$> inverted_index d !! Z.to_N e.2.

(** index.py:2207-2243 [_pivot_cluster_features_by_query_jaccard]. *)
Definition pivot_cluster (rnd : Qc -> Qc) (d : db) (query : bitmap) (top_k : nat)
    (c : Z) (inter : nat) : res (Z * Qc * list (N * string * value * Qc)) :=
  let heap := replicate top_k (Qc_of_Z 0, (-1)%Z) in
  let order := merge_sort search_ge ((fun '(f, _, _, n) =>
       (max_threshold rnd (size query) inter (N.to_nat n), f)) <$> cluster_features d c None) in
  rbind (pivot_loop rnd d query order heap) (fun heap =>
  let rows := merge_sort by_similarity
      (omap (pivot_row d) (filter (fun e => (Qc_of_Z 0 < e.1)%Qc) heap)) in
  rbind (cluster_docs d c) (fun docs =>
  match docs with
  | None => Err TypeError
  | Some docs => Ok (c, jaccard rnd query docs, rows)
  end)).

Definition count_order (x y : Z * N) : Prop := (y.2 < x.2)%N \/ (x.2 = y.2 /\ (x.1 <= y.1)%Z).
#[global] Instance count_order_dec : RelDecision count_order.
Proof. intros x y. unfold count_order. apply _. Defined.

(** index.py:1160-1165: [cluster_ids or [... order by feature_count desc]]. *)
Definition pivot_ids (d : db) (cluster_ids : option (list Z)) : list Z :=
  match cluster_ids with
  | None | Some [] =>
      (merge_sort count_order ((fun kv => (kv.1, c_feature_count kv.2)) <$> map_to_list (cluster d))).*1
  | Some l => l
  end.

Definition weight_ge (a b : Z * Qc * nat) : Prop := (b.1.2 <= a.1.2)%Qc.
#[global] Instance weight_ge_dec : RelDecision weight_ge.
Proof. intros a b. unfold weight_ge. apply _. Defined.

(** index.py:1137-1205 [pivot_clusters_by_query] with jaccard scoring: what the returned
    generator yields. [workers]: size of the pool; [arrival]: the order in which the
    first jobs complete. Workers read the committed database [d]. *)
Definition pivot_clusters_by_query (rnd : Qc -> Qc) (workers : nat) (arrival : list nat) (d : db)
    (query : bitmap) (cluster_ids : option (list Z)) (top_k : nat)
    : res (list (Z * Qc * list (N * string * value * Qc))) :=
  let jobs := workers * 2 in
  rbind (rtraverse (fun i => query_cooccurrence rnd d query (stride i jobs (pivot_ids d cluster_ids))) arrival)
    (fun weights =>
  rtraverse (fun '(c, _, inter) => pivot_cluster rnd d query top_k c inter)
    (merge_sort weight_ge (concat weights))).

(** ** Field intersections *)

(** index.py:579-600 [iter_field_docs]: (value, docs_count, doc_ids), by value. *)
Definition value_row_le (a b : value * N * bitmap) : Prop := value_leb a.1.1 b.1.1 = true.
#[global] Instance value_row_le_dec : RelDecision value_row_le.
Proof. intros a b. unfold value_row_le. apply _. Defined.
Definition iter_field_docs (d : db) (field : string) (min_docs : Z) : list (value * N * bitmap) :=
  merge_sort value_row_le (omap (fun kv : N * feature_row =>
    if bool_decide (f_field kv.2 = field) && (min_docs <=? Z.of_N (f_docs_count kv.2))%Z
    then Some (f_value kv.2, f_docs_count kv.2, f_doc_ids kv.2) else None)
    (map_to_list (inverted_index d))).

(** index.py:602-629 [intersect_queries_with_field]: the queries in the order of the
    dict; a defaultdict has an entry per query once there is a value. *)
Definition intersect_queries_with_field (d : db) (queries : list (string * bitmap)) (field : string)
    : list value * list N * list (string * list nat) :=
  let rows := iter_field_docs d field 1 in
  (rows.*1.*1, rows.*1.*2,
   match rows with
   | [] => []
   | _ => (fun q => (q.1, (fun r : value * N * bitmap => size (q.2 ∩ r.2)) <$> rows)) <$> queries
   end).

(** ** Sampling *)

(** index.py:724-744 [sample_bitmap]. [random.sample] raises ValueError for a negative
    size. *)
Definition sample_bitmap (b : bitmap) (k : Z) (g : rng) : res bitmap * rng :=
  if (k <? Z.of_nat (size b))%Z then
    if (k <? 0)%Z then (Err ValueError, g) else
    let '(is, g1) := py_sample (seq 0 (size b)) (Z.to_nat k) g in
    (rmap (fun l => list_to_set l) (rtraverse (fun i => bm_nth b (Z.of_nat i)) is), g1)
  else (Ok b, g).

(** index.py:821-866 [structured_doc_sample]. *)
Record sampling := Sampling { s_taken : bitmap; s_samples : list (Z * bitmap) }.

Definition sample_cluster (d : db) (per_cluster : Z) (sel : gset Z) (st : sampling * rng) (c : Z)
    : res (sampling * rng) :=
  let '(s, g) := st in
  if bool_decide (c ∈ sel) then
    rbind (cluster_docs d c) (fun docs =>
    match docs with
    | None => Err TypeError
    | Some docs =>
        let available := docs ∖ s_taken s in
        let '(r, g1) := if (0 <? per_cluster)%Z then sample_bitmap available per_cluster g
                        else (Ok available, g) in
        rbind r (fun sample => Ok (Sampling (s_taken s ∪ sample) (s_samples s ++ [(c, sample)]), g1))
    end)
  else Ok (s, g).

Definition structured_doc_sample (d : db) (per_cluster : Z) (ids : option (list Z)) (g : rng)
    : res (list (Z * bitmap) * list (Z * bitmap)) :=
  let all_clusters := (top_cluster_features d 0).*1.*1 in
  let sel := list_to_set (match ids with None | Some [] => cluster_ids d | Some l => l end) in
  rbind (rfold (sample_cluster d per_cluster sel) (rev all_clusters) (Sampling ∅ [], g)) (fun '(s, _) =>
  rbind (rtraverse (fun c => rbind (cluster_docs d c) (fun docs =>
           match docs with None => Err TypeError | Some docs => Ok (c, s_taken s ∩ docs) end)) all_clusters)
    (fun labelled => Ok (s_samples s, filter (fun cd => cd.2 ≠ ∅) labelled))).

(** ** Export *)

(** [convert_query_to_keys] as the ordered dict it returns (index.py:558-577). *)
Definition query_keys (d : db) (query : bitmap) : res (list (value * N)) :=
  rfold (fun l doc =>
    match doc_key d !! doc with
    | None => Err IndexError
    | Some k => Ok (if bool_decide (k ∈ l.*1)
                    then (fun kv => if bool_decide (kv.1 = k) then (k, doc) else kv) <$> l
                    else l ++ [(k, doc)])
    end) (bm_list query) [].

(** What [corpus.render_docs_table] gives for the document of one key: a dict from table
    fields to cells. As in corpus.py, it goes through the keys in the order given. *)
Definition renderer := value -> res (gmap string string).

(** Columns of the exported file. Simplification: columns are not strings, so a corpus
    field called like one of the added columns is not modelled. *)
Inductive column := ColKey | ColSampled | ColField (s : string) | ColCluster (c : Z).
#[global] Instance column_eq_dec : EqDecision column.
Proof. solve_decision. Defined.
Inductive cell := CKey (v : value) | CCluster (c : Z) | CText (s : string) | CMark | CBlank.
#[global] Instance cell_eq_dec : EqDecision cell.
Proof. solve_decision. Defined.

(** index.py:884-888: the header. *)
Definition export_header (fields : list string) (sample_clusters : list (Z * bitmap)) : list column :=
  [ColKey; ColSampled] ++ (ColField <$> fields) ++
  (ColCluster <$> z_list (list_to_set sample_clusters.*1)).

(** index.py:905-911: one row. *)
Definition export_cell (key : value) (sampled : Z) (doc : N) (content : gmap string string)
    (sample_clusters : list (Z * bitmap)) (col : column) : cell :=
  match col with
  | ColKey => CKey key
  | ColSampled => CCluster sampled
  | ColField s => match content !! s with Some t => CText t | None => CBlank end
  | ColCluster c =>
      if bool_decide (Exists (fun cd : Z * bitmap => cd.1 = c /\ doc ∈ cd.2) sample_clusters)
      then CMark else CBlank
  end.

(** index.py:868-911 [export_document_sample]: the header and the rows. *)
Definition export_document_sample (d : db) (render : renderer) (fields : list string)
    (sample_docs sample_clusters : list (Z * bitmap)) : res (list column * list (list cell)) :=
  let header := export_header fields sample_clusters in
  rbind (rtraverse (fun '(c, docs) =>
    rbind (query_keys d docs) (fun keys =>
    rbind (rtraverse (fun kv : value * N => rmap (fun x => (kv.1, x)) (render kv.1)) keys) (fun written =>
    Ok ((fun '(doc, (key, content)) => export_cell key c doc content sample_clusters <$> header)
          <$> zip (bm_list docs) written)))) sample_docs) (fun rows => Ok (header, concat rows)).

(** ** Windows around matching features *)
Inductive feature_ref := ById (f : N) | ByKey (field : string) (v : value).

(** index.py:656-669: the requested values by field, fields in order of first mention. *)
Definition add_requested (d : db) (ff : list (string * gset value)) (x : feature_ref)
    : res (list (string * gset value)) :=
  rbind (match x with ById f => lookup_feature d f | ByKey field v => Ok (field, v) end) (fun '(field, v) =>
  Ok (if bool_decide (field ∈ ff.*1)
      then (fun kv => if bool_decide (kv.1 = field) then (field, {[v]} ∪ kv.2) else kv) <$> ff
      else ff ++ [(field, {[v]})])).

(** index.py:676-691: one field of one document: (value, windows). [None] values never
    match. A dict keeps first insertion order; the windows of one value are in the order
    of occurrence. Simplification: a non-sequence field is a set; requested values found
    in it have no windows. *)
Definition window_at (vs : list (option value)) (w i : nat) : list (option value) :=
  slice (i - w) (i + w + 1) vs.
Definition add_window (m : gmap value (list (list (option value)))) (v : value) (win : list (option value)) :=
  <[v := default [] (m !! v) ++ [win]]> m.
Definition field_windows (to_match : gset value) (w : nat) (fv : field_values)
    : gmap value (list (list (option value))) :=
  match fv with
  | Seq vs => foldl (fun m iv => match iv.2 with
                       | Some v => if bool_decide (v ∈ to_match) then add_window m v (window_at vs w iv.1) else m
                       | None => m
                       end) ∅ (zip (seq 0 (length vs)) vs)
  | Coll vs => set_to_map (fun v => (v, [])) (filter (fun v => Some v ∈ vs) to_match)
  end.
Definition doc_windows (ff : list (string * gset value)) (w : nat) (doc : features)
    : list (string * gmap value (list (list (option value)))) :=
  (fun '(field, to_match) =>
     (field, match List.find (fun fv => bool_decide (fv.1 = field)) doc with
             | Some fv => field_windows to_match w fv.2
             | None => ∅
             end)) <$> ff.

(** index.py:640-693 [extract_matching_feature_windows], without sampling: (key, id, windows). *)
Definition feature_windows (d : db) (c : corpus) (query : bitmap) (refs : list feature_ref) (w : nat)
    : res (list (value * N * list (string * gmap value (list (list (option value)))))) :=
  rbind (rfold (add_requested d) refs []) (fun ff =>
  rbind (docs_query d c query) (fun docs =>
  rtraverse (fun '(doc, key, x) =>
    match x with
    | None => Err IndexError
    | Some r => rbind r (fun fs => Ok (key, doc, doc_windows ff w fs))
    end) docs)).

(** ** The co-occurrence graph, index.py:1828-1876 *)
Record graph := Graph {
  g_nodes : gmap Z (N * list (option string * value));   (* document count, label parts *)
  g_edges : gmap (Z * Z) Qc }.                            (* (smaller id, greater id) to weight *)
Definition edge_key (a b : Z) : Z * Z := (Z.min a b, Z.max a b).

(** The label: ", ".join of texts; without the field an integer value is a TypeError. *)
Definition node_label (with_field : bool) (fs : list (N * string * value * N))
    : res (list (option string * value)) :=
  rtraverse (fun '(_, field, v, _) =>
    if with_field then Ok (Some field, v)
    else match v with VText _ => Ok (None, v) | VInt _ => Err TypeError end) fs.

(** The jobs: each cluster against the later ones. *)
Fixpoint graph_jobs (d : db) (cs : list Z) : res (list (Z * bitmap * list Z)) :=
  match cs with
  | [] => Ok []
  | c :: rest =>
      rbind (cluster_docs d c) (fun docs =>
      rbind (graph_jobs d rest) (fun jobs =>
      match docs with
      | Some q => Ok ((c, q, rest) :: jobs)
      | None => match rest with [] => Ok ((c, ∅, rest) :: jobs) | _ => Err TypeError end
      end))
  end.

(** [arrival]: the order in which the jobs complete. *)
Definition cooccurrence_graph (rnd : Qc -> Qc) (d : db) (top_k : nat) (with_field : bool)
    (arrival : list nat) : res graph :=
  let clusters := top_cluster_features d top_k in
  rbind (rtraverse (fun '(c, n, fs) => rmap (fun l => (c, (n, l))) (node_label with_field fs)) clusters)
    (fun nodes =>
  rbind (graph_jobs d clusters.*1.*1) (fun jobs =>
  rbind (rtraverse (fun i => match jobs !! i with
           | Some (c, q, others) => rmap (fun w => (c, w)) (query_cooccurrence rnd d q others)
           | None => Err IndexError
           end) arrival) (fun results =>
  Ok (Graph (list_to_map nodes)
        (foldl (fun es '(c, w) =>
           foldl (fun es (x : Z * Qc * nat) => <[edge_key c x.1.1 := x.1.2]> es) es w) ∅ results))))).
