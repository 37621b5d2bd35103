(** Passages.v: passage search, collocations and passage rendering
    (hyperreal/index.py:746-789, 1894-2054, 2403-2599).
    Simplifications: the window size and the overhang are natural numbers; the worker
    processes read the committed database [d] (each opens its own connection). *)
From Verif Require Export Query Utilities.

(** ** Positions of a partition *)

(** index.py:2017-2032 [_get_partition_positions]. *)
Definition partition_positions (d : db) (first f : N) : bitmap :=
  match position_index d !! (f, first) with Some row => p_positions row | None => ∅ end.

(** index.py:2007-2015 [_union_position_query]. *)
Definition union_position_query (d : db) (first : N) (fs : gset N) : bitmap :=
  ⋃ (partition_positions d first <$> elements fs).

(** index.py:2034-2054 [_get_partition_header], without the unused docs_count. *)
Definition partition_header (d : db) (field : string) (first : N) : res (bitmap * bitmap) :=
  match position_doc_map d !! (field, first) with
  | Some pm => Ok (pm_doc_ids pm, pm_boundaries pm)
  | None => Err ValueError
  end.

(** index.py:1986-1996 [_field_partitions]. *)
Definition field_partitions (d : db) (field : string) : list N :=
  omap (fun kv : string * N * posmap_row => if bool_decide (kv.1.1 = field) then Some kv.1.2 else None)
    (map_to_list (position_doc_map d)).

(** index.py:1998-2005 [positional_fields]. *)
Definition positional_fields (d : db) : gset string :=
  dom (filter (fun kv => (0 < fs_position_count kv.2)%N) (field_summary d)).

(** ** Passages *)

(** (field, start, end, number of matches). *)
Definition passage : Type := string * N * N * nat.

(** index.py:2409-2425: clauses with their weights. *)
Definition clause_weight (d : db) (first : N) (clause : gset N) : N :=
  foldr N.add 0%N ((fun f => match position_index d !! (f, first) with
                             | Some row => p_count row | None => 0%N end) <$> elements clause).

(** index.py:2427 [clause_weights.sort()] compares (weight, set) pairs; on equal weights
    Python compares the sets by inclusion, which is not a total order. [sorter] is what the
    sort does with its argument; the theorems only assume that it permutes it. *)
Definition clause_sorter := list (N * gset N) -> list (N * gset N).

(** index.py:2439-2464: the clauses after the first. [∅] is also the early return. *)
Fixpoint narrow (d : db) (first : N) (boundaries : bitmap) (w : N) (clauses : list (gset N))
    (positions window : bitmap) : res bitmap :=
  match clauses with
  | [] => Ok (positions ∩ window)
  | clause :: rest =>
      let clause_positions := union_position_query d first clause ∩ window in
      if bool_decide (clause_positions = ∅) then Ok ∅
      else rbind (expand_positions_window clause_positions boundaries w) (fun expanded =>
           narrow d first boundaries w rest (positions ∪ clause_positions) (window ∩ expanded))
  end.

(** index.py:2408-2467: the matching positions of a partition. *)
Definition partition_matches (sorter : clause_sorter) (d : db) (first : N) (boundaries : bitmap)
    (w : N) (clauses : list (gset N)) : res bitmap :=
  match (sorter ((fun cl => (clause_weight d first cl, cl)) <$> clauses)).*2 with
  | [] => Err IndexError
  | clause :: rest =>
      let positions := union_position_query d first clause in
      rbind (expand_positions_window positions boundaries w) (fun window =>
      narrow d first boundaries w rest positions window)
  end.

(** index.py:2479-2483: (doc_start, next_start, doc_id) of a position. *)
Definition locate (doc_ids boundaries : bitmap) (p : N) : res (N * N * N) :=
  let rank := Z.of_nat (bm_rank boundaries p) in
  rbind (bm_nth boundaries (rank - 1)) (fun doc_start =>
  rbind (bm_nth boundaries rank) (fun next_start =>
  rbind (bm_nth doc_ids (rank - 1)) (fun doc_id => Ok (doc_start, next_start, doc_id)))).

(** The state of the walk over the positions. *)
Record walk := Walk {
  wk_start : N; wk_last : N; wk_doc : N * N * N; wk_scores : gmap N (list passage) }.

(** Appending the current passage to [passage_scores[doc_id]]. *)
Definition close_passage (field : string) (positions : bitmap) (k : walk) : gmap N (list passage) :=
  let '(doc_start, _, doc_id) := wk_doc k in
  <[doc_id := default [] (wk_scores k !! doc_id) ++
     [(field, (wk_start k - doc_start)%N, (wk_last k - doc_start)%N,
       bm_range_card positions (wk_start k) (wk_last k + 1)%N)]]> (wk_scores k).

(** index.py:2485-2514: one position. *)
Definition walk_step (field : string) (doc_ids boundaries positions : bitmap) (w : N)
    (k : walk) (position : N) : res walk :=
  if ((wk_doc k).1.2 <=? position)%N then
    let scores := close_passage field positions k in
    rbind (locate doc_ids boundaries position) (fun doc => Ok (Walk position position doc scores))
  else if (w <? position - wk_last k)%N then
    Ok (Walk position position (wk_doc k) (close_passage field positions k))
  else Ok (Walk (wk_start k) position (wk_doc k) (wk_scores k)).

(** index.py:2469-2533: the walk; the last passage is only kept when it has more than
    one position. *)
Definition walk_passages (field : string) (doc_ids boundaries positions : bitmap) (w : N)
    : res (gmap N (list passage)) :=
  match bm_list positions with
  | [] => Ok ∅
  | p0 :: rest =>
      rbind (locate doc_ids boundaries p0) (fun doc =>
      rbind (rfold (walk_step field doc_ids boundaries positions w) rest (Walk p0 p0 doc ∅)) (fun k =>
      Ok (if (wk_last k =? wk_start k)%N then wk_scores k else close_passage field positions k)))
  end.

(** index.py:2403-2533 [_score_passages_dnf]. *)
Definition score_partition (sorter : clause_sorter) (d : db) (field : string) (first : N)
    (clauses : list (gset N)) (w : N) : res (gmap N (list passage)) :=
  rbind (partition_header d field first) (fun '(doc_ids, boundaries) =>
  rbind (partition_matches sorter d first boundaries w clauses) (fun positions =>
  walk_passages field doc_ids boundaries positions w)).

(** index.py:1911-1921: the (field, feature id) of each feature of each clause. *)
Definition resolve_ref (d : db) (r : feature_ref) : res (string * N) :=
  match r with
  | ById f => rmap (fun k => (k.1, f)) (lookup_feature d f)
  | ByKey field v => rmap (fun f => (field, f)) (lookup_feature_id d (field, v))
  end.
Definition resolve_clauses (d : db) (clauses : list (list feature_ref)) : res (list (list (string * N))) :=
  rtraverse (rtraverse (resolve_ref d)) clauses.

(** index.py:1911-1925: [field_clauses[field]]: the parts of the clauses in that field. *)
Definition clause_in_field (field : string) (clause : list (string * N)) : gset N :=
  list_to_set (filter (fun k => k.1 = field) clause).*2.
Definition field_query (field : string) (clauses : list (list (string * N))) : list (gset N) :=
  filter (fun cl => cl ≠ ∅) (clause_in_field field <$> clauses).

(** index.py:1923-1941: the jobs: every partition of every positional field of the query. *)
Definition passage_jobs (d : db) (clauses : list (list (string * N))) : list (string * N) :=
  concat ((fun field => match field_query field clauses with
                        | [] => []
                        | _ => pair field <$> field_partitions d field
                        end) <$> elements (positional_fields d)).

(** index.py:1943-1948: one more result. *)
Definition merge_scores (all scores : gmap N (list passage)) : gmap N (list passage) :=
  union_with (fun a b => Some (a ++ b)) all scores.

(** index.py:1894-1950 [score_passages_dnf]; [arrival] is the order in which the jobs
    complete. *)
Definition score_passages_dnf (sorter : clause_sorter) (arrival : list nat) (d : db)
    (clauses : list (list feature_ref)) (w : N) : res (gmap N (list passage)) :=
  rbind (resolve_clauses d clauses) (fun rcl =>
  rbind (rtraverse (fun i =>
    match passage_jobs d rcl !! i with
    | Some (field, first) => score_partition sorter d field first (field_query field rcl) w
    | None => Err IndexError
    end) arrival) (fun results =>
  Ok (foldl merge_scores ∅ results))).

(** ** Collocations *)

(** index.py:2535-2562 [_count_collocations]: (feature, count near the query, count), the
    number of query positions and of window positions. The rows of the scan over
    position_index are in the order of the finite map; they are only added up. *)
Definition count_partition (d : db) (field : string) (features : gset N) (w first : N)
    : res (list (N * nat * nat) * nat * nat) :=
  let positions := union_position_query d first features in
  rbind (partition_header d field first) (fun '(_, boundaries) =>
  rbind (expand_positions_window positions boundaries w) (fun window =>
  Ok (omap (fun kv : N * N * pos_row =>
        if bool_decide (kv.1.2 = first /\ kv.1.1 ∉ features) then
          let other := partition_positions d first kv.1.1 in
          if bool_decide (other = ∅) then None else Some (kv.1.1, size (window ∩ other), size other)
        else None) (map_to_list (position_index d)),
      size positions, size window))).

(** index.py:1975-1977: adding one count to [collocations[feature_id]]. *)
Definition add_count (m : gmap N (nat * nat)) (x : N * nat * nat) : gmap N (nat * nat) :=
  let '(f, count, total) := x in
  let '(a, b) := default (0, 0) (m !! f) in <[f := (a + count, b + total)]> m.
Definition add_counts (st : gmap N (nat * nat) * nat * nat) (r : list (N * nat * nat) * nat * nat)
    : gmap N (nat * nat) * nat * nat :=
  let '(m, tq, tw) := st in
  let '(counts, q, win) := r in (foldl add_count m counts, tq + q, tw + win).

(** index.py:1951-1984 [count_collocations]. *)
Definition count_collocations (arrival : list nat) (d : db) (field : string) (features : gset N) (w : N)
    : res (gmap N (nat * nat) * nat * nat) :=
  rbind (rtraverse (fun i =>
    match field_partitions d field !! i with
    | Some first => count_partition d field features w first
    | None => Err IndexError
    end) arrival) (fun results =>
  Ok (foldl add_counts (∅, 0, 0) results)).

(** ** Rendering *)

(** What a rendered document shows for one field: the values of a field that is not a
    sequence, or its passages, each a text made by [" ".join]. *)
Inductive shown := ShownSet (vs : list (option value)) | ShownPassages (ps : list string).

(** [" ".join(values)]: TypeError unless all are texts. *)
Definition join_spaces (vs : list (option value)) : res string :=
  rmap (fun l => String.concat " " l)
    (rtraverse (fun v => match v with Some (VText s) => Ok s | _ => Err TypeError end) vs).

(** index.py:2579-2586: one passage. The field of a passage found in the index is a
    Sequence; slicing anything else raises TypeError; a missing field KeyError. *)
Definition passage_slice (overhang : nat) (p : passage) (vs : list (option value)) : list (option value) :=
  let '(_, s, e, _) := p in slice (N.to_nat s - overhang) (N.to_nat e + overhang) vs.
Definition passage_text (overhang : nat) (fs : features) (p : passage) : res string :=
  match List.find (fun fv => bool_decide (fv.1 = p.1.1.1)) fs with
  | None => Err KeyError
  | Some (_, Coll _) => Err TypeError
  | Some (_, Seq vs) => join_spaces (passage_slice overhang p vs)
  end.

(** index.py:2576-2598: one document: the fields that are not sequences, and the passages
    by field. Simplification: as a finite map (the order of the dict is not kept). *)
Definition render_document (overhang : nat) (fs : features) (passages : list passage)
    : res (gmap string shown) :=
  rbind (rtraverse (fun p => rmap (fun t => (p.1.1.1, t)) (passage_text overhang fs p)) passages) (fun texts =>
  let sets : gmap string shown := list_to_map (omap (fun fv : string * field_values =>
    match fv.2 with Coll vs => Some (fv.1, ShownSet vs) | Seq _ => None end) fs) in
  Ok (foldr (fun F m => <[F := ShownPassages (filter (fun x => x.1 = F) texts).*2]> m) sets texts.*1)).

(** index.py:2564-2599 [_construct_passages] for one batch of documents. *)
Definition construct_passages (d : db) (c : corpus) (overhang : nat) (scored : gmap N (list passage))
    : res (list (N * value * gmap string shown)) :=
  rbind (docs_query d c (dom scored)) (fun docs =>
  rtraverse (fun '(doc, key, x) =>
    match x with
    | None => Err IndexError
    | Some r => rbind r (fun fs =>
        rmap (fun shown => (doc, key, shown)) (render_document overhang fs (default [] (scored !! doc))))
    end) docs).

(** index.py:772-785: the batches, in the order of the dict. *)
Fixpoint chunks {A} (fuel size : nat) (l : list A) : list (list A) :=
  match fuel, l with
  | S fuel', _ :: _ => take size l :: chunks fuel' size (drop size l)
  | _, _ => []
  end.

(** index.py:746-789 [render_passages_table] without sampling: [scored] as the items of the
    dict; the batch size is positive. *)
Definition render_passages_table (arrival : list nat) (d : db) (c : corpus) (overhang batch_size : nat)
    (scored : list (N * list passage)) : res (list (N * value * gmap string shown)) :=
  let jobs := chunks (length scored) batch_size scored in
  rmap (@concat _) (rtraverse (fun i =>
    match jobs !! i with
    | Some job => construct_passages d c overhang (list_to_map job)
    | None => Err IndexError
    end) arrival).
