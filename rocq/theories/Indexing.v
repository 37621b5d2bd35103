(** Indexing.v: [Index.index] (hyperreal/index.py:300-556), the worker function
    [_index_docs] (index.py:2056-2189) and the dispatch loop. *)
From Verif Require Export Conn.

(** ** The corpus *)

(** What [corpus.index(doc)] gives for one field: a Sequence (its order and repeats
    matter for positions) or another iterable. [None] is Python's None. *)
Inductive field_values := Seq (vs : list (option value)) | Coll (vs : list (option value)).
Definition values_of (fv : field_values) : list (option value) :=
  match fv with Seq vs => vs | Coll vs => vs end.

(** The dict returned by [corpus.index(doc)], in insertion order. *)
Definition features := list (string * field_values).

(** A corpus: its keys in the order of [corpus.keys()], with what indexing each
    document gives; retrieving or indexing a document may raise.
    Simplification: [corpus.docs(doc_keys=ks)] yields the documents of [ks], all of
    them, in that order, as the protocol in hyperreal/corpus.py demands. *)
Definition corpus := list (value * res features).

(** A batch: (doc_id, document) pairs. *)
Definition batch := list (N * res features).

(** ** The worker: [_index_docs] *)

(** index.py:2119-2146: tables of the temporary database. *)
Record seg_row := SegRow {
  s_field : string; s_value : value; s_docs_count : N; s_docs : bitmap;
  s_position_count : N; s_positions : bitmap (* NULL is ∅ *); s_first : N }.
Record bpos_row := BPosRow {
  b_field : string; b_first : N; b_last : N; b_docs_count : N;
  b_docs : bitmap; b_starts : bitmap }.
Definition segment : Type := list seg_row * list bpos_row.

(** index.py:2071-2080: [batch] (flattened to one level: field and value) and
    [field_doc_positions_starts]. *)
Record accum := Accum {
  a_batch : gmap (string * value) (bitmap * bitmap);
  a_starts : gmap string (bitmap * bitmap) }.
Definition empty_accum := Accum ∅ ∅.

Definition get_pair (k : string * value) (a : accum) : bitmap * bitmap := default (∅, ∅) (a_batch a !! k).
Definition get_starts (field : string) (a : accum) : bitmap * bitmap :=
  default (∅, {[0%N]}) (a_starts a !! field).

(** [batch[field][value][1].add(p)] and [batch[field][value][0].add(doc_id)]. *)
Definition add_position (field : string) (v : value) (p : N) (a : accum) : accum :=
  Accum (<[(field, v) := ((get_pair (field, v) a).1, {[p]} ∪ (get_pair (field, v) a).2)]> (a_batch a))
        (a_starts a).
Definition add_doc (field : string) (doc : N) (a : accum) (v : value) : accum :=
  Accum (<[(field, v) := ({[doc]} ∪ (get_pair (field, v) a).1, (get_pair (field, v) a).2)]> (a_batch a))
        (a_starts a).

(** The greatest member of a BitMap ([bm[-1]]); the code only asks non-empty ones. *)
Definition bm_last (b : bitmap) : N := default 0%N (last (bm_list b)).

(** index.py:2095-2098: the loop over the positions of one sequence, starting at
    position [p]. *)
Fixpoint add_positions (field : string) (vs : list (option value)) (p : N) (a : accum) : res accum :=
  match vs with
  | [] => Ok a
  | None :: _ => Err ValueError
  | Some v :: r => add_positions field r (p + 1)%N (add_position field v p a)
  end.

(** index.py:2090-2114: one field of one document. *)
Definition index_field (positions : bool) (doc : N) (a : accum) (fv : string * field_values) : res accum :=
  let '(field, values) := fv in
  let finish (a : accum) : res accum :=
    Ok (foldl (add_doc field doc) a (omap id (values_of values))) in
  match positions, values with
  | true, Seq vs =>
      let '(docs, starts) := get_starts field a in
      let start := bm_last starts in
      (* reading field_doc_positions_starts[field] creates the entry *)
      let a0 := Accum (a_batch a) (<[field := (docs, starts)]> (a_starts a)) in
      rbind (add_positions field vs start a0) (fun a1 =>
      match vs with
      | [] => Ok a1
      | _ => finish (Accum (a_batch a1)
               (<[field := ({[doc]} ∪ docs,
                            {[(start + N.of_nat (length vs))%N]} ∪ starts)]> (a_starts a1)))
      end)
  | _, _ => finish a
  end.

(** index.py:2087-2114: one document. *)
Definition index_doc (positions : bool) (a : accum) (d : N * res features) : res accum :=
  rbind d.2 (fun fs => rfold (index_field positions d.1) fs a).

(** index.py:2056-2189 [_index_docs]. The temporary database is opened, written
    under the write lock and committed in one transaction, so its effect is to
    append a whole segment or nothing. The rows of one segment are listed in the
    order of the finite maps; the insertion order is never observed. *)
Definition index_docs (positions : bool) (b : batch) : res segment :=
  rbind (rfold (index_doc positions) b empty_accum) (fun a =>
  match b with
  | [] => Err IndexError (* doc_ids[0]; never dispatched *)
  | (first, _) :: _ =>
      let last_id := default first (last b.*1) in
      Ok ((fun kv => SegRow kv.1.1 kv.1.2 (N.of_nat (size kv.2.1)) kv.2.1
                            (N.of_nat (size kv.2.2)) kv.2.2 first) <$> map_to_list (a_batch a),
          (fun kv => BPosRow kv.1 first last_id (N.of_nat (size kv.2.1)) kv.2.1 kv.2.2)
            <$> map_to_list (a_starts a))
  end).

(** ** Batches, index.py:356-413 *)

(** index.py:368-413: fill a batch, flush it when it reaches the batch size. *)
Fixpoint make_batches (size : nat) (pending : batch) (docs : batch) : list batch :=
  match docs with
  | [] => match pending with [] => [] | _ => [pending] end
  | x :: r =>
      let b := pending ++ [x] in
      if size <=? length b then b :: make_batches size [] r else make_batches size b r
  end.

Definition enumerate {A} (l : list A) : list (N * A) := zip (N.of_nat <$> seq 0 (length l)) l.

Definition batches (batch_size : nat) (c : corpus) : list batch :=
  make_batches batch_size [] (enumerate (snd <$> c)).

(** How the worker pool behaves during one call: the order in which the batches
    (by number) finish, and the batches whose worker fails. *)
Record schedule := Schedule { finish_order : list nat; fault : nat -> option exn }.

(** The segments in the order in which they were written; the exception of the
    first failing batch is raised (index.py:394-398, 432-433). *)
Definition run_batches (positions : bool) (bs : list batch) (s : schedule) : res (list segment) :=
  rtraverse (fun i =>
    match fault s i with
    | Some e => Err e
    | None => match bs !! i with Some b => index_docs positions b | None => Err IndexError end
    end) (finish_order s).

(** ** Rebuilding the index, index.py:338-534 *)

(** index.py:354 and 369: [delete from doc_key], [insert into doc_key values(?, ?)]
    for every enumerated key; doc_key is unique. *)
Definition insert_doc_keys (keys : list value) (d : db) : res db :=
  if bool_decide (NoDup keys)
  then Ok (set_doc_key (list_to_map (enumerate keys)) d)
  else Err IntegrityError.

(** index.py:417-429: zero out the features; clear the position tables. *)
Definition zero_index (d : db) : db :=
  set_position_index ∅ (set_position_doc_map ∅
    (set_inverted_index ((fun row => FeatureRow (f_field row) (f_value row) 0 ∅) <$> inverted_index d) d)).

(** [select feature_id from inverted_index where (field, value) = k]. *)
Definition find_feature (ii : gmap N feature_row) (k : string * value) : option N :=
  head (bm_list (dom (filter (fun kv => (f_field kv.2, f_value kv.2) = k) ii))).

(** The rowid SQLite gives to a row inserted without one. *)
Definition next_rowid (ii : gmap N feature_row) : N :=
  match last (bm_list (dom ii)) with Some m => (m + 1)%N | None => 1%N end.

(** Order of [group by field, value]. *)
Definition kv_leb (a b : string * value) : bool :=
  if bool_decide (a.1 = b.1) then value_leb a.2 b.2 else string_le a.1 b.1.
Definition kv_le (a b : string * value) : Prop := kv_leb a b = true.
#[global] Instance kv_le_dec : RelDecision kv_le.
Proof. intros a b. unfold kv_le. apply _. Defined.

Definition seg_key (r : seg_row) : string * value := (s_field r, s_value r).
Definition group_keys (rows : list seg_row) : list (string * value) :=
  merge_sort kv_le (elements (list_to_set (seg_key <$> rows) : gset (string * value))).

(** The rows of a group; [sum(docs_count)]; [roaring_union(doc_ids)]
    (db_utilities.py, aggregate roaring_union). *)
Definition group_rows (rows : list seg_row) (k : string * value) : list seg_row :=
  filter (fun r => seg_key r = k) rows.
Definition group_row (rows : list seg_row) (k : string * value) : feature_row :=
  FeatureRow k.1 k.2 (foldr N.add 0%N (s_docs_count <$> group_rows rows k))
             (⋃ (s_docs <$> group_rows rows k)).

(** index.py:451-467: [replace into inverted_index ...]. The select is evaluated
    before the first row is written, so existing ids are looked up in [old]. *)
Definition merge_features (rows : list seg_row) (old : gmap N feature_row) : gmap N feature_row :=
  foldl (fun ii k =>
           let id := match find_feature old k with Some f => f | None => next_rowid ii end in
           <[id := group_row rows k]> ii)
        old (group_keys rows).

(** index.py:470-485: [insert into position_index ...]. *)
Definition position_rows (rows : list seg_row) (ii : gmap N feature_row) : list ((N * N) * pos_row) :=
  omap (fun r =>
    if (0 <? s_position_count r)%N
    then (fun f => ((f, s_first r), PosRow (s_position_count r) (s_positions r))) <$> find_feature ii (seg_key r)
    else None) rows.
Definition insert_positions (rows : list seg_row) (d : db) : res db :=
  let new := position_rows rows (inverted_index d) in
  if bool_decide (NoDup new.*1)
  then Ok (set_position_index (list_to_map new ∪ position_index d) d)
  else Err IntegrityError.

(** index.py:487-493: [insert into position_doc_map select * from batch_position]. *)
Definition posmap_entry (b : bpos_row) : (string * N) * posmap_row :=
  ((b_field b, b_first b), PosMapRow (b_last b) (b_docs_count b) (b_docs b) (b_starts b)).
Definition insert_position_map (rows : list bpos_row) (d : db) : res db :=
  if bool_decide (NoDup (posmap_entry <$> rows).*1)
  then Ok (set_position_doc_map (list_to_map (posmap_entry <$> rows) ∪ position_doc_map d) d)
  else Err IntegrityError.

(** index.py:496-505: docs_count of the clustered features. A feature missing from
    inverted_index would get NULL; features are never deleted. *)
Definition refresh_docs_counts (d : db) : db :=
  set_feature_cluster (map_imap (fun f row =>
    Some (FcRow (fc_cluster row)
                (match inverted_index d !! f with Some ii => f_docs_count ii | None => 0%N end)
                (fc_pinned row))) (feature_cluster d)) d.

(** index.py:508-529: the field summary, over all rows of inverted_index. *)
Definition field_rows (d : db) (field : string) : list (N * feature_row) :=
  filter (fun kv => f_field kv.2 = field) (map_to_list (inverted_index d)).
Definition value_min (l : list value) : value :=
  foldr (fun a b => if value_leb a b then a else b) (List.hd (VInt 0) l) l.
Definition value_max (l : list value) : value :=
  foldr (fun a b => if value_leb a b then b else a) (List.hd (VInt 0) l) l.
Definition field_positions (d : db) (field : string) : N :=
  foldr N.add 0%N ((fun kv =>
    match inverted_index d !! kv.1.1 with
    | Some row => if bool_decide (f_field row = field) then p_count kv.2 else 0%N
    | None => 0%N
    end) <$> map_to_list (position_index d)).
Definition summary_of_field (d : db) (field : string) : fsum_row :=
  let vs := (fun kv : N * feature_row => f_value kv.2) <$> field_rows d field in
  FsumRow (N.of_nat (length vs)) (value_min vs) (value_max vs) (field_positions d field).
Definition fields_of (d : db) : gset string :=
  list_to_set ((fun kv : N * feature_row => f_field kv.2) <$> map_to_list (inverted_index d)).
Definition write_field_summary (d : db) : db :=
  set_field_summary (list_to_map ((fun f => (f, summary_of_field d f)) <$> elements (fields_of d))) d.

(** index.py:532-534: [insert into changed_cluster select cluster_id from cluster];
    an IntegrityError when one is already marked. *)
Definition mark_all_clusters (d : db) : res db :=
  if bool_decide (dom (cluster d) ## changed_cluster d)
  then Ok (set_changed_cluster (dom (cluster d) ∪ changed_cluster d) d)
  else Err IntegrityError.

(** The first transaction of [index], index.py:338-534. With no batch at all the
    temporary database has no tables and [create index] fails (index.py:442-448). *)
Definition rebuild (batch_size : nat) (positions : bool) (c : corpus) (s : schedule) : dbm unit :=
  dbind (dstmt (insert_doc_keys (fst <$> c))) (fun _ =>
  dbind (dres (run_batches positions (batches batch_size c) s)) (fun segs =>
  dbind (dstmt (fun d => Ok (zero_index d))) (fun _ =>
  dbind (dres (match segs with [] => Err OperationalError | _ => Ok tt end)) (fun _ =>
  let rows := concat segs.*1 in
  dbind (dstmt (fun d => Ok (set_inverted_index (merge_features rows (inverted_index d)) d))) (fun _ =>
  dbind (dstmt (insert_positions rows)) (fun _ =>
  dbind (dstmt (insert_position_map (concat segs.*2))) (fun _ =>
  dbind (dstmt (fun d => Ok (refresh_docs_counts d))) (fun _ =>
  dbind (dstmt (fun d => Ok (write_field_summary d))) (fun _ =>
  dstmt mark_all_clusters))))))))).

(** index.py:300-556 [index] with the default temporary directory. *)
Definition run_index (batch_size : nat) (positions : bool) (c : corpus) (s : schedule) : M unit := fun cn =>
  let '(cn0, _) := sql_foreign_keys false cn in
  match sql_begin cn0 with
  | (cn1, Err _) => (cn1, Err IndexingError)
  | (cn1, Ok _) =>
      let '(cn3, r) :=
        match pbind (on_db (rebuild batch_size positions c s)) (fun _ =>
              pbind sql_commit (fun _ =>
              pbind sql_begin (fun _ =>
              pbind update_changed_clusters (fun _ => sql_commit)))) cn1 with
        | (cn2, Ok u) => (cn2, Ok u)
        | (cn2, Err e) =>
            match sql_rollback cn2 with
            | (cn3, Ok _) => (cn3, Err e)
            | (cn3, Err e') => (cn3, Err e')
            end
        end in
      let '(cn4, _) := sql_foreign_keys true cn3 in (cn4, r)
  end.

(** ** The dispatch loop, index.py:364-414, 432-433 *)

(** One step: submit a batch; at [workers + 1] uncollected futures wait until some
    are done and collect those. [pick_done] is the arbitrary answer of
    [cf.wait(..., FIRST_COMPLETED)]: which of the uncollected futures are done; at
    least the first of the list if it names none. *)
Record dispatch := Dispatch { submitted : list nat; in_flight : list nat; peak : nat }.

Definition collect (pick_done : nat -> nat -> bool) (step : nat) (l : list nat) : list nat :=
  let rest := filter (fun b => pick_done step b = false) l in
  if length rest =? length l then tail l else rest.

Definition submit (workers : nat) (pick_done : nat -> nat -> bool) (is_last : bool)
    (st : dispatch) (b : nat) : dispatch :=
  let l := in_flight st ++ [b] in
  let st1 := Dispatch (submitted st ++ [b]) l (max (peak st) (length l)) in
  if negb is_last && (workers + 1 <=? length l)
  then Dispatch (submitted st1) (collect pick_done b l) (peak st1)
  else st1.

(** [full] batches dispatched in the loop, then the final one, if any. *)
Definition dispatch_all (workers : nat) (pick_done : nat -> nat -> bool) (full : nat) (final : bool)
    : dispatch :=
  let st := foldl (submit workers pick_done false) (Dispatch [] [] 0) (seq 0 full) in
  if final then submit workers pick_done true st full else st.
