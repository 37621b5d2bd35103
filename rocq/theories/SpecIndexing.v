(** SpecIndexing.v: what indexing a corpus means. *)
From Verif Require Export Indexing Lookup SpecConn.

(** The document lists [v] (not None) under [field]. *)
Definition doc_has (fs : features) (field : string) (v : value) : Prop :=
  exists fv, (field, fv) ∈ fs /\ Some v ∈ values_of fv.

(** Document number [doc] of the corpus lists [v] under [field]. *)
Definition doc_matches (c : corpus) (field : string) (v : value) (doc : N) : Prop :=
  exists key fs, c !! N.to_nat doc = Some (key, Ok fs) /\ doc_has fs field v.

(** A worker pool that finishes every one of [n] batches, in some order. *)
Definition complete (s : schedule) (n : nat) : Prop := finish_order s ≡ₚ seq 0 n.

(** No two features have the same field and value. *)
Definition features_unique (ii : gmap N feature_row) : Prop :=
  forall f g rf rg, ii !! f = Some rf -> ii !! g = Some rg ->
    f_field rf = f_field rg -> f_value rf = f_value rg -> f = g.

(** [corpus.index] gives dictionaries: one entry per field. *)
Definition dicts (c : corpus) : Prop :=
  forall k fs, (k, Ok fs) ∈ c -> NoDup fs.*1.

(** Document number [doc] lists the non-empty sequence [vs] under field [F]. *)
Definition doc_sequence (c : corpus) (F : string) (doc : N) (vs : list value) : Prop :=
  exists key fs, c !! N.to_nat doc = Some (key, Ok fs) /\ (F, Seq (Some <$> vs)) ∈ fs /\ vs ≠ [].

(** The positional index puts value [v] of field [F] at position [p] of the
    partition starting at document [first]. *)
Definition holds_position (d : db) (F : string) (first : N) (v : value) (p : N) : Prop :=
  exists f row, lookup_feature_id d (F, v) = Ok f /\ position_index d !! (f, first) = Some row /\
    p ∈ p_positions row.

(** One partition of a field encodes the sequences of its documents: the i-th
    document's sequence starts at the i-th boundary and ends at the next one. *)
Record partition_lossless (c : corpus) (d : db) (F : string) (first : N) (pm : posmap_row) : Prop := {
  pl_docs : forall doc, doc ∈ pm_doc_ids pm <->
    (first <= doc <= pm_last_doc_id pm)%N /\ exists vs, doc_sequence c F doc vs;
  pl_docs_count : pm_docs_count pm = N.of_nat (size (pm_doc_ids pm));
  pl_boundaries : size (pm_boundaries pm) = S (size (pm_doc_ids pm)) /\ 0%N ∈ pm_boundaries pm;
  pl_sequence : forall i doc vs, bm_list (pm_doc_ids pm) !! i = Some doc -> doc_sequence c F doc vs ->
    exists start stop, bm_list (pm_boundaries pm) !! i = Some start /\
      bm_list (pm_boundaries pm) !! S i = Some stop /\ stop = (start + N.of_nat (length vs))%N /\
      forall j v, j < length vs ->
        (holds_position d F first v (start + N.of_nat j) <-> vs !! j = Some v);
  pl_positions : forall v p, holds_position d F first v p ->
    exists i doc vs start, bm_list (pm_doc_ids pm) !! i = Some doc /\ doc_sequence c F doc vs /\
      bm_list (pm_boundaries pm) !! i = Some start /\ (start <= p < start + N.of_nat (length vs))%N }.

(** The connection is free, the database on disk is sound, its features distinct. *)
Definition index_ready (cn : conn) : Prop :=
  SpecConn.idle cn /\ SpecCluster.usable (disk cn) /\ features_unique (inverted_index (disk cn)).

(** Documents the indexing code accepts: [corpus.index] did not raise and, with
    positions, no sequence contains None. *)
Definition well_formed (positions : bool) (c : corpus) : Prop :=
  c ≠ [] /\ NoDup (fst <$> c) /\
  forall k r, (k, r) ∈ c -> exists fs, r = Ok fs /\
    (positions = true -> forall field vs, (field, Seq vs) ∈ fs -> None ∉ vs).

(** Some value is listed under [field] by some document. *)
Definition occurs (c : corpus) (field : string) (v : value) : Prop := exists doc, doc_matches c field v doc.
(** The index knows the feature, whether or not any document has it. *)
Definition known (d : db) (field : string) (v : value) : Prop := exists f, lookup_feature d f = Ok (field, v).
(** The number of stored positions of a field. *)
Definition stored_positions (d : db) (field : string) : nat :=
  sum_list_with (fun kv => size (p_positions kv.2))
    (filter (fun kv => f_field <$> inverted_index d !! kv.1.1 = Some field) (map_to_list (position_index d))).
