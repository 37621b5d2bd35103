(** Lookup.v: lookups of features and documents (hyperreal/index.py:244-298,
    558-636). *)
From Verif Require Export Indexing.

(** What [idx[...]] accepts. *)
Inductive item_key :=
| KId (f : N) | KFeature (k : string * value) | KSlice (a b : string * value).

(** index.py:244-268 [__getitem__]; [None] is Python's None, which falls out of the
    function for a slice. *)
Definition getitem (d : db) (k : item_key) : option bitmap :=
  match k with
  | KId f => Some (match inverted_index d !! f with Some row => f_doc_ids row | None => ∅ end)
  | KFeature k =>
      Some (match find_feature (inverted_index d) k with
            | Some f => match inverted_index d !! f with Some row => f_doc_ids row | None => ∅ end
            | None => ∅
            end)
  | KSlice _ _ => None
  end.

(** index.py:270-283 [lookup_feature]. *)
Definition lookup_feature (d : db) (f : N) : res (string * value) :=
  match inverted_index d !! f with
  | Some row => Ok (f_field row, f_value row)
  | None => Err KeyError
  end.

(** index.py:285-298 [lookup_feature_id]. *)
Definition lookup_feature_id (d : db) (k : string * value) : res N :=
  match find_feature (inverted_index d) k with Some f => Ok f | None => Err KeyError end.

(** index.py:558-577 [convert_query_to_keys]: a dict from key to doc_id. *)
Definition convert_query_to_keys (d : db) (query : bitmap) : res (gmap value N) :=
  rfold (fun m doc =>
    match doc_key d !! doc with
    | Some k => Ok (<[k := doc]> m)
    | None => Err IndexError
    end) (bm_list query) ∅.

(** index.py:631-636 [docs]: [corpus.docs(doc_keys=sorted(keys))] yields the documents
    of those keys in that order (see Indexing.v on the corpus). Simplification:
    [sorted] uses the order of [value_leb]; Python raises for keys of mixed type. *)
Definition corpus_lookup (c : corpus) (k : value) : option (res features) :=
  snd <$> List.find (fun kv => bool_decide (kv.1 = k)) c.
Definition docs_query (d : db) (c : corpus) (query : bitmap)
    : res (list (N * value * option (res features))) :=
  rbind (convert_query_to_keys d query) (fun m =>
  Ok (omap (fun k => (fun doc => (doc, k, corpus_lookup c k)) <$> m !! k)
           (merge_sort value_le (map_to_list m).*1))).
