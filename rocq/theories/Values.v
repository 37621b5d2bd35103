(** Values.v: what a corpus may list as values, how the worker groups them and how sqlite3
    stores them (hyperreal/index.py:244-268, 2071-2114, 2161-2183; db_utilities.py:14-37).
    Indexing.v only knows whole numbers and texts; here are the other types. *)
From Verif Require Export Dates Indexing Lookup.

(** A value listed by [corpus.index]: Python's bool, int, str, date, datetime (without an
    offset) or another hashable object. Not modelled: floats and bytes. *)
Inductive pvalue :=
  | PBool (b : bool) | PInt (z : Z) | PText (s : string)
  | PDate (year month day : N) | PDatetime (t : datetime) | PObject (n : N).
#[global] Instance datetime_eq_dec : EqDecision datetime.
Proof. solve_decision. Defined.
#[global] Instance datetime_countable : Countable datetime.
Proof.
  refine (inj_countable' (fun t => (dt_year t, dt_month t, dt_day t, dt_hour t, dt_minute t, dt_second t, dt_micro t))
    (fun '(y, m, d, h, mi, s, u) => DateTime y m d h mi s u) _). by intros [].
Defined.
#[global] Instance pvalue_eq_dec : EqDecision pvalue.
Proof. solve_decision. Defined.
#[global] Instance pvalue_countable : Countable pvalue.
Proof.
  refine (inj_countable'
    (fun v => match v with
       | PBool b => inl (inl b) | PInt z => inl (inr (inl z)) | PText s => inl (inr (inr s))
       | PDate y m d => inr (inl (y, m, d)) | PDatetime t => inr (inr (inl t)) | PObject n => inr (inr (inr n)) end)
    (fun x => match x with
       | inl (inl b) => PBool b | inl (inr (inl z)) => PInt z | inl (inr (inr s)) => PText s
       | inr (inl (y, m, d)) => PDate y m d | inr (inr (inl t)) => PDatetime t | inr (inr (inr n)) => PObject n end) _).
  by intros [].
Defined.

(** The key under which a value is kept in a dict or set, index.py:2098, 2110-2114: [True] and
    [1] are the same key. (Which of two equal objects is kept makes no difference below.) *)
Definition dict_key (v : pvalue) : pvalue :=
  match v with PBool b => PInt (if b then 1 else 0)%Z | _ => v end.

(** What sqlite3 stores for a Python value given as a parameter (index.py:2161-2183, 253-258):
    bools and whole numbers of 64 bits as numbers, texts as texts, dates and datetimes as
    texts (its default adapters); it raises OverflowError for other numbers and
    InterfaceError for other objects (both [ValueError] here). *)
Definition adapt (v : pvalue) : res value :=
  match v with
  | PBool b => Ok (VInt (if b then 1 else 0)%Z)
  | PInt z => if ((- 2 ^ 63 <=? z) && (z <? 2 ^ 63))%Z then Ok (VInt z) else Err ValueError
  | PText s => Ok (VText s)
  | PDate y m d => Ok (VText (padded 4 y ++ "-" ++ padded 2 m ++ "-" ++ padded 2 d))
  | PDatetime t => Ok (VText (isoformat " " t))
  | PObject _ => Err ValueError
  end.

(** What [corpus.index] gives for a field, for a document; a corpus. *)
Inductive pfield := PSeq (vs : list (option pvalue)) | PColl (vs : list (option pvalue)).
Definition pfield_values (x : pfield) : list (option pvalue) := match x with PSeq vs | PColl vs => vs end.
Notation pfeatures := (list (string * pfield)).
Notation pcorpus := (list (value * res pfeatures)).

(** The corpus with every value replaced. *)
Definition map_field (g : pvalue -> value) (x : pfield) : field_values :=
  match x with PSeq vs => Seq ((fmap (M := option) g) <$> vs) | PColl vs => Coll ((fmap (M := option) g) <$> vs) end.
Definition map_doc (g : pvalue -> value) (r : res pfeatures) : res features :=
  rmap (fmap (M := list) (fun fv => (fv.1, map_field g fv.2))) r.
Definition map_corpus (g : pvalue -> value) (c : pcorpus) : corpus := (fun kr => (kr.1, map_doc g kr.2)) <$> c.

(** The worker uses the values as keys of its dictionaries only (index.py:2071-2114), until it
    writes the rows. So [index_docs] is run on a number for every key, and the keys are
    looked up when the rows are written (index.py:2161-2183). A parameter that sqlite3 does not
    accept makes the worker raise; its transaction is then lost. *)
Definition code (v : pvalue) : value := VInt (Z.pos (encode (dict_key v))).
Definition decoded (v : value) : pvalue :=
  match v with VInt (Z.pos p) => default (PObject 0) (decode p) | _ => PObject 0 end.
Definition write_row (r : seg_row) : res seg_row :=
  rmap (fun v => SegRow (s_field r) v (s_docs_count r) (s_docs r) (s_position_count r) (s_positions r) (s_first r))
    (adapt (decoded (s_value r))).
Definition index_docs_typed (positions : bool) (b : batch) : res segment :=
  rbind (index_docs positions b) (fun seg => rmap (fun rows => (rows, seg.2)) (rtraverse write_row seg.1)).

(** [Index.index] with this worker, index.py:300-556; compare [run_batches], [rebuild] and
    [run_index]. *)
Definition run_batches_typed (positions : bool) (bs : list batch) (s : schedule) : res (list segment) :=
  rtraverse (fun i =>
    match fault s i with
    | Some e => Err e
    | None => match bs !! i with Some b => index_docs_typed positions b | None => Err IndexError end
    end) (finish_order s).
Definition rebuild_with (keys : list value) (work : res (list segment)) : dbm unit :=
  dbind (dstmt (insert_doc_keys keys)) (fun _ =>
  dbind (dres work) (fun segs =>
  dbind (dstmt (fun d => Ok (zero_index d))) (fun _ =>
  dbind (dres (match segs with [] => Err OperationalError | _ => Ok tt end)) (fun _ =>
  let rows := concat segs.*1 in
  dbind (dstmt (fun d => Ok (set_inverted_index (merge_features rows (inverted_index d)) d))) (fun _ =>
  dbind (dstmt (insert_positions rows)) (fun _ =>
  dbind (dstmt (insert_position_map (concat segs.*2))) (fun _ =>
  dbind (dstmt (fun d => Ok (refresh_docs_counts d))) (fun _ =>
  dbind (dstmt (fun d => Ok (write_field_summary d))) (fun _ =>
  dstmt mark_all_clusters))))))))).
Definition run_index_with (keys : list value) (work : res (list segment)) : M unit := fun cn =>
  let '(cn0, _) := sql_foreign_keys false cn in
  match sql_begin cn0 with
  | (cn1, Err _) => (cn1, Err IndexingError)
  | (cn1, Ok _) =>
      let '(cn3, r) :=
        match pbind (on_db (rebuild_with keys work)) (fun _ =>
              pbind sql_commit (fun _ =>
              pbind sql_begin (fun _ =>
              pbind update_changed_clusters (fun _ => sql_commit)))) cn1 with
        | (cn2, Ok u) => (cn2, Ok u)
        | (cn2, Err e) =>
            match sql_rollback cn2 with
            | (cn3, Ok _) => (cn3, Err e)
            | (cn3, Err e') => (cn3, Err e')
            end
        end in
      let '(cn4, _) := sql_foreign_keys true cn3 in (cn4, r)
  end.
Definition run_index_typed (batch_size : nat) (positions : bool) (c : pcorpus) (s : schedule) : M unit :=
  run_index_with (fst <$> c) (run_batches_typed positions (batches batch_size (map_corpus code c)) s).

(** index.py:244-268 [__getitem__] with a field and a value of any type; index.py:285-298
    [lookup_feature_id]. *)
Definition getitem_typed (d : db) (field : string) (v : pvalue) : res (option bitmap) :=
  rmap (fun w => getitem d (KFeature (field, w))) (adapt v).
Definition lookup_feature_id_typed (d : db) (field : string) (v : pvalue) : res N :=
  rbind (adapt v) (fun w => lookup_feature_id d (field, w)).
