(** Reports.v: what is shown or written of samples of documents: sampled windows and
    concordances (hyperreal/index.py:638-722), sampled tables of passages
    (index.py:746-789), the command that exports a sample (hyperreal/cli.py:26-51). *)
From Verif Require Export Cli Migrate.

(** index.py:653-654, 798-799, 814-815: [if random_sample_size is not None]. *)
Definition sampled (query : bitmap) (sample : option Z) (g : rng) : res bitmap :=
  match sample with None => Ok query | Some k => (sample_bitmap query k g).1 end.

(** index.py:638-693 [extract_matching_feature_windows] with its sampling. *)
Definition sampled_feature_windows (d : db) (c : corpus) (query : bitmap) (refs : list feature_ref)
    (w : nat) (sample : option Z) (g : rng)
    : res (list (value * N * list (string * gmap value (list (list (option value)))))) :=
  rbind (sampled query sample g) (fun q => feature_windows d c q refs w).

(** index.py:716-718: [join_character.join(w for w in window if w is not None)]; an
    integer raises TypeError. *)
Definition join_window (sep : string) (window : list (option value)) : res string :=
  rmap (String.concat sep)
    (rtraverse (fun v => match v with VText s => Ok s | VInt _ => Err TypeError end) (omap id window)).

(** index.py:695-722 [concordances]. Simplification: the dict of the values of one field is
    a finite map. *)
Definition concordance_table (sep : string) (d : db) (c : corpus) (query : bitmap) (refs : list feature_ref)
    (w : nat) (sample : option Z) (g : rng)
    : res (list (value * N * list (string * gmap value (list string)))) :=
  rbind (sampled_feature_windows d c query refs w sample g) (rtraverse (fun '(key, doc, fields) =>
    rmap (fun l => (key, doc, l)) (rtraverse (fun '(field, m) =>
      rmap (fun l => (field, list_to_map l)) (rtraverse (fun '(v, ws) =>
        rmap (fun l => (v, l)) (rtraverse (join_window sep) ws)) (map_to_list m))) fields))).

(** index.py:760-768: the [k] greatest of the pairs (random number, document id): any [k]
    documents, in any order; all of them, in any order, when there are fewer. Simplification:
    the random numbers are not modelled, only the choice they make. [heapq.nlargest] of a
    negative number is empty. *)
Definition sample_passages (scored : list (N * list passage)) (k : Z) (g : rng) : list (N * list passage) :=
  (pick (Z.to_nat k) scored g).1.

(** index.py:746-789 [render_passages_table]. *)
Definition sampled_passages_table (arrival : list nat) (d : db) (c : corpus) (overhang batch_size : nat)
    (sample : option Z) (g : rng) (scored : list (N * list passage))
    : res (list (N * value * gmap string shown)) :=
  render_passages_table arrival d c overhang batch_size
    (match sample with None => scored | Some k => sample_passages scored k g end).

(** cli.py:26-51 [make_csv_exporter]: the index file must exist (click), [render] and
    [fields] are those of the corpus. *)
Definition cli_sample (f : file) (render : renderer) (fields : list string) (per : Z) (g : rng)
    : res (list column * list (list cell)) :=
  if (application_id f =? MAGIC_APPLICATION_ID)%Z then
    match open_file f with
    | (_, Err e) => Err e
    | (f1, Ok _) =>
        rbind (structured_doc_sample (rows f1) per None g) (fun '(samples, labels) =>
        export_document_sample (rows f1) render fields samples labels)
    end
  else Err ValueError.
