(** SpecClients.v: which transactions re-index and which bring the summaries up to date. *)
From Verif Require Export Clients SpecConcurrent SpecIndexing.

(** The transaction replaced the index by that of the corpus [cp]. *)
Definition installed (e : entry outcome) (cp : corpus) : Prop :=
  exists bsz pos s torn, e_txn e = merge_txn bsz pos cp s torn /\
    complete s (length (batches bsz cp)) /\ e_result e = Ok Finished.

(** A call that changes the clustering, or the second part of [index], that returned. *)
Definition updated (e : entry outcome) : Prop :=
  ((exists w p torn, e_txn e = write_txn w p torn) \/ (exists p torn, e_txn e = refresh_txn p torn)) /\
  e_result e = Ok Finished.

(** The index holds exactly what the corpus says about each field and value. *)
Definition index_of (d : db) (cp : corpus) : Prop :=
  forall field v, exists docs, getitem d (KFeature (field, v)) = Some docs /\
    forall doc, doc ∈ docs <-> doc_matches cp field v doc.
