(** SpecCommands.v: what the files on disk are, for a user of the command line. *)
From Verif Require Export Commands SpecMigrate SpecIndexing SpecCluster SpecCsv SpecCorpus Lookup.

(** An index of the current version is stored at [path]; [d] are its rows. *)
Definition index_at (fs : filesystem) (path : string) (d : db) : Prop :=
  exists f docs, fs !! path = Some (DbFile f docs) /\ is_current f /\ rows f = d.

(** What holds of every index the commands have written. *)
Definition sound_index (d : db) : Prop := usable d /\ features_unique (inverted_index d).

(** There is nothing at [path]. *)
Definition absent (fs : filesystem) (path : string) : Prop :=
  fs !! path = None \/ fs !! path = Some (PlainFile []).

(** The documents [m] (by key) are stored at [path]. *)
Definition documents_at (fs : filesystem) (path : string) (m : gmap N value) : Prop :=
  exists f, fs !! path = Some (DbFile f m) /\ tables f !! "doc" = Some ["doc_id"; "text"].

(** The index [d] is about the documents [m]: it knows their keys, each once, and a search
    for a word finds exactly the documents in which the tokeniser [tok] sees it. *)
Definition is_index_of (tok : string -> list string) (d : db) (m : gmap N value) : Prop :=
  (forall k, is_Some (m !! k) <-> exists doc, doc_key d !! doc = Some (VInt (Z.of_N k))) /\
  (forall doc doc' k, doc_key d !! doc = Some k -> doc_key d !! doc' = Some k -> doc = doc') /\
  forall w, exists docs, getitem d (KFeature ("text", VText w)) = Some docs /\
    forall doc, doc ∈ docs <->
      exists k txt, doc_key d !! doc = Some (VInt (Z.of_N k)) /\ m !! k = Some (VText txt) /\ w ∈ tok txt.

(** The output file of a command, and the database it works on. *)
Definition output_of (c : command) : option string :=
  match c with
  | SampleDocs _ _ output _ _ _ | ExportClusters _ output _ => Some output
  | _ => None
  end.
Definition database_of (c : command) : string :=
  match c with
  | Create _ corpus _ => corpus
  | BuildIndex _ index _ _ _ _ | Model index _ _ _ _ _ | SampleDocs _ index _ _ _ _
  | ExportClusters index _ _ | ServeRequest index _ => index
  end.

(** The worker processes finish every batch, in any order (a batch may fail), and are
    there for the housekeeping. *)
Definition orderly (c : command) : Prop :=
  match c with
  | BuildIndex _ _ _ _ sched p => (forall n, complete (sched n) n) /\ p 0 = None
  | _ => True
  end.

(** The same, but the worker processes may be gone when the housekeeping needs them. *)
Definition workers_finish (c : command) : Prop :=
  match c with BuildIndex _ _ _ _ sched _ => forall n, complete (sched n) n | _ => True end.

(** [c] is an index command for [path]. *)
Definition indexes (c : command) (path : string) : Prop :=
  match c with BuildIndex _ index _ _ _ _ => index = path | _ => False end.
#[global] Instance indexes_dec c path : Decision (indexes c path).
Proof. destruct c; cbn; apply _. Defined.

(** [path] does not hold a damaged index: if there is a database, it is an index all of
    whose parts fit together, or none at all (a corpus, say). *)
Definition healthy (fs : filesystem) (path : string) : Prop :=
  forall f docs, fs !! path = Some (DbFile f docs) ->
    (is_current f /\ sound_index (rows f)) \/ (user_version f = 0%Z /\ rows f = empty_db).
