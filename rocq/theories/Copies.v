(** Copies.v: corpus and index objects sent to worker processes or saved with pickle
    (hyperreal/corpus.py:114-163, 812-833; hyperreal/index.py:137-194, 235-239). *)
From Verif Require Export Migrate.

(** The contents of the committed files, by path. [D]: the contents of a corpus database. *)
Definition files (D : Type) := string -> D.
(** The connection of a corpus object: the contents it alone sees, while it is inside a
    transaction; or closed. *)
Inductive corpus_conn (D : Type) := Between | Writing (d : D) | Closed.
Arguments Between {D}.
Arguments Writing {D} d.
Arguments Closed {D}.
(** corpus.py:150, 235, 769. [T]: tokenisers. *)
Inductive corpus_class (T : Type) := PlainText (tokeniser : T) | StackExchange | Twittersphere.
Arguments PlainText {T} tokeniser.
Arguments StackExchange {T}.
Arguments Twittersphere {T}.
(** An object: its class with the attribute [tokeniser], [db_path], [_db]. *)
Record corpus_object (D T : Type) := CorpusObject {
  co_class : corpus_class T; co_path : string; co_db : option (corpus_conn D) }.
Arguments CorpusObject {D T} co_class co_path co_db.
Arguments co_class {D T} c.
Arguments co_path {D T} c.
Arguments co_db {D T} c.

(** corpus.py:132-137 [db] and a read on it: the connection is made at the first use.
    [None]: sqlite3.ProgrammingError, the connection is closed. *)
Definition read_corpus {D T} (fs : files D) (o : corpus_object D T) : corpus_object D T * option D :=
  match co_db o with
  | None => (CorpusObject (co_class o) (co_path o) (Some Between), Some (fs (co_path o)))
  | Some Between => (o, Some (fs (co_path o)))
  | Some (Writing d) => (o, Some d)
  | Some Closed => (o, None)
  end.
(** corpus.py:145-147 [close]. *)
Definition close_corpus {D T} (o : corpus_object D T) : corpus_object D T :=
  match co_db o with
  | None => o
  | Some _ => CorpusObject (co_class o) (co_path o) (Some Closed)
  end.

(** The contents of a Twittersphere database that [__init__] reads: no table metadata, no
    row with the schema version, or the version. *)
Inductive tweet_schema := NoMetadata | NoVersion | Version (v : Z).

(** corpus.py:115-130, 154-157, 814-833 [__init__], of each class. Simplification: a schema
    version that is not a number is not modelled. *)
Definition init_corpus {D T} (schema : D -> tweet_schema) (fs : files D) (cls : corpus_class T) (path : string)
    : res (corpus_object D T) :=
  match cls with
  | PlainText _ | StackExchange => Ok (CorpusObject cls path None)
  | Twittersphere =>
      match schema (fs path) with
      | NoMetadata => Err OperationalError
      | NoVersion => Err ValueError
      | Version v => if (v <? 15)%Z then Err ValueError else Ok (CorpusObject cls path (Some Between))
      end
  end.

(** What [__getstate__] returns: corpus.py:139-140, 159-160. *)
Inductive corpus_state (T : Type) := PathOnly (path : string) | PathAndTokeniser (path : string) (tokeniser : T).
Arguments PathOnly {T} path.
Arguments PathAndTokeniser {T} path tokeniser.
Definition getstate {D T} (o : corpus_object D T) : corpus_state T :=
  match co_class o with
  | PlainText t => PathAndTokeniser (co_path o) t
  | _ => PathOnly (co_path o)
  end.
(** A pickled object is its class with the state. Unpickling makes an object without
    attributes and calls [__setstate__] (corpus.py:142-143, 162-163), unless the state counts
    as false, as an empty path does: pickle does not save it. [Ok None]: an object without
    attributes. The class of plain text is told from the state. *)
Definition unpickle_corpus {D T} (schema : D -> tweet_schema) (fs : files D) (p : corpus_class T * corpus_state T)
    : res (option (corpus_object D T)) :=
  match p.2 with
  | PathAndTokeniser path t =>
      match init_corpus schema fs (PlainText t) path with Ok o => Ok (Some o) | Err e => Err e end
  | PathOnly path =>
      if bool_decide (path = "") then Ok None
      else match init_corpus schema fs p.1 path with Ok o => Ok (Some o) | Err e => Err e end
  end.
Definition pickle_corpus {D T} (o : corpus_object D T) : corpus_class T * corpus_state T :=
  (co_class o, getstate o).

(** index.py:137-194: an index object: [db_path], the connection with the transaction state,
    the settings, the corpus; the worker pool and the seed it was made with, if any. *)
Record index_object (C P : Type) := IndexObject {
  ix_path : string; ix_conn : conn; ix_settings : gmap string Z; ix_corpus : option C;
  ix_pool : option P; ix_seed : option Z }.
Arguments IndexObject {C P} ix_path ix_conn ix_settings ix_corpus ix_pool ix_seed.
Arguments ix_path {C P} i.
Arguments ix_conn {C P} i.
Arguments ix_settings {C P} i.
Arguments ix_corpus {C P} i.
Arguments ix_pool {C P} i.
Arguments ix_seed {C P} i.
(** index.py:137-194 [__init__], with the outcomes [uses] of the uses of the pool; the file
    left on disk too. *)
Definition init_index {C P} (f : file) (path : string) (corpus : option C) (p : option P) (seed : option Z)
    (uses : nat -> option nat) : file * res (index_object C P) :=
  match open_file f with
  | (f', Ok s) => (f', Ok (IndexObject path (open_index (rows f') uses) s corpus p seed))
  | (f', Err e) => (f', Err e)
  end.
(** index.py:235-239, with the corpus as its own copy made from the same pickle. *)
Definition pickle_index {D T P} (i : index_object (corpus_object D T) P)
    : string * option (corpus_class T * corpus_state T) :=
  (ix_path i, pickle_corpus <$> ix_corpus i).
Definition unpickle_index {D T P} (schema : D -> tweet_schema) (fs : files D) (f : file) (uses : nat -> option nat)
    (p : string * option (corpus_class T * corpus_state T))
    : file * res (index_object (option (corpus_object D T)) P) :=
  match p.2 with
  | None => init_index f p.1 None None None uses
  | Some c =>
      match unpickle_corpus schema fs c with
      | Ok o => init_index f p.1 (Some o) None None uses
      | Err e => (f, Err e)
      end
  end.
