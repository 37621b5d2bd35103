(** PropertiesCopies.v: C125, copies of corpus and index objects. *)
From Verif Require Import Copies SpecConn SampleDb.

(** The objects that a path names, and for tweets a database that the library reads. *)
Definition openable {D T} (schema : D -> tweet_schema) (fs : files D) (o : corpus_object D T) : Prop :=
  co_path o <> "" /\
  (co_class o = Twittersphere -> exists v, schema (fs (co_path o)) = Version v /\ (15 <= v)%Z).

(** A copy works on the same path with the same tokeniser, whatever the original is doing: it
    sees what is committed, and always can be read. It can be copied again. *)
Theorem C125_corpus : forall D T (schema : D -> tweet_schema) fs (o : corpus_object D T), openable schema fs o ->
  exists o', unpickle_corpus schema fs (pickle_corpus o) = Ok (Some o') /\
    co_class o' = co_class o /\ co_path o' = co_path o /\
    (forall later : files D, (read_corpus later o').2 = Some (later (co_path o))) /\
    unpickle_corpus schema fs (pickle_corpus o') = Ok (Some o').
Proof.
  intros D T schema fs [cls path db] [Hp Hv]. cbn in Hp, Hv. unfold unpickle_corpus, pickle_corpus, getstate. cbn.
  destruct cls as [t| |]; cbn.
  - eexists. split; [reflexivity|]. done.
  - rewrite !bool_decide_false by done. eexists. split; [reflexivity|]. cbn. by rewrite bool_decide_false.
  - rewrite !bool_decide_false by done. destruct (Hv eq_refl) as (v & -> & Hl).
    rewrite (proj2 (Z.ltb_ge v 15) Hl). eexists. split; [reflexivity|]. cbn. rewrite bool_decide_false by done.
    destruct (Hv eq_refl) as (v' & -> & Hl'). by rewrite (proj2 (Z.ltb_ge v' 15) Hl').
Qed.
Print Assumptions C125_corpus.

(** A plain text corpus needs not even a name. *)
Theorem C125_plain_text : forall D T (schema : D -> tweet_schema) fs t path db,
  unpickle_corpus schema fs (pickle_corpus (CorpusObject (D := D) (T := T) (PlainText t) path db)) =
  Ok (Some (CorpusObject (D := D) (PlainText t) path None)).
Proof. done. Qed.
Print Assumptions C125_plain_text.

(** A database of tweets that is too old by the time of the copy, or is none, is refused. *)
Theorem C125_tweets_refused : forall D T (schema : D -> tweet_schema) fs (o : corpus_object D T) r,
  co_class o = Twittersphere -> co_path o <> "" ->
  unpickle_corpus schema fs (pickle_corpus o) = r ->
  (schema (fs (co_path o)) = NoMetadata -> r = Err OperationalError) /\
  (schema (fs (co_path o)) = NoVersion -> r = Err ValueError) /\
  (forall v, schema (fs (co_path o)) = Version v -> (v < 15)%Z -> r = Err ValueError).
Proof.
  intros D T schema fs [cls path db] r Hc Hp <-. cbn in Hc, Hp |- *. subst cls.
  unfold unpickle_corpus, pickle_corpus, getstate. cbn. rewrite bool_decide_false by done.
  split; [by intros ->|]. split; [by intros ->|]. intros v -> Hv. by rewrite (proj2 (Z.ltb_lt v 15) Hv).
Qed.
Print Assumptions C125_tweets_refused.

(** What the original sees of its own transaction the copy does not; a closed one can be copied. *)
Theorem C125_private : forall D T (schema : D -> tweet_schema) fs (o : corpus_object D T), openable schema fs o ->
  exists o', unpickle_corpus schema fs (pickle_corpus o) = Ok (Some o') /\
    (forall d, co_db o = Some (Writing d) -> (read_corpus fs o).2 = Some d /\ (read_corpus fs o').2 = Some (fs (co_path o))) /\
    (co_db o <> None -> (read_corpus fs (close_corpus o)).2 = None) /\
    unpickle_corpus schema fs (pickle_corpus (close_corpus o)) = Ok (Some o').
Proof.
  intros D T schema fs o H. destruct (C125_corpus D T schema fs o H) as (o' & H1 & H2 & H3 & H4 & H5).
  exists o'. split; [done|]. split; [|split].
  - intros d Hd. split; [|apply H4]. unfold read_corpus. by rewrite Hd.
  - unfold close_corpus, read_corpus. destruct (co_db o) as [[]|]; done.
  - rewrite <- H1. f_equal. unfold close_corpus, pickle_corpus, getstate. by destruct o as [? ? [?|]].
Qed.
Print Assumptions C125_private.

Lemma reopened f : user_version f = 10%Z -> tables f !! "settings" = Some ["key"; "value"] -> wal f = true ->
  open_file f = (f, Ok (settings f)).
Proof.
  intros Hv Ht Hw. unfold open_file, migrate. assert (set_wal f = f) as -> by (destruct f; cbn in Hw; by subst).
  rewrite Hv. cbn [Z.eqb CURRENT_SCHEMA_VERSION Pos.eqb]. by rewrite bool_decide_true.
Qed.

(** A copy of an index at the current schema version, made at any moment (in [with], in a
    call): the same path and a copy of the corpus; it sees what is committed, is between
    transactions, and changes nothing on disk. *)
Theorem C125_index : forall D T P (schema : D -> tweet_schema) fs uses f (i : index_object (corpus_object D T) P),
  (* the file the index works on *)
  rows f = disk (ix_conn i) -> user_version f = 10%Z -> tables f !! "settings" = Some ["key"; "value"] -> wal f = true ->
  (forall o, ix_corpus i = Some o -> openable schema fs o) ->
  exists i', unpickle_index (P := P) schema fs f uses (pickle_index i) = (f, Ok i') /\
    ix_path i' = ix_path i /\ idle (ix_conn i') /\ cur (ix_conn i') = disk (ix_conn i) /\
    ix_settings i' = settings f /\
    match ix_corpus i with
    | None => ix_corpus i' = None
    | Some o => exists o', ix_corpus i' = Some (Some o') /\ co_class o' = co_class o /\ co_path o' = co_path o /\
        forall later : files D, (read_corpus later o').2 = Some (later (co_path o))
    end.
Proof.
  intros D T P schema fs uses f i Hr Hv Ht Hw Ho.
  pose proof (reopened f Hv Ht Hw) as Hopen.
  unfold unpickle_index, pickle_index. cbn [fst snd]. destruct (ix_corpus i) as [o|]; cbn [fmap option_fmap option_map].
  - destruct (C125_corpus D T schema fs o (Ho o eq_refl)) as (o' & H1 & H2 & H3 & H4 & _).
    rewrite H1. unfold init_index. rewrite Hopen. eexists. split; [reflexivity|]. cbn.
    split; [done|]. split; [by constructor|]. split; [done|]. split; [done|]. by exists o'.
  - unfold init_index. rewrite Hopen. eexists. split; [reflexivity|]. cbn.
    split; [done|]. split; [by constructor|]. done.
Qed.
Print Assumptions C125_index.

(** The copy of an index has neither the pool nor the seed of the original. *)
Theorem C125_seed_not_kept : forall d : db, exists (i : index_object (corpus_object unit unit) nat) f i',
  ix_seed i = Some 1%Z /\
  unpickle_index (P := nat) (fun _ => NoMetadata) (fun _ => tt) f (fun _ => None) (pickle_index i) = (f, Ok i') /\
  disk (ix_conn i) = d /\ rows f = d /\ ix_seed i' = None /\ ix_pool i' = None.
Proof.
  intros d. set (f := File 10 715973853 true {["settings" := ["key"; "value"]]} ∅ ∅ d).
  exists (IndexObject "index.db" (open_index d (fun _ => None)) ∅ None (Some 4) (Some 1%Z)), f.
  assert (open_file f = (f, Ok (settings f))) as Hopen.
  { apply reopened; [reflexivity|by apply lookup_singleton|reflexivity]. }
  eexists. split; [reflexivity|]. split.
  { unfold unpickle_index, pickle_index, init_index. cbn [fst snd ix_corpus ix_path fmap option_fmap option_map].
    rewrite Hopen. reflexivity. }
  split_and!; reflexivity.
Qed.
Print Assumptions C125_seed_not_kept.

(** A StackExchange corpus on a private database (the empty path) has copies without attributes. *)
Theorem C125_no_path : forall D T (schema : D -> tweet_schema) fs db,
  unpickle_corpus schema fs (pickle_corpus (CorpusObject (D := D) (T := T) StackExchange "" db)) = Ok None.
Proof. done. Qed.
Print Assumptions C125_no_path.

(** A corpus in the middle of replacing its documents. *)
Example C125_example : exists o',
  unpickle_corpus (T := nat) (fun _ : list string => NoMetadata) (fun _ => ["old text"])
    (pickle_corpus (CorpusObject (PlainText 3) "texts.db" (Some (Writing ["new text"])))) = Ok (Some o') /\
  co_class o' = PlainText 3 /\ (read_corpus (fun _ => ["old text"]) o').2 = Some ["old text"].
Proof. eexists. split; [reflexivity|]. done. Qed.
