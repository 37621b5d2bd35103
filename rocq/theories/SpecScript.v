(** SpecScript.v: what a model of the words of a text file is. *)
From stdpp Require Import pretty.
From Verif Require Export SpecCommands ClusterOps.

(** The word [w] of the field text is in cluster [x]. *)
Definition word_in_cluster (d : db) (w : string) (x : Z) : Prop :=
  exists f, lookup_feature_id d ("text", VText w) = Ok f /\ assigned d f = Some x.

(** The index [d] holds a model of the words of the documents [m] with at most [n] clusters:
    the words that the tokeniser [tok] sees in at least [least] documents, and no others,
    each in one cluster; every cluster has a word, and its documents are those with one of
    its words. *)
Record models_words (tok : string -> list string) (d : db) (m : gmap N value) (least : Z) (n : Z) : Prop := ModelsWords {
  mw_words : forall w (keys : gset N),
    (forall k, k ∈ keys <-> exists txt, m !! k = Some (VText txt) /\ w ∈ tok txt) ->
    (exists x, word_in_cluster d w x) <-> (least <= Z.of_nat (size keys))%Z;
  mw_only : forall f x, assigned d f = Some x -> exists w, word_in_cluster d w x /\ lookup_feature_id d ("text", VText w) = Ok f;
  mw_once : forall w x y, word_in_cluster d w x -> word_in_cluster d w y -> x = y;
  mw_clusters : forall x, x ∈ cluster_ids d <-> exists w, word_in_cluster d w x;
  mw_count : (Z.of_nat (length (cluster_ids d)) <= n)%Z;
  mw_docs : forall x, x ∈ cluster_ids d -> exists docs, cluster_docs d x = Ok (Some docs) /\
    forall doc, doc ∈ docs <-> exists w k txt, word_in_cluster d w x /\
      doc_key d !! doc = Some (VInt (Z.of_N k)) /\ m !! k = Some (VText txt) /\ w ∈ tok txt }.

(** ** Tables *)

(** The keys of the documents with the word [w]. *)
Definition with_word (tok : string -> list string) (m : gmap N value) (w : string) (keys : gset N) : Prop :=
  forall k, k ∈ keys <-> exists txt, m !! k = Some (VText txt) /\ w ∈ tok txt.

(** The table of clusters: cluster, number of the feature, word and number of documents;
    and how it is written. *)
Record words_listed (tok : string -> list string) (d : db) (m : gmap N value) (entries : list (Z * N * string * N)) : Prop := WordsListed {
  wl_each : forall x f w n, (x, f, w, n) ∈ entries <->
    lookup_feature_id d ("text", VText w) = Ok f /\ assigned d f = Some x /\
    exists keys, with_word tok m w keys /\ n = N.of_nat (size keys);
  wl_once : NoDup ((fun '(_, _, w, _) => w) <$> entries) }.
Definition words_table (entries : list (Z * N * string * N)) : list (list string) :=
  ["cluster_id"; "feature_id"; "field"; "value"; "docs_count"] ::
  ((fun '(x, f, w, n) => [pretty x; pretty f; "text"; w; pretty n]) <$> entries).

(** The text [txt] has a word of cluster [x]. *)
Definition says (tok : string -> list string) (d : db) (txt : string) (x : Z) : Prop :=
  exists w, word_in_cluster d w x /\ w ∈ tok txt.

(** The table of sampled documents: key, cluster and text, and a mark for every cluster of
    which the text has a word. At most [per] documents for each cluster, and all its
    documents if there are fewer; all documents if [per] is not positive. *)
Record docs_sampled (tok : string -> list string) (d : db) (m : gmap N value) (per : Z)
    (clusters : list Z) (entries : list (N * Z * string)) (rows : list (list string)) : Prop := DocsSampled {
  ds_docs : forall k x txt, (k, x, txt) ∈ entries -> m !! k = Some (VText txt) /\ says tok d txt x;
  ds_once : NoDup entries.*1.*1;
  ds_all : (per <= 0)%Z -> forall k txt x, m !! k = Some (VText txt) -> says tok d txt x -> k ∈ entries.*1.*1;
  ds_some : (0 < per)%Z -> forall x, x ∈ cluster_ids d ->
    length (filter (fun e => e.1.2 = x) entries) <= Z.to_nat per /\
    (length (filter (fun e => e.1.2 = x) entries) < Z.to_nat per ->
     forall k txt, m !! k = Some (VText txt) -> says tok d txt x -> k ∈ entries.*1.*1);
  ds_clusters : StronglySorted Z.le clusters /\ NoDup clusters /\
    forall y, y ∈ clusters <-> exists k x txt, (k, x, txt) ∈ entries /\ says tok d txt y;
  ds_rows : Forall2 (fun '(k, x, txt) row => exists marks, row = [pretty (Z.of_N k); pretty x; txt] ++ marks /\
      Forall2 (fun y mark => mark = "1" /\ says tok d txt y \/ mark = "" /\ ~ says tok d txt y) clusters marks)
    entries rows }.
Definition sampled_table (clusters : list Z) (rows : list (list string)) : list (list string) :=
  ("doc_key" :: "sampled_cluster" :: "text" :: ((fun y => ("cluster_" ++ pretty y)%string) <$> clusters)) :: rows.
