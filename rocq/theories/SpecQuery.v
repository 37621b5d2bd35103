(** SpecQuery.v: what pivoting, intersecting, sampling and the co-occurrence graph are
    supposed to give, from the stored tables and plain sets only. *)
From Verif Require Export SpecRefine.

(** What is assumed of floating point division of two counts: it is a rounding of the
    exact quotient which keeps the order and 0. *)
Definition rounding (rnd : Qc -> Qc) : Prop :=
  (forall a b : Qc, (a <= b)%Qc -> (rnd a <= rnd b)%Qc) /\ rnd (of_nat 0) = of_nat 0.

(** Jaccard similarity of two sets of documents: common documents / all documents. *)
Definition similarity (rnd : Qc -> Qc) (q x : gset N) : Qc :=
  rnd (of_nat (size (q ∩ x)) / of_nat (size (q ∪ x)))%Qc.

(** The documents of a cluster: those of its features. *)
Definition cluster_documents (d : db) (c : Z) : gset N := covered (feature_docs d) (members d c).

(** The features of a cluster with a positive similarity to the query, and their order:
    by similarity, then by feature id. *)
Definition scored_features (rnd : Qc -> Qc) (d : db) (q : gset N) (c : Z) : list (Qc * N) :=
  filter (fun s => (of_nat 0 < s.1)%Qc)
    ((fun f => (similarity rnd q (feature_docs d f), f)) <$> elements (members d c)).
Definition score_le (a b : Qc * N) : Prop := (a.1 < b.1)%Qc \/ (a.1 = b.1 /\ (a.2 <= b.2)%N).

(** The clusters a call with an optional selection looks at: no selection and an empty
    one both mean all clusters. *)
Definition requested (d : db) (sel : option (list Z)) : list Z :=
  match sel with None | Some [] => elements (dom (cluster d)) | Some l => l end.

(** The values at the positions at most [w] away from position [i] of a sequence. *)
Definition around {A} (l : list A) (w i : nat) : list A :=
  omap (fun j => l !! j) (filter (fun j => i <= j + w /\ j <= i + w) (seq 0 (length l))).
(** The positions where a sequence has the value [v]. *)
Definition positions_of {A} `{EqDecision A} (l : list A) (v : A) : list nat :=
  filter (fun i => l !! i = Some v) (seq 0 (length l)).
