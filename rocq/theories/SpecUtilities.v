(** SpecUtilities.v: what the helpers of utilities.py are supposed to compute,
    stated without reference to how they compute it. *)
From stdpp Require Export prelude gmap numbers list fin_sets.

(** How many of the given sets contain [d]. *)
Definition count_in (sets : list (gset N)) (d : N) : N :=
  N.of_nat (length (filter (fun b => d ∈ b) sets)).

(** The number written in binary by the layers that contain [d] (layer 0 is the
    least significant). *)
Fixpoint binary_value (layers : list (gset N)) (d : N) : N :=
  match layers with
  | [] => 0
  | b :: r => (if decide (d ∈ b) then 1 else 0) + 2 * binary_value r d
  end%N.

(** [d] is among the best [k] of [m] by [w], ties included: fewer than [k]
    members of [m] weigh strictly more. *)
Definition top_ranked (w : N -> N) (m : gset N) (k : nat) : gset N :=
  filter (fun d => size (filter (fun d' => (w d < w d')%N) m) < k) m.

(** A document boundary set splits positions into documents: [p] and [q] are in
    the same document if no boundary lies in between. *)
Definition same_document (boundaries : gset N) (p q : N) : Prop :=
  forall b, b ∈ boundaries -> (b <= p <-> b <= q)%N.

(** [p] and [q] are at most [w] apart. *)
Definition within (w p q : N) : Prop := (p <= q + w /\ q <= p + w)%N.

(** [q] is the first boundary after position [p]: the start of the following document. *)
Definition next_document_start (boundaries : gset N) (p q : N) : Prop :=
  q ∈ boundaries /\ (p < q)%N /\ forall b, b ∈ boundaries -> (b <= p \/ q <= b)%N.

(** Every position lies in a delimited document: a boundary at or before it and
    one after it. *)
Definition delimited (boundaries positions : gset N) : Prop :=
  forall p, p ∈ positions ->
    (exists lo, lo ∈ boundaries /\ (lo <= p)%N) /\ (exists hi, hi ∈ boundaries /\ (p < hi)%N).
