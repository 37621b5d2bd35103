(** PropertiesUtilities.v: C01-C05 (statements only). *)
From Verif Require Import Base Utilities SpecUtilities SpecDatetime UtilitiesProofs BitsliceProofs.

(** C01: for every list of bitmaps, the result counts, for every document, in how
    many bitmaps it occurs: the matching set is the union, and layer [i] holds
    exactly the documents whose count has bit [i] set; the last layer is in use, unless
    it is the only one. *)
Theorem C01_bitslice_counts : forall (bitmaps : list (gset N)) m layers,
  compute_bitslice bitmaps = (m, layers) ->
  (forall d, d ∈ m <-> exists b, b ∈ bitmaps /\ d ∈ b) /\
  (forall d i, d ∈ default ∅ (layers !! i) <-> N.testbit (count_in bitmaps d) (N.of_nat i) = true) /\
  exists top, last layers = Some top /\ (length layers = 1 \/ top ≠ ∅).
Proof. exact bitslice_exact. Qed.
Print Assumptions C01_bitslice_counts.

Example C01_example :
  compute_bitslice [{[1;2]}; {[2;3]}; {[2;5]}]%N = ({[1;2;3;5]}, [{[1;2;3;5]}; {[2]}])%N.
Proof. by_computation. Qed.

(** C02: the documents selected by [bstm] on the bitslice of any list of bitmaps
    are exactly those with fewer than [k] better documents (ties kept). *)
Theorem C02_top_k : forall (bitmaps : list (gset N)) (k : nat),
  0 < k ->
  let '(m, layers) := compute_bitslice bitmaps in
  bstm m layers k = top_ranked (count_in bitmaps) m k.
Proof. exact bstm_counts. Qed.
Print Assumptions C02_top_k.

(** ... and on any bitslice at all, reading the layers as a binary number; the
    result has at least [k] members whenever that many match. *)
Theorem C02_top_k_any_bitslice : forall (m : gset N) (layers : list (gset N)) (k : nat),
  0 < k ->
  bstm m layers k = top_ranked (binary_value layers) m k /\
  min k (size m) <= size (bstm m layers k).
Proof. exact bstm_any. Qed.
Print Assumptions C02_top_k_any_bitslice.

Example C02_example :
  bstm {[1;2;3;5]}%N [{[1;2;3;5]}; {[2]}]%N 1 = {[2]}%N /\
  bstm {[1;2;3;5]}%N [{[1;2;3;5]}; {[2]}]%N 2 = {[1;2;3;5]}%N.
Proof. by_computation. Qed.

(** C03: unpacking a bitslice lists every document of positive weight once, in
    increasing document order, with its weight. *)
Theorem C03_weights_unpacked : forall (layers : list (gset N)),
  StronglySorted N.lt (fst <$> weight_bitslice layers) /\
  forall d w, (d, w) ∈ weight_bitslice layers <-> w = binary_value layers d /\ (0 < w)%N.
Proof. exact weight_bitslice_sound. Qed.
Print Assumptions C03_weights_unpacked.

(** The two ends together: unpacking what [compute_bitslice] packed returns, in
    document order, the number of bitmaps holding each document. *)
Theorem C03_round_trip : forall (bitmaps : list (gset N)) d n,
  (d, n) ∈ weight_bitslice (compute_bitslice bitmaps).2 <->
  n = count_in bitmaps d /\ (0 < n)%N.
Proof. exact weight_round_trip. Qed.
Print Assumptions C03_round_trip.

Example C03_example : weight_bitslice [{[1;2;3;5]}; {[2]}]%N = [(1,1);(2,3);(3,1);(5,1)]%N.
Proof. by_computation. Qed.

(** C04, as documented ("takes into account the document boundaries"), is false
    of the code: a window can contain the first position of the next document. *)
Theorem C04_window_stays_in_document_refuted :
  ~ (forall (positions boundaries : gset N) (w : N) (R : gset N),
       delimited boundaries positions ->
       expand_positions_window positions boundaries w = Ok R ->
       forall q, q ∈ R -> exists p, p ∈ positions /\ within w p q /\ same_document boundaries p q).
Proof. exact window_leaks. Qed.
Print Assumptions C04_window_stays_in_document_refuted.

(** What holds: the call succeeds and returns exactly the positions within [w] of
    an input position in the same document, plus possibly the first position
    of the following document when that too is within [w].
    Missing from the full claim: the exclusion of that extra position. *)
Theorem C04_window_exact_partial : forall (positions boundaries : gset N) (w : N),
  delimited boundaries positions ->
  exists R, expand_positions_window positions boundaries w = Ok R /\
    forall q, q ∈ R <-> exists p, p ∈ positions /\ within w p q /\
                         (same_document boundaries p q \/ next_document_start boundaries p q).
Proof. exact expand_positions_window_spec_flip. Qed.
Print Assumptions C04_window_exact_partial.

Example C04_example : delimited {[0; 4; 9]}%N {[2; 5]}%N /\
  expand_positions_window {[2; 5]}%N {[0; 4; 9]}%N 1 = Ok {[1;2;3;4;5;6]}%N.
Proof. exact C04_example_proof. Qed.

(** C05: rounding gives the earliest datetime of the bucket (minute, hour, day,
    month, year) the argument falls in. *)
Theorem C05_round_datetime : forall d g,
  valid_datetime d ->
  valid_datetime (round_datetime d g) /\
  same_bucket g (round_datetime d g) d /\
  (forall d', valid_datetime d' -> same_bucket g d d' -> datetime_le (round_datetime d g) d') /\
  (forall d', same_bucket g d d' <-> round_datetime d g = round_datetime d' g).
Proof. exact round_datetime_spec. Qed.
Print Assumptions C05_round_datetime.

Example C05_example :
  valid_datetime (DateTime 2021 11 17 21 34 5 77) /\
  round_datetime (DateTime 2021 11 17 21 34 5 77) Month = DateTime 2021 11 1 0 0 0 0.
Proof. exact C05_example_proof. Qed.
