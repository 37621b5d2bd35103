(** Measure.v: the objective of a group of features, the contribution of single
    features to it and the choice of the best clusters for each feature
    (hyperreal/index.py:1276-1347, 2245-2385).
    Simplification: Python floats are exact rationals ([Qc]); rounding is not
    modelled. *)
From Verif Require Export ClusterOps.
From Coq Require Export QArith.Qcanon.
Close Scope Qc_scope.
Close Scope Q_scope.

Definition Qof (n : nat) : Qc := Qc_of_Z (Z.of_nat n).

(** [if probe_query: docs &= probe_query]: an empty query has no effect. *)
Definition probed (probe : option bitmap) (docs : bitmap) : bitmap :=
  match probe with
  | Some q => if bool_decide (q = ∅) then docs else docs ∩ q
  | None => docs
  end.

(** [hits / (c + n) - (hits / (hits + n))], index.py:2311 and the two variants in
    the loops. [n] is positive at every use but for a zero [hits] (C36). *)
Definition objective_value (hits c n : nat) : Qc :=
  (Qof hits / Qof (c + n) - Qof hits / Qof (hits + n))%Qc.

(** index.py:2294-2308: union, docs covered at least twice, number of hits. *)
Definition cover (docs : N -> bitmap) (fs : list N) : bitmap * bitmap * nat :=
  foldl (fun '(u, t, h) f => (u ∪ docs f, t ∪ (u ∩ docs f), h + size (docs f))) (∅, ∅, 0) fs.

(** index.py:2245-2385 [measure_feature_contribution_to_cluster] on the documents
    [docs f] of each feature (already restricted to the probe query): the objective,
    then (feature, delta) for the members and for the added features. The iteration
    order of the set [group] is taken to be increasing; it is not observed. *)
Definition measure_docs (docs : N -> bitmap) (group add : gset N)
    : Qc * list (N * Qc) * list (N * Qc) :=
  let n := size group in
  if n =? 0 then (Qc_of_Z 0, [], []) else
  let '(union, twice, hits) := cover docs (bm_list group) in
  let only_once := union ∖ twice in
  let c := size union in
  let objective := objective_value hits c n in
  let remove f :=
    let feature_hits := size (docs f) in
    let old_hits := hits - feature_hits in
    let only_once_hits := size (docs f ∩ only_once) in
    let old_c := c - only_once_hits in
    if negb (old_c =? 0) && (only_once_hits <? feature_hits)
    then (objective - objective_value old_hits old_c (n - 1))%Qc
    else if negb (old_c =? 0) then Qc_of_Z (-1) else Qc_of_Z 0 in
  let added f :=
    if bool_decide (docs f ∩ union ≠ ∅)
    then (objective_value (hits + size (docs f)) (size (docs f ∪ union)) (n + 1) - objective)%Qc
    else Qc_of_Z (-1) in
  (objective, (fun f => (f, remove f)) <$> bm_list group,
   (fun f => (f, added f)) <$> bm_list (add ∖ group)).

(** The same, run by a worker process on the committed index [d]. *)
Definition measure (d : db) (probe : option bitmap) (group add : gset N) :=
  measure_docs (fun f => probed probe (docs_of d f)) group add.

(** ** Proposed moves *)
Section score.
  Context {K : Type} (key_leb : K -> K -> bool).

  (** Python's order on the tuples (delta, key). *)
  Definition cand_leb (a b : Qc * K) : bool :=
    if decide (a.1 = b.1) then key_leb a.2 b.2 else bool_decide (a.1 <= b.1)%Qc.
  Definition cand_ge (a b : Qc * K) : Prop := cand_leb b a = true.
  #[global] Instance cand_ge_dec : RelDecision cand_ge.
  Proof. intros a b. unfold cand_ge. apply _. Defined.

  (** heapq, as the ascending list of its contents: [heappush] inserts, [heappop]
      drops the least. Simplification: the layout of the heap is not modelled. *)
  Fixpoint heap_insert (x : Qc * K) (h : list (Qc * K)) : list (Qc * K) :=
    match h with
    | [] => [x]
    | y :: r => if cand_leb x y then x :: h else y :: heap_insert x r
    end.
  (** index.py:1337-1340. *)
  Definition heap_offer (top_k : nat) (h : list (Qc * K)) (x : Qc * K) : list (Qc * K) :=
    if length h <? top_k then heap_insert x h else tail (heap_insert x h).

  (** index.py:1328-1340: one result (key, deltas). *)
  Definition add_result (top_k : nat) (best : gmap N (list (Qc * K))) (r : K * list (N * Qc))
      : gmap N (list (Qc * K)) :=
    foldl (fun best '(f, delta) =>
             <[f := heap_offer top_k (default [] (best !! f)) (delta, r.1)]> best) best r.2.

  (** index.py:1324-1345: [sorted(feature_scores, reverse=True)] at the end. *)
  Definition best_of (top_k : nat) (results : list (K * list (N * Qc))) : gmap N (list (Qc * K)) :=
    (@rev (Qc * K)) <$> foldl (add_result top_k) ∅ results.

  Definition job_le (a b : K * gset N * gset N) : Prop := key_leb a.1.1 b.1.1 = true.
  #[global] Instance job_le_dec : RelDecision job_le.
  Proof. intros a b. unfold job_le. apply _. Defined.

  (** index.py:1276-1347 [_score_proposed_moves] on jobs (key, features of the group,
      features to check). Dispatch is in key order; results are taken in that order. *)
  Definition score_jobs (d : db) (probe : option bitmap) (top_k : nat)
      (jobs : list (K * gset N * gset N)) : list (K * Qc) * gmap N (list (Qc * K)) :=
    let results := (fun '(k, group, check) =>
        let '(o, rem, add) := measure d probe group (check ∖ group) in (k, o, rem ++ add))
      <$> merge_sort job_le jobs in
    ((fun r => r.1) <$> results, best_of top_k ((fun r => (r.1.1, r.2)) <$> results)).
End score.
