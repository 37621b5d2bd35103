(** SpecRefine.v: what refinement scores are supposed to be, independently of how the
    code computes them. *)
From Verif Require Export SpecCluster.
From Coq Require Export QArith.Qcanon.
Close Scope Qc_scope.
Close Scope Q_scope.

Definition of_nat (n : nat) : Qc := Qc_of_Z (Z.of_nat n).

(** All documents of a set of features, and the total number of (feature, document) pairs. *)
Definition covered (docs : N -> gset N) (fs : gset N) : gset N := ⋃ (docs <$> elements fs).
Definition total_hits (docs : N -> gset N) (fs : gset N) : nat :=
  sum_list_with (fun f => size (docs f)) (elements fs).

(** The objective of a set of features: hits / (covered + n) - hits / (hits + n). *)
Definition objective (docs : N -> gset N) (fs : gset N) : Qc :=
  let h := total_hits docs fs in
  (of_nat h / of_nat (size (covered docs fs) + size fs) - of_nat h / of_nat (h + size fs))%Qc.

(** What a member [f] of [fs] contributes to the objective. *)
Definition member_delta (docs : N -> gset N) (fs : gset N) (f : N) (delta : Qc) : Prop :=
  let others := fs ∖ {[f]} in
  (docs f ∩ covered docs others ≠ ∅ ->
     delta = (objective docs fs - objective docs others)%Qc) /\
  (docs f ∩ covered docs others = ∅ -> covered docs others ≠ ∅ -> delta = Qc_of_Z (-1)) /\
  (covered docs others = ∅ -> delta = Qc_of_Z 0).

(** What an outside feature [f] would add. *)
Definition outside_delta (docs : N -> gset N) (fs : gset N) (f : N) (delta : Qc) : Prop :=
  (docs f ∩ covered docs fs ≠ ∅ ->
     delta = (objective docs ({[f]} ∪ fs) - objective docs fs)%Qc) /\
  (docs f ∩ covered docs fs = ∅ -> delta = Qc_of_Z (-1)).

(** [best] lists the [k] greatest elements of [all] (all of them if there are fewer),
    greatest first; [le] is the order. *)
Definition k_greatest {A} (le : relation A) (k : nat) (all best : list A) : Prop :=
  length best = min k (length all) /\
  StronglySorted (fun x y => le y x) best /\
  exists rest, best ++ rest ≡ₚ all /\ forall x y, x ∈ rest -> y ∈ best -> le x y.

(** A list of integers comes before another as Python compares tuples: it is a prefix,
    or smaller at the first difference. *)
Definition tuple_le (a b : list Z) : Prop :=
  (exists r, b = a ++ r) \/
  (exists p x y a' b', a = p ++ x :: a' /\ b = p ++ y :: b' /\ (x < y)%Z).

(** The clusters a call may work on: those selected (no selection means all; so does an
    empty one, see C38) which have a feature; and those of them which are not pinned. *)
Definition selected_clusters (d : db) (sel : option (list Z)) : gset Z :=
  filter (fun c => members d c ≠ ∅ /\ (sel = None \/ sel = Some [] \/ c ∈ default [] sel))
    (dom (cluster d)).
Definition free_clusters (d : db) (sel : option (list Z)) : gset Z :=
  filter (fun c => cluster_pinned d c = false) (selected_clusters d sel).

(** The features which may be moved: not pinned and in a free cluster. *)
Definition movable_feature (d : db) (sel : option (list Z)) (f : N) : Prop :=
  exists c, assigned d f = Some c /\ c ∈ free_clusters d sel /\ feature_pinned d f = false.
