(** Refine.v: refinement of the clustering (hyperreal/index.py:1349-1768). *)
From Verif Require Export Measure.

(** [cluster_feature]: features by cluster. *)
Notation clustering := (gmap Z (gset N)).

Definition features_in (cf : clustering) : gset N := ⋃ (map_to_list cf).*2.

(** [d[k]] on a dict. *)
Definition py_get {A} (m : gmap Z A) (k : Z) : res A :=
  match m !! k with Some x => Ok x | None => Err KeyError end.

(** Tuples of integers, compared lexicographically. *)
Fixpoint zlist_leb (a b : list Z) : bool :=
  match a, b with
  | [], _ => true
  | _ :: _, [] => false
  | x :: a', y :: b' => if (x =? y)%Z then zlist_leb a' b' else (x <? y)%Z
  end.

(** Parameters of [refine_clusters], index.py:1651-1663. Simplifications: group_test_batches is not negative;
    the acceptance probability is any coin (see Base.v). *)
Record refine_args := RefineArgs {
  r_iterations : nat; r_selection : option (list Z); r_min_features : nat; r_probe : option bitmap;
  r_target : option Z; r_tolerance : Qc; r_batches : option nat; r_top_k : nat }.

(** index.py:1372-1377: group testing is switched off if there are too many batches. *)
Definition effective_batches (batches n_clusters : nat) : nat :=
  if n_clusters <? 2 * batches then 0 else batches.

(** index.py:1379-1412: which features to check against which clusters. *)
Definition group_checks (d : db) (probe : option bitmap) (cf : clustering) (movable : gset N)
    (order : list Z) (batches top_k : nat) : clustering :=
  if batches =? 0 then list_to_map ((fun c => (c, movable)) <$> order) else
  let groups := (fun i => z_list (list_to_set (stride i batches order))) <$> seq 0 batches in
  let jobs := (fun g => (g, ⋃ ((fun c => default ∅ (cf !! c)) <$> g), movable)) <$> groups in
  let best := (score_jobs zlist_leb d probe top_k jobs).2 in
  map_fold (fun f found checks =>
    if bool_decide (f ∈ movable)
    then foldl (fun checks c => <[c := {[f]} ∪ default ∅ (checks !! c)]> checks) checks
           (concat ((fun x : Qc * list Z => x.2) <$> found))
    else checks) ∅ best.

(** index.py:1349-1417 [_find_best_moves] with top_k = 1. The iteration order of dicts
    and sets is only used for the shuffle, whose result is arbitrary anyway. *)
Definition find_best_moves (d : db) (probe : option bitmap) (cf : clustering) (movable : gset N)
    (batches top_k : nat) (g : rng) : res (gmap Z Qc * gmap N (list (Qc * Z)) * rng) :=
  let '(order, g1) := py_shuffle (z_list (dom cf)) g in
  let movable := if bool_decide (movable = ∅) then features_in cf else movable in
  let checks := group_checks d probe cf movable order (effective_batches batches (length order)) top_k in
  if bool_decide (dom checks ⊆ dom cf) then
    let '(objectives, best) := score_jobs Z.leb d probe 1
      ((fun kv : Z * gset N => (kv.1, default ∅ (cf !! kv.1), kv.2)) <$> map_to_list checks) in
    Ok (list_to_map objectives, best, g1)
  else Err KeyError.

(** ** The loop over the features, index.py:1571-1621 *)
Record pass := Pass { p_cf : clustering; p_fc : gmap N Z; p_possible : nat }.

(** index.py:1612-1621. *)
Definition move (f : N) (from to : Z) (possible : nat) (p : pass) : res pass :=
  rbind (py_get (p_cf p) from) (fun s =>
  let cf1 := <[from := s ∖ {[f]}]> (p_cf p) in
  rbind (py_get cf1 to) (fun t =>
  Ok (Pass (<[to := {[f]} ∪ t]> cf1) (<[f := to]> (p_fc p)) possible))).

(** index.py:1577-1621: the body of the loop for one feature. *)
Definition consider (min_features : nat) (dissolve : gset Z) (possible_clusters : list Z)
    (best : gmap N (list (Qc * Z))) (st : pass * rng) (f : N) : res (pass * rng) :=
  let '(p, g) := st in
  match best !! f with
  | None => Err KeyError
  | Some [] => Err IndexError
  | Some ((_, to) :: _) =>
      match p_fc p !! f with
      | None => Err KeyError
      | Some from =>
          let '(accept, g1) := rand_coin g in
          if bool_decide (from ∈ dissolve) then
            if bool_decide (to ∈ dissolve) then
              let '(r, g2) := py_choice possible_clusters g1 in
              rbind r (fun to' => rbind (move f from to' (S (p_possible p)) p) (fun p' => Ok (p', g2)))
            else rbind (move f from to (S (p_possible p)) p) (fun p' => Ok (p', g1))
          else if bool_decide (to ∈ dissolve) then Ok (p, g1)
          else if bool_decide (from = to) then Ok (p, g1)
          else rbind (py_get (p_cf p) from) (fun s =>
            if size s =? min_features then Ok (p, g1)
            else if accept
              then rbind (move f from to (S (p_possible p)) p) (fun p' => Ok (p', g1))
              else Ok (Pass (p_cf p) (p_fc p) (S (p_possible p)), g1))
      end
  end.

(** index.py:1623-1626: drop the dissolved clusters. *)
Definition drop_dissolved (dissolve : gset Z) (cf : clustering) : res clustering :=
  rfold (fun cf c => rbind (py_get cf c) (fun s =>
    if bool_decide (s = ∅) then Ok (delete c cf) else Err ValueError)) (z_list dissolve) cf.

Definition objective_le (a b : Z * Qc) : Prop := (a.2 <= b.2)%Qc.
#[global] Instance objective_le_dec : RelDecision objective_le.
Proof. intros a b. unfold objective_le. apply _. Defined.

(** index.py:1555-1566: the clusters with the lowest objective. Ties are in the order
    of a set in Python; here in increasing order. *)
Definition lowest (objectives : gmap Z Qc) (cs : list Z) (n : nat) : res (gset Z) :=
  rbind (rtraverse (fun c => rmap (fun o => (c, o)) (py_get objectives c)) cs) (fun l =>
  Ok (list_to_set (take n (merge_sort objective_le l).*1))).

(** [x / y < tolerance]. *)
Definition small_share (x y : nat) (tolerance : Qc) : bool :=
  bool_decide (Qof x / Qof y < tolerance)%Qc.

(** index.py:1534-1643: the iterations; [n] remain. *)
Fixpoint refine_loop (d : db) (a : refine_args) (batches : nat) (frozen : gset Z) (movable : gset N)
    (per_iteration : nat) (n : nat) (cf : clustering) (fc : gmap N Z) (order : list N)
    (to_dissolve : nat) (g : rng) : res (clustering * rng) :=
  match n with
  | 0 => Ok (cf, g)
  | S n' =>
      rbind (find_best_moves d (r_probe a) cf movable batches (r_top_k a) g)
        (fun '(objectives, best, g1) =>
      let n_dissolve := min to_dissolve per_iteration in
      rbind (if to_dissolve =? 0 then Ok ∅
             else lowest objectives (z_list (dom cf ∖ frozen)) n_dissolve) (fun dissolve =>
      let '(order', g2) := py_shuffle order g1 in
      rbind (rfold (consider (r_min_features a) dissolve (z_list (dom cf ∖ dissolve)) best)
                   order' (Pass cf fc 0, g2)) (fun '(p, g3) =>
      rbind (drop_dissolved dissolve (p_cf p)) (fun cf' =>
      let continue := refine_loop d a batches frozen movable per_iteration n' cf' (p_fc p) order'
                        (to_dissolve - n_dissolve) g3 in
      if bool_decide (dissolve = ∅) then
        if size movable =? 0 then Err ZeroDivisionError
        else if small_share (p_possible p) (size movable) (r_tolerance a) then Ok (cf', g3)
        else continue
      else continue))))
  end.

(** ** New clusters, index.py:1508-1528 *)

Definition size_le (a b : nat * Z) : Prop := a.1 < b.1 \/ (a.1 = b.1 /\ (a.2 <= b.2)%Z).
#[global] Instance size_le_dec : RelDecision size_le.
Proof. intros a b. unfold size_le. apply _. Defined.

(** [max((len(features), cluster_id, features) ...)]: the largest cluster, the one with
    the greatest id among those. *)
Definition largest_cluster (cf : clustering) : option Z :=
  snd <$> last (merge_sort size_le
                  ((fun kv : Z * gset N => (size kv.2, kv.1)) <$> map_to_list cf)).

(** index.py:1519-1523: [{f for f in fs if random() < 0.5 and f not in pinned}]. *)
Fixpoint split_features (pinned : gset N) (fs : list N) (g : rng) : gset N * rng :=
  match fs with
  | [] => (∅, g)
  | f :: r =>
      let '(coin, g1) := rand_coin g in
      let '(s, g2) := split_features pinned r g1 in
      (if coin && bool_decide (f ∉ pinned) then {[f]} ∪ s else s, g2)
  end.

Definition split_one (pinned : gset N) (st : clustering * gmap N Z * rng) (new : Z)
    : res (clustering * gmap N Z * rng) :=
  let '(cf, fc, g) := st in
  match largest_cluster cf with
  | None => Err ValueError (* max() of an empty sequence *)
  | Some c =>
      let fs := default ∅ (cf !! c) in
      let '(s, g1) := split_features pinned (bm_list fs) g in
      let cf1 := <[new := s]> cf in
      Ok (<[c := default ∅ (cf1 !! c) ∖ s]> cf1,
          set_fold (fun f fc => <[f := new]> fc) fc s, g1)
  end.

Definition z_range (start : Z) (n : Z) : list Z :=
  (fun i => (start + Z.of_nat i)%Z) <$> seq 0 (Z.to_nat n).

Definition feature_map (cf : clustering) : gmap N Z :=
  map_fold (fun c fs fc => set_fold (fun f fc => <[f := c]> fc) fc fs) ∅ cf.

(** index.py:1419-1649 [_refine_feature_groups], returning the clustering and the ids
    of the new clusters. [target_clusters or len(cluster_feature)]: zero means unset. *)
Definition refine_feature_groups (d : db) (a : refine_args) (batches : nat) (cf : clustering)
    (pinned : gset N) (target : Z) (g : rng) : res (clustering * list Z * rng) :=
  let n := Z.of_nat (size cf) in
  let target := if (target =? 0)%Z then n else target in
  if (n =? 0)%Z then Ok (cf, [], g)
  else if (n =? 1)%Z && (target =? 1)%Z then Ok (cf, [], g)
  else
    let frozen := dom (filter (fun kv : Z * gset N => kv.2 ∩ pinned ≠ ∅) cf) in
    let movable := features_in cf ∖ pinned in
    let first_new := (default 0 (last (z_list (dom cf))) + 1)%Z in
    let new_ids := z_range first_new (target - n) in
    rbind (rfold (split_one pinned) new_ids (cf, feature_map cf, g)) (fun '(cf1, fc1, g1) =>
    let to_dissolve := Z.to_nat (Z.of_nat (size cf1) - target) in
    let per := (to_dissolve + max 1 (r_iterations a - 1) - 1) / max 1 (r_iterations a - 1) in
    rbind (refine_loop d a batches frozen movable per (r_iterations a) cf1 fc1 (elements movable)
             to_dissolve g1) (fun '(cf2, g2) => Ok (cf2, new_ids, g2))).

(** ** [refine_clusters], index.py:1651-1747 *)

(** index.py:1683-1702: the features of the selected clusters, and those pinned. *)
Definition selected_clustering (sel : gset Z) (d : db) : clustering :=
  map_fold (fun f row cf =>
    if bool_decide (fc_cluster row ∈ sel)
    then <[fc_cluster row := {[f]} ∪ default ∅ (cf !! fc_cluster row)]> cf else cf)
    ∅ (feature_cluster d).
Definition selected_pinned (sel : gset Z) (d : db) : gset N :=
  dom (filter (fun kv : N * fc_row => fc_cluster kv.2 ∈ sel /\ fc_pinned kv.2 = true) (feature_cluster d)).

(** index.py:1735-1744: the new clusters get the next free ids, one after another. *)
Definition rename_new (next : Z) (new_ids : list Z) (cf : clustering) : res clustering :=
  rbind (rtraverse (py_get cf) new_ids) (fun copies =>
  Ok (foldl (fun cf '(i, (c, s)) => <[(next + Z.of_nat i)%Z := s]> (delete c cf)) cf
        (zip (seq 0 (length new_ids)) (zip new_ids copies)))).

(** index.py:1749-1768 [_update_cluster_feature]. The order of the rows is not observed,
    since every feature is in one cluster only. *)
Definition clustering_rows (cf : clustering) : list (Z * N) :=
  concat ((fun c => (fun f => (c, f)) <$> bm_list (default ∅ (cf !! c))) <$> z_list (dom cf)).
Definition update_cluster_feature (cf : clustering) : M unit :=
  atomic "_update_cluster_feature" true
    (on_db (dmany (fun '(c, f) => update_cluster_of_feature c f) (clustering_rows cf))).

(** index.py:1722-1723: [math.ceil(len(cluster_feature) * 0.1)]. Simplification: exact
    arithmetic; every statement holds for any explicit value too. *)
Definition resolve_batches (b : option nat) (n : nat) : nat :=
  match b with Some b => b | None => (n + 9) / 10 end.

(** index.py:1676: [set(cluster_ids or self.cluster_ids)]. *)
Definition selection (a : refine_args) (d : db) : gset Z :=
  list_to_set (match r_selection a with None | Some [] => cluster_ids d | Some l => l end).

(** index.py:1671-1744: everything up to the final update; [committed] is what worker
    processes see, [d] what this connection sees. *)
Definition refine_plan (a : refine_args) (g : rng) (committed d : db) : res clustering :=
  let sel := selection a d in
  if r_iterations a =? 0 then Err ValueError else
  let cf := selected_clustering sel d in
  let target := match r_target a with
                | Some t => if (t =? 0)%Z then Z.of_nat (size cf) else t
                | None => Z.of_nat (size cf)
                end in
  let pinned_clusters := dom cf ∩ pinned_cluster_ids d in
  let cf1 := filter (fun kv : Z * gset N => kv.1 ∉ pinned_clusters) cf in
  let target1 := (target - Z.of_nat (size pinned_clusters))%Z in
  rbind (refine_feature_groups committed a (resolve_batches (r_batches a) (size cf1)) cf1
           (selected_pinned sel d) target1 g) (fun '(cf2, new_ids, _) =>
  rename_new (next_cluster_id d) new_ids cf2).

Definition refine_clusters (a : refine_args) (g : rng) : M unit :=
  atomic "refine_clusters" false (fun c =>
    match refine_plan a g (disk c) (cur c) with
    | Err e => (c, Err e)
    | Ok cf => update_cluster_feature cf c
    end).
