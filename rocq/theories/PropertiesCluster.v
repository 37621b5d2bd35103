(** PropertiesCluster.v: C22-C29 (statements only; proofs in ClusterCalls.v). The
    vocabulary of the statements is in SpecCluster.v and SpecConn.v. *)
From Verif Require Import ClusterCalls SampleDb.

(** C22 *)
Theorem C22_initialise_clusters : forall n md fields g c,
  idle c -> usable (disk c) -> pool_works c -> 1 <= n -> NoDup fields ->
  call_succeeds (initialise_clusters n md fields g) c tt (fun d d' =>
    (forall f, is_Some (assigned d' f) <-> eligible d md fields f) /\
    (forall f x, assigned d' f = Some x -> (0 <= x < Z.of_nat n)%Z) /\
    (forall i j, (0 <= i < Z.of_nat n)%Z -> (0 <= j < Z.of_nat n)%Z ->
       size (members d' i) <= S (size (members d' j))) /\
    (forall f, feature_pinned d' f = false) /\ (forall x, cluster_pinned d' x = false)).
Proof. intros. by apply initialise_call. Qed.
Print Assumptions C22_initialise_clusters.

Example C22_example :
  (idle sample_conn /\ quiet (disk sample_conn) /\ pool_works sample_conn) /\
  members sample_db 0 = {[2; 4; 5]}%N /\ members sample_db 1 = {[1; 3]}%N /\
  cluster_ids sample_db = [0; 1]%Z /\
  ~ eligible sample_index 1 [] 6.
Proof.
  split; [apply sample_conn_ready|]. split_and!; try by_computation.
  intros (row & H & Hle & _). vm_compute in H. injection H as <-. by vm_compute in Hle.
Qed.

(** C23 *)
Theorem C23_merge_clusters : forall m rest c,
  idle c -> usable (disk c) -> pool_works c ->
  call_succeeds (merge_clusters (m :: rest)) c m (fun d d' =>
    (forall f, assigned d' f = match assigned d f with
                               | Some x => if decide (x ∈ rest) then Some m else Some x
                               | None => None
                               end) /\
    (forall f, feature_pinned d' f = feature_pinned d f) /\ cluster_pins_kept d d').
Proof. intros. by apply merge_clusters_call. Qed.
Print Assumptions C23_merge_clusters.

(** ... in terms of clusters: the first is the union of all named, the other named
    ones are gone, the rest is as before. *)
Theorem C23_merge_clusters_members : forall m rest c,
  idle c -> usable (disk c) -> pool_works c ->
  call_succeeds (merge_clusters (m :: rest)) c m (fun d d' =>
    (forall f, f ∈ members d' m <-> exists x, x ∈ m :: rest /\ f ∈ members d x) /\
    (forall x, x ∈ rest -> x <> m -> x ∉ cluster_ids d') /\
    (forall x, x ∉ m :: rest -> members d' x = members d x)).
Proof. exact merge_clusters_members. Qed.
Print Assumptions C23_merge_clusters_members.

Theorem C23_merge_nothing_raises : forall c,
  idle c -> call_raises (merge_clusters []) c IndexError.
Proof. intros. by eapply call_err. Qed.
Print Assumptions C23_merge_nothing_raises.

Example C23_example :
  (idle sample_conn2 /\ quiet (disk sample_conn2) /\ pool_works sample_conn2) /\
  let d := disk (merge_clusters [1; 0; 7]%Z sample_conn2).1 in
  members d 1 = {[1; 2; 3; 4; 5]}%N /\ cluster_ids d = [1]%Z.
Proof. split; [apply sample_conn2_ready|]. by_computation. Qed.

(** C24 *)
Theorem C24_create_cluster_from_features : forall fs c,
  idle c -> usable (disk c) -> pool_works c ->
  (forall f, f ∈ fs -> is_Some (inverted_index (disk c) !! f)) ->
  exists id, (forall x, x ∈ cluster_ids (disk c) -> (x < id)%Z) /\
  call_succeeds (create_cluster_from_features fs) c id (fun d d' =>
    (forall f, assigned d' f = if decide (f ∈ fs) then Some id else assigned d f) /\
    (forall f, feature_pinned d' f = feature_pinned d f) /\
    (forall x, x <> id -> members d' x ≠ ∅ -> cluster_pinned d' x = cluster_pinned d x) /\
    cluster_pinned d' id = false).
Proof. intros. by apply create_call. Qed.
Print Assumptions C24_create_cluster_from_features.

Theorem C24_unknown_feature_raises : forall fs c,
  idle c -> usable (disk c) ->
  (exists f, f ∈ fs /\ inverted_index (disk c) !! f = None) ->
  call_raises (create_cluster_from_features fs) c IntegrityError.
Proof. intros. by apply create_call_err. Qed.
Print Assumptions C24_unknown_feature_raises.

Example C24_example :
  let c := (create_cluster_from_features [2; 6; 3]%N sample_conn2).1 in
  (create_cluster_from_features [2; 6; 3]%N sample_conn2).2 = Ok 2%Z /\ members (disk c) 2 = {[2; 3; 6]}%N /\ members (disk c) 0 = {[4; 5]}%N /\
  (create_cluster_from_features [2; 99]%N sample_conn2).2 = Err IntegrityError.
Proof. by_computation. Qed.

(** C25 *)
Theorem C25_delete_clusters : forall cs c,
  idle c -> usable (disk c) -> pool_works c ->
  call_succeeds (delete_clusters cs) c tt (fun d d' =>
    (forall f, assigned d' f = match assigned d f with
                               | Some x => if decide (x ∈ cs) then None else Some x
                               | None => None
                               end) /\
    feature_pins_kept d d' /\ cluster_pins_kept d d').
Proof. intros. by apply delete_clusters_call. Qed.
Print Assumptions C25_delete_clusters.

Theorem C25_delete_features : forall fs c,
  idle c -> usable (disk c) -> pool_works c ->
  call_succeeds (delete_features fs) c tt (fun d d' =>
    (forall f, assigned d' f = if decide (f ∈ fs) then None else assigned d f) /\
    feature_pins_kept d d' /\ cluster_pins_kept d d').
Proof. intros. by apply delete_features_call. Qed.
Print Assumptions C25_delete_features.

Example C25_example :
  cluster_ids (disk (delete_clusters [1; 5]%Z sample_conn2).1) = [0]%Z /\
  cluster_ids (disk (delete_features [1; 3; 9]%N sample_conn2).1) = [0]%Z.
Proof. by_computation. Qed.

(** C26 *)
Theorem C26_pin_features : forall fs p c,
  idle c -> usable (disk c) -> pool_works c ->
  call_succeeds (pin_features fs p) c tt (fun d d' =>
    (forall f, assigned d' f = assigned d f) /\
    (forall f, feature_pinned d' f =
       if decide (f ∈ fs /\ is_Some (assigned d f)) then p else feature_pinned d f) /\
    cluster_pins_kept d d').
Proof. intros. by apply pin_features_call. Qed.
Print Assumptions C26_pin_features.

Theorem C26_pin_clusters : forall cs p c,
  idle c -> usable (disk c) -> pool_works c ->
  call_succeeds (pin_clusters cs p) c tt (fun d d' =>
    (forall f, assigned d' f = assigned d f) /\
    (forall f, feature_pinned d' f = feature_pinned d f) /\
    (forall x, members d x ≠ ∅ ->
       cluster_pinned d' x = if decide (x ∈ cs) then p else cluster_pinned d x)).
Proof. intros. by apply pin_clusters_call. Qed.
Print Assumptions C26_pin_clusters.

Example C26_example :
  let d := disk (pin_features [2; 6]%N true sample_conn2).1 in
  feature_pinned d 2 = true /\ feature_pinned d 6 = false /\ feature_pinned d 5 = false /\
  pinned_cluster_ids (disk (pin_clusters [1; 8]%Z true sample_conn2).1) = {[1%Z]}.
Proof. by_computation. Qed.

(** C27: a row of [cluster_features] is (feature_id, field, value, docs_count). *)
Theorem C27_cluster_features : forall d c (k : option nat),
  references_ok d ->
  exists all,
    (* all rows of the cluster: every member exactly once, with its index data *)
    all.*1.*1.*1 ≡ₚ elements (members d c) /\
    (forall r, r ∈ all -> exists ii, inverted_index d !! r.1.1.1 = Some ii /\
       r = (r.1.1.1, f_field ii, f_value ii, f_docs_count ii)) /\
    (* the result is the first k of them in descending order *)
    StronglySorted (fun r s => s.2 <= r.2)%N all /\
    cluster_features d c k = match k with Some k => take k all | None => all end.
Proof. exact cluster_features_spec. Qed.
Print Assumptions C27_cluster_features.

(** ... so nothing left out beats anything returned, and min(k, size) are returned. *)
Theorem C27_cluster_features_top : forall d c k,
  references_ok d ->
  length (cluster_features d c (Some k)) = min k (size (members d c)) /\
  NoDup (cluster_features d c (Some k)).*1.*1.*1 /\
  forall r, r ∈ cluster_features d c (Some k) ->
    r.1.1.1 ∈ members d c /\
    forall f ii, f ∈ members d c -> inverted_index d !! f = Some ii ->
      f ∉ (cluster_features d c (Some k)).*1.*1.*1 -> (f_docs_count ii <= r.2)%N.
Proof. exact cluster_features_top. Qed.
Print Assumptions C27_cluster_features_top.

Theorem C27_top_cluster_features : forall d k,
  (* every cluster exactly once *)
  (top_cluster_features d k).*1.*1 ≡ₚ cluster_ids d /\
  (* in descending document count *)
  StronglySorted (fun r s => s.1.2 <= r.1.2)%N (top_cluster_features d k) /\
  (* with its document count and its top k features *)
  (forall r, r ∈ top_cluster_features d k ->
     exists row, cluster d !! r.1.1 = Some row /\ r.1.2 = c_docs_count row /\
       r.2 = cluster_features d r.1.1 (Some k)).
Proof. exact top_cluster_features_spec. Qed.
Print Assumptions C27_top_cluster_features.

Example C27_example :
  references_ok sample_db /\
  top_cluster_features sample_db 1 =
   [(0%Z, 6%N, [(5%N, "lang", VText "en", 4%N)]); (1%Z, 5%N, [(1%N, "text", VText "a", 3%N)])].
Proof. split; [apply sample_conn2_ready|]. by_computation. Qed.

(** C28 *)
Theorem C28_cluster_query_agrees : forall d c,
  quiet d -> c ∈ cluster_ids d ->
  cluster_docs d c = Ok (Some (cluster_query d c).1) /\
  (forall doc, binary_value (cluster_query d c).2 doc =
     N.of_nat (size (filter (fun f => doc ∈ feature_docs d f) (members d c)))).
Proof. exact cluster_query_agrees. Qed.
Print Assumptions C28_cluster_query_agrees.

Example C28_example :
  quiet sample_db /\ cluster_docs sample_db 1 = Ok (Some {[0;1;2;3;4]}%N) /\
  cluster_query sample_db 0 = ({[0;1;2;3;4;5]}, [{[0;1;2;3;4]}; {[5]}])%N.
Proof. split; [apply sample_conn2_ready|]. by_computation. Qed.

(** C29, refuted as stated: the id of a deleted cluster is handed out again. What
    does hold (the id is above every id in use) is part of C24. *)
Theorem C29_cluster_id_never_reused_refuted :
  ~ (forall c fs gs c1 c2 c3 id1 id2,
      idle c -> quiet (disk c) -> (forall n, pool c n = None) ->
      create_cluster_from_features fs c = (c1, Ok id1) ->
      delete_clusters [id1] c1 = (c2, Ok tt) ->
      create_cluster_from_features gs c2 = (c3, Ok id2) -> id1 <> id2).
Proof.
  intros H. destruct sample_conn2_ready as (H1 & H2 & _).
  refine (H _ _ _ _ _ _ 2%Z 2%Z H1 H2 _
    (run_eq (create_cluster_from_features [2]%N sample_conn2) (Ok 2%Z) _)
    (run_eq (delete_clusters [2]%Z (create_cluster_from_features [2]%N sample_conn2).1) (Ok tt) _)
    (run_eq (create_cluster_from_features [3]%N
       (delete_clusters [2]%Z (create_cluster_from_features [2]%N sample_conn2).1).1) (Ok 2%Z) _)
    eq_refl).
  - intros n. vm_compute. reflexivity.
  - by_computation.
  - by_computation.
  - by_computation.
Qed.
Print Assumptions C29_cluster_id_never_reused_refuted.

Theorem C29_next_cluster_id_partial : forall d c,
  c ∈ cluster_ids d -> (c < next_cluster_id d)%Z.
Proof. intros d c H. apply next_cluster_id_fresh. by apply elem_of_z_list. Qed.
Print Assumptions C29_next_cluster_id_partial.

Example C29_example : cluster_ids sample_db = [0; 1]%Z /\ next_cluster_id sample_db = 2%Z.
Proof. by_computation. Qed.
