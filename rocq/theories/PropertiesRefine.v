(** PropertiesRefine.v: C30-C38 (statements; proofs in ScoreProofs.v, RefineProofs.v,
    RefineCalls.v, RefineTotal.v and RefineFacts.v). The vocabulary of the statements
    is in SpecCluster.v, SpecConn.v and SpecRefine.v.
    A call either raises, and then changes nothing, or succeeds with the stated effect. *)
From Verif Require Import RefineFacts SampleDb.

(** Settings and models used in the examples: three iterations, no minimum, target [t]. *)
Definition settings (t : option Z) : refine_args := RefineArgs 3 None 1 None t (Qc_of_Z 0) None 2.
(** All features pinned / cluster 1 pinned / four clusters of which three are pinned. *)
Definition all_pinned_conn : conn := (pin_features [1;2;3;4;5]%N true sample_conn2).1.
Definition one_pinned_conn : conn := (pin_clusters [1]%Z true sample_conn2).1.
Definition four_conn : conn := (initialise_clusters 4 1 [] rng0 sample_conn).1.
Definition three_pinned_conn : conn := (pin_clusters [0;1;2]%Z true four_conn).1.

Lemma ready_after {A} (call : M A) c a post : call_succeeds call c a post -> pool_works (call c).1 ->
  idle (call c).1 /\ quiet (disk (call c).1) /\ pool_works (call c).1.
Proof. intros (c' & Hc & Hi & Hq & _) Hp. rewrite Hc in Hp |- *. exact (conj Hi (conj Hq Hp)). Qed.

Lemma all_pinned_ready : idle all_pinned_conn /\ quiet (disk all_pinned_conn) /\ pool_works all_pinned_conn.
Proof.
  destruct sample_conn2_ready as (H1 & H2 & H3).
  refine (ready_after _ _ _ _ (pin_features_call [1;2;3;4;5]%N true sample_conn2 H1 (quiet_usable _ H2) H3) _).
  unfold pool_works. by_computation.
Qed.
Lemma one_pinned_ready : idle one_pinned_conn /\ quiet (disk one_pinned_conn) /\ pool_works one_pinned_conn.
Proof.
  destruct sample_conn2_ready as (H1 & H2 & H3).
  refine (ready_after _ _ _ _ (pin_clusters_call [1]%Z true sample_conn2 H1 (quiet_usable _ H2) H3) _).
  unfold pool_works. by_computation.
Qed.
Lemma four_ready : idle four_conn /\ quiet (disk four_conn) /\ pool_works four_conn.
Proof.
  destruct sample_conn_ready as (H1 & H2 & H3).
  refine (ready_after _ _ _ _ (initialise_call 4 1 [] rng0 sample_conn H1 (quiet_usable _ H2) H3 ltac:(lia) ltac:(constructor)) _).
  unfold pool_works. by_computation.
Qed.
Lemma three_pinned_ready : idle three_pinned_conn /\ quiet (disk three_pinned_conn) /\ pool_works three_pinned_conn.
Proof.
  destruct four_ready as (H1 & H2 & H3).
  refine (ready_after _ _ _ _ (pin_clusters_call [0;1;2]%Z true four_conn H1 (quiet_usable _ H2) H3) _).
  unfold pool_works. by_computation.
Qed.

(** C30 *)
Theorem C30_refine_conserves_features : forall a g c,
  idle c -> usable (disk c) -> pool_works c ->
  (exists e, call_raises (refine_clusters a g) c e) \/
  call_succeeds (refine_clusters a g) c tt (fun d d' =>
    (forall f, is_Some (assigned d' f) <-> is_Some (assigned d f)) /\
    (forall f, fc_docs_count <$> feature_cluster d' !! f = fc_docs_count <$> feature_cluster d !! f) /\
    (forall f, feature_pinned d' f = feature_pinned d f) /\ cluster_pins_kept d d').
Proof. exact refine_conserves. Qed.
Print Assumptions C30_refine_conserves_features.

Example C30_example :
  (idle sample_conn2 /\ quiet (disk sample_conn2) /\ pool_works sample_conn2) /\
  let c := (refine_clusters (settings (Some 3%Z)) rng0 sample_conn2).1 in
  (refine_clusters (settings (Some 3%Z)) rng0 sample_conn2).2 = Ok tt /\
  members (disk c) 0 ∪ members (disk c) 1 ∪ members (disk c) 2 = {[1;2;3;4;5]}%N /\
  disk c <> disk sample_conn2.
Proof.
  split; [apply sample_conn2_ready|]. cbv zeta. split; [by_computation|]. split; [by_computation|].
  intros H. apply (f_equal (fun d => members d 2)) in H. revert H. by_computation.
Qed.

(** C31 *)
Theorem C31_pinned_and_unselected_untouched : forall a g c,
  idle c -> usable (disk c) -> pool_works c ->
  (exists e, call_raises (refine_clusters a g) c e) \/
  call_succeeds (refine_clusters a g) c tt (fun d d' =>
    (forall f, feature_pinned d f = true -> assigned d' f = assigned d f) /\
    (forall x, cluster_pinned d x = true -> members d' x = members d x) /\
    (forall l x, r_selection a = Some l -> l <> [] -> x ∉ l -> x ∈ cluster_ids d ->
       members d' x = members d x)).
Proof. exact refine_respects_pins. Qed.
Print Assumptions C31_pinned_and_unselected_untouched.

Example C31_example :
  (idle one_pinned_conn /\ quiet (disk one_pinned_conn) /\ pool_works one_pinned_conn) /\
  let c := (refine_clusters (settings (Some 3%Z)) rng0 one_pinned_conn).1 in
  (refine_clusters (settings (Some 3%Z)) rng0 one_pinned_conn).2 = Ok tt /\
  members (disk c) 1 = members (disk one_pinned_conn) 1 /\
  members (disk c) 0 <> members (disk one_pinned_conn) 0.
Proof. split; [apply one_pinned_ready|]. cbv zeta. split_and!; by_computation. Qed.

(** C32: no cluster is created; dissolved clusters end up empty. *)
Theorem C32_minimum_cluster_size : forall a g c,
  idle c -> usable (disk c) -> pool_works c ->
  (forall t, r_target a = Some t ->
     (0 <= t <= Z.of_nat (size (selected_clusters (disk c) (r_selection a))))%Z) ->
  (exists e, call_raises (refine_clusters a g) c e) \/
  call_succeeds (refine_clusters a g) c tt (fun d d' => forall x,
    r_min_features a <= size (members d x) ->
    r_min_features a <= size (members d' x) \/ (r_target a <> None /\ members d' x = ∅)).
Proof. exact refine_min_size. Qed.
Print Assumptions C32_minimum_cluster_size.

Example C32_example :
  let a := RefineArgs 3 None 2 None None (Qc_of_Z 0) (Some 0) 2 in
  let c := (refine_clusters a rng0 sample_conn2).1 in
  (refine_clusters a rng0 sample_conn2).2 = Ok tt /\
  size (members sample_db 0) = 3 /\ size (members sample_db 1) = 2 /\
  2 <= size (members (disk c) 0) /\ 2 <= size (members (disk c) 1) /\
  members (disk c) 0 <> members sample_db 0.
Proof. cbv zeta. split_and!; by_computation. Qed.

(** C33, refuted as stated: of the new clusters found by [_refine_feature_groups]
    (given the free clusters, the pinned features and how many free clusters there
    should be), some are not saved under new ids. *)
Theorem C33_new_clusters_saved_refuted :
  ~ (forall a g c t c' before pinned after new g',
      idle c -> quiet (disk c) -> pool_works c -> r_target a = Some t ->
      let d := disk c in let sel := r_selection a in
      (forall x s, before !! x = Some s <-> x ∈ free_clusters d sel /\ s = members d x) ->
      (forall f, f ∈ pinned <-> feature_pinned d f = true /\
                                exists x, assigned d f = Some x /\ x ∈ selected_clusters d sel) ->
      refine_feature_groups d a (resolve_batches (r_batches a) (size before)) before pinned
        (t - (Z.of_nat (size (selected_clusters d sel)) - Z.of_nat (size (free_clusters d sel)))) g
        = Ok (after, new, g') ->
      refine_clusters a g c = (c', Ok tt) ->
      forall i x s, new !! i = Some x -> after !! x = Some s ->
        exists id, id ∉ cluster_ids d /\ members (disk c') id = s).
Proof.
  intros H. destruct one_pinned_ready as (H1 & H2 & H3).
  set (d := disk one_pinned_conn) in *. set (a := settings (Some 4%Z)).
  set (before := worked_on a d). set (pinned := selected_pinned (selection a d) d).
  set (r := refine_feature_groups d a (resolve_batches (r_batches a) (size before)) before pinned 3 rng0).
  assert (match r with Ok (after, new, _) => new !! 0 = Some 1%Z /\ (exists s, after !! 1%Z = Some s /\ 2%N ∈ s) | Err _ => False end)
    as Hr.
  { vm_compute. split; [done|]. eexists. split; [reflexivity|]. by_computation. }
  destruct r as [[[after new] g']|] eqn:Er; [|done]. destruct Hr as (Hn & s & Hs & H4).
  pose proof (quiet_usable _ H2) as Hu.
  destruct (H a rng0 one_pinned_conn 4%Z (refine_clusters a rng0 one_pinned_conn).1 before pinned after new g'
    H1 H2 H3 eq_refl) with (i := 0) (x := 1%Z) (s := s) as (id & Hid & Hm).
  - intros x s'. apply (worked_on_free a d x s' Hu).
  - intros f. apply (selected_pinned_free a d f Hu).
  - exact Er.
  - apply run_eq. by_computation.
  - exact Hn.
  - exact Hs.
  - rewrite <- Hm in H4. apply Hid. clear Hid. apply assigned_members in H4.
    assert (assigned (disk (refine_clusters a rng0 one_pinned_conn).1) 2 = Some 0%Z) as E by by_computation.
    rewrite E in H4. injection H4 as <-. by_computation.
Qed.
Print Assumptions C33_new_clusters_saved_refuted.

(** It does hold when the greatest cluster id belongs to a selected cluster that is
    not pinned, or when it is far from those, or for one new cluster. *)
Theorem C33_new_clusters_saved_partial : forall a g c t,
  idle c -> usable (disk c) -> pool_works c -> r_target a = Some t ->
  let sel := r_selection a in let n := Z.of_nat (size (selected_clusters (disk c) sel)) in
  (n <= t)%Z -> free_clusters (disk c) sel ≠ ∅ ->
  ((exists y, y ∈ free_clusters (disk c) sel /\ forall x, x ∈ cluster_ids (disk c) -> (x <= y)%Z) \/
   (forall y, y ∈ free_clusters (disk c) sel -> (y + (t - n) < next_cluster_id (disk c))%Z) \/
   (t <= n + 1)%Z) ->
  (exists e, call_raises (refine_clusters a g) c e) \/
  call_succeeds (refine_clusters a g) c tt (fun d d' =>
    exists before pinned after new g',
      (forall x s, before !! x = Some s <-> x ∈ free_clusters d sel /\ s = members d x) /\
      (forall f, f ∈ pinned <-> feature_pinned d f = true /\
                                exists x, assigned d f = Some x /\ x ∈ selected_clusters d sel) /\
      refine_feature_groups d a (resolve_batches (r_batches a) (size before)) before pinned
        (t - (n - Z.of_nat (size (free_clusters d sel)))) g = Ok (after, new, g') /\
      Z.of_nat (length new) = (t - n)%Z /\
      (forall i x, new !! i = Some x ->
         Some (members d' (next_cluster_id d + Z.of_nat i)%Z) = after !! x) /\
      (forall x, x ∈ free_clusters d sel -> Some (members d' x) = after !! x)).
Proof.
  intros a g c t Hid Hu Hp Ht sel n Hn Hfree Hap.
  destruct (refine_new_saved a g c t Hid Hu Hp Ht Hn Hfree Hap) as [?|(c' & H1 & H2 & H3 & H4 & H5 & H6)]; [by left|right].
  exists c'. split_and!; try done. destruct H5 as (after & new & g' & Hr & Hl & Hnew & Hold).
  exists (worked_on a (disk c)), (selected_pinned (selection a (disk c)) (disk c)), after, new, g'.
  split_and!; try done.
  - intros x s'. by apply worked_on_free.
  - intros f. by apply selected_pinned_free.
  - rewrite <- Hr. f_equal.
    rewrite work_target_spec, Ht by done. fold sel. fold n.
    assert (t <> 0)%Z as Ht0.
    { intros ->. apply Hfree. apply leibniz_equiv. apply size_empty_inv.
      pose proof (subseteq_size _ _ (free_subset (disk c) sel)). lia. }
    apply Z.eqb_neq in Ht0. by rewrite Ht0.
Qed.
Print Assumptions C33_new_clusters_saved_partial.

Example C33_example :
  let a := settings (Some 4%Z) in let d := disk sample_conn2 in
  (idle sample_conn2 /\ quiet d /\ pool_works sample_conn2) /\
  size (selected_clusters d None) = 2 /\ 1%Z ∈ free_clusters d None /\ cluster_ids d = [0; 1]%Z /\
  (refine_clusters a rng0 sample_conn2).2 = Ok tt /\
  members (disk (refine_clusters a rng0 sample_conn2).1) 2 ≠ ∅ /\
  members (disk (refine_clusters a rng0 sample_conn2).1) 3 ≠ ∅.
Proof. cbv zeta. split; [apply sample_conn2_ready|]. split_and!; by_computation. Qed.

(** C34, refuted as stated: the call raises ZeroDivisionError. *)
Theorem C34_fully_pinned_refuted :
  ~ (forall a g c, idle c -> quiet (disk c) -> pool_works c -> 1 <= r_iterations a -> 1 <= r_top_k a ->
      (forall f, is_Some (assigned (disk c) f) -> feature_pinned (disk c) f = true) ->
      exists c', refine_clusters a g c = (c', Ok tt)).
Proof.
  intros H. destruct all_pinned_ready as (H1 & H2 & H3).
  destruct (H (settings None) rng0 all_pinned_conn H1 H2 H3) as (c' & Hc); [cbn; lia|cbn; lia| |].
  - intros f [x Hx]. unfold assigned in Hx. destruct (feature_cluster (disk all_pinned_conn) !! f) as [row|] eqn:E; [|done].
    unfold feature_pinned. rewrite E.
    assert (map_Forall (fun _ r => fc_pinned r = true) (feature_cluster (disk all_pinned_conn))) as HF by by_computation.
    by apply (HF f row).
  - apply (f_equal snd) in Hc.
    assert ((refine_clusters (settings None) rng0 all_pinned_conn).2 = Err ZeroDivisionError) as E by by_computation.
    rewrite E in Hc. cbn [snd] in Hc. discriminate Hc.
Qed.
Print Assumptions C34_fully_pinned_refuted.

(** What does hold: nothing changes, whether it raises or not ... *)
Theorem C34_fully_pinned_unchanged_partial : forall a g c,
  idle c -> usable (disk c) -> pool_works c ->
  (forall f, ~ movable_feature (disk c) (r_selection a) f) ->
  (exists e, call_raises (refine_clusters a g) c e) \/
  call_succeeds (refine_clusters a g) c tt (fun d d' => forall f, assigned d' f = assigned d f).
Proof. exact refine_all_pinned. Qed.
Print Assumptions C34_fully_pinned_unchanged_partial.

(** ... and without a target it returns normally whenever some feature can be moved, or
    at most one selected cluster is not pinned itself. *)
Theorem C34_returns_partial : forall a g c,
  idle c -> usable (disk c) -> pool_works c ->
  1 <= r_iterations a -> 1 <= r_top_k a \/ r_batches a = Some 0 -> r_target a = None ->
  (exists f, movable_feature (disk c) (r_selection a) f) \/
  size (free_clusters (disk c) (r_selection a)) <= 1 ->
  call_succeeds (refine_clusters a g) c tt (fun _ _ => True).
Proof.
  intros a g c Hid Hu Hp Hit Hk Ht Hm. pose proof (refine_call a g c Hid Hu Hp) as H.
  destruct (refine_returns a g c Hid Hu Hp Hit Hk) as [cf E].
  - destruct Hm as [?|Hs]; [by right|left]. rewrite <- (size_worked_on a _ Hu) in Hs. split; [done|]. by apply aim_none.
  - left. rewrite aim_none; done.
  - rewrite E in H. destruct H as (c' & H1 & H2 & H3 & H4 & _ & H6). exists c'. split_and!; done.
Qed.
Print Assumptions C34_returns_partial.
(** In all other cases it raises ZeroDivisionError (and changes nothing): an exact account. *)
Theorem C34_raises_otherwise_partial : forall a g c,
  idle c -> usable (disk c) -> pool_works c ->
  1 <= r_iterations a -> 1 <= r_top_k a \/ r_batches a = Some 0 -> r_target a = None ->
  ~ ((exists f, movable_feature (disk c) (r_selection a) f) \/
     size (free_clusters (disk c) (r_selection a)) <= 1) ->
  call_raises (refine_clusters a g) c ZeroDivisionError.
Proof.
  intros a g c Hid Hu Hp Hit Hk Ht Hno. apply refine_stuck; try done.
  - intros f Hf. apply Hno. left. by exists f.
  - destruct (decide (size (free_clusters (disk c) (r_selection a)) <= 1)); [|lia]. exfalso. apply Hno. by right.
Qed.
Print Assumptions C34_raises_otherwise_partial.

Example C34_example :
  (refine_clusters (settings None) rng0 all_pinned_conn).2 = Err ZeroDivisionError /\
  feature_pinned (disk one_pinned_conn) 2 = false /\ assigned (disk one_pinned_conn) 2 = Some 0%Z /\
  0%Z ∈ free_clusters (disk one_pinned_conn) None.
Proof. split_and!; by_computation. Qed.

(** C35, refuted as stated: with three of four clusters pinned and a target of two,
    the call raises IndexError. *)
Theorem C35_lowering_target_refuted :
  ~ (forall a g c t, idle c -> quiet (disk c) -> pool_works c -> 1 <= r_iterations a -> 1 <= r_top_k a ->
      r_target a = Some t -> (0 < t < Z.of_nat (size (selected_clusters (disk c) (r_selection a))))%Z ->
      exists c', refine_clusters a g c = (c', Ok tt)).
Proof.
  intros H. destruct three_pinned_ready as (H1 & H2 & H3).
  destruct (H (settings (Some 2%Z)) rng0 three_pinned_conn 2%Z H1 H2 H3) as (c' & Hc); [cbn; lia|cbn; lia|done| |].
  - split; [done|]. by_computation.
  - apply (f_equal snd) in Hc.
    assert ((refine_clusters (settings (Some 2%Z)) rng0 three_pinned_conn).2 = Err IndexError) as E by by_computation.
    rewrite E in Hc. cbn [snd] in Hc. discriminate Hc.
Qed.
Print Assumptions C35_lowering_target_refuted.

(** ... nor is that the only reason: with nothing pinned and the default settings, 21
    clusters of unrelated features and a target of 20, the call raises KeyError. The group
    tests have left some clusters without an objective. *)
Definition unrelated_index : db :=
  set_field_summary {["text" := FsumRow 21 (VInt 0) (VInt 20) 0]}
  (set_inverted_index (list_to_map ((fun i => (N.of_nat (S i), FeatureRow "text" (VInt (Z.of_nat i)) 1 {[N.of_nat i]})) <$> seq 0 21)) empty_db).
Definition unrelated_conn : conn := (initialise_clusters 21 1 [] rng0 (open_index unrelated_index pool_ok)).1.
Lemma unrelated_ready : idle unrelated_conn /\ quiet (disk unrelated_conn) /\ pool_works unrelated_conn.
Proof.
  assert (quiet unrelated_index) as Hq by (apply quiet_unclustered; by_computation).
  refine (ready_after _ _ _ _ (initialise_call 21 1 [] rng0 (open_index unrelated_index pool_ok) (idle_open _ _) (quiet_usable _ Hq) _ ltac:(lia) ltac:(constructor)) _).
  - done.
  - unfold pool_works. by_computation.
Qed.
Theorem C35_group_tests_refuted :
  ~ (forall a g c t, idle c -> quiet (disk c) -> pool_works c -> 1 <= r_iterations a -> 1 <= r_top_k a ->
      r_target a = Some t -> (0 < t < Z.of_nat (size (selected_clusters (disk c) (r_selection a))))%Z ->
      (forall f, feature_pinned (disk c) f = false) -> (forall k, cluster_pinned (disk c) k = false) ->
      exists c', refine_clusters a g c = (c', Ok tt)).
Proof.
  intros H. destruct unrelated_ready as (H1 & H2 & H3).
  destruct (H (settings (Some 20%Z)) rng0 unrelated_conn 20%Z H1 H2 H3) as (c' & Hc); [cbn; lia|cbn; lia|done| | | |].
  - split; [done|]. by_computation.
  - clear. intros f. unfold feature_pinned.
    assert (map_Forall (fun _ row => fc_pinned row = false) (feature_cluster (disk unrelated_conn))) as Hx by by_computation.
    destruct (feature_cluster (disk unrelated_conn) !! f) as [row|] eqn:E; [exact (Hx f row E)|reflexivity].
  - clear. intros k. unfold cluster_pinned.
    assert (map_Forall (fun _ row => c_pinned row = false) (cluster (disk unrelated_conn))) as Hx by by_computation.
    destruct (cluster (disk unrelated_conn) !! k) as [row|] eqn:E; [exact (Hx k row E)|reflexivity].
  - apply (f_equal snd) in Hc.
    assert ((refine_clusters (settings (Some 20%Z)) rng0 unrelated_conn).2 = Err KeyError) as E by by_computation.
    rewrite E in Hc. cbn [snd] in Hc. discriminate Hc.
Qed.
Print Assumptions C35_group_tests_refuted.

(** It returns if the target leaves at least one cluster that is not pinned, a feature can
    be moved, and either group tests are off, or there are no more batches than kept
    candidates and no minimum cluster size. *)
Theorem C35_lowering_target_partial : forall a g c t,
  idle c -> usable (disk c) -> pool_works c -> 1 <= r_iterations a -> r_target a = Some t ->
  let n := Z.of_nat (size (selected_clusters (disk c) (r_selection a))) in
  let n_free := Z.of_nat (size (free_clusters (disk c) (r_selection a))) in
  (n - n_free < t)%Z ->
  (exists f, movable_feature (disk c) (r_selection a) f) ->
  r_batches a = Some 0 \/
  (resolve_batches (r_batches a) (Z.to_nat n_free) <= r_top_k a /\ 1 <= r_top_k a /\ r_min_features a = 1) ->
  call_succeeds (refine_clusters a g) c tt (fun _ _ => True).
Proof.
  intros a g c t Hid Hu Hp Hit Ht n nf Hgt Hm Hb. pose proof (refine_call a g c Hid Hu Hp) as H.
  pose proof (subseteq_size _ _ (free_subset (disk c) (r_selection a))) as Hsub.
  destruct (refine_returns a g c Hid Hu Hp Hit) as [cf E].
  - destruct Hb as [?|(_ & ? & _)]; [by right|by left].
  - by right.
  - assert (1 <= aim (worked_on a (disk c)) (work_target a (disk c)))%Z as Haim.
    { unfold aim. rewrite work_target_spec, Ht, size_worked_on by done. fold n. fold nf.
      destruct (t =? 0)%Z eqn:E0; [lia|]. destruct (t - (n - nf) =? 0)%Z eqn:E1; lia. }
    destruct (decide (Z.of_nat (size (worked_on a (disk c))) <= aim (worked_on a (disk c)) (work_target a (disk c)))%Z);
      [by left|right]. split; [done|].
    destruct Hb as [?|(Hb & _ & ?)]; [by left|right]. split; [|done]. rewrite (size_worked_on a _ Hu).
    unfold nf in Hb. by rewrite Nat2Z.id in Hb.
  - rewrite E in H. destruct H as (c' & H1 & H2 & H3 & H4 & _ & H6). exists c'. split_and!; done.
Qed.
Print Assumptions C35_lowering_target_partial.

Example C35_example :
  (idle four_conn /\ quiet (disk four_conn) /\ pool_works four_conn) /\
  size (selected_clusters (disk four_conn) None) = 4 /\ size (free_clusters (disk four_conn) None) = 4 /\
  assigned (disk four_conn) 1 <> None /\ feature_pinned (disk four_conn) 1 = false /\
  length (cluster_ids (disk (refine_clusters (settings (Some 2%Z)) rng0 four_conn).1)) = 2.
Proof. split; [apply four_ready|]. split_and!; by_computation. Qed.

(** C36: [measure] is what a worker computes for the group of features [fs] and the
    candidates [add]; the documents of each feature are restricted to the probe query. *)
Theorem C36_contributions_exact : forall d (probe : option (gset N)) fs add o rem added,
  probe <> Some ∅ -> fs ≠ ∅ ->
  let docs f := match probe with Some q => feature_docs d f ∩ q | None => feature_docs d f end in
  measure d probe fs add = (o, rem, added) ->
  o = objective docs fs /\
  rem.*1 ≡ₚ elements fs /\ added.*1 ≡ₚ elements (add ∖ fs) /\
  (forall f delta, (f, delta) ∈ rem -> member_delta docs fs f delta) /\
  (forall f delta, (f, delta) ∈ added -> outside_delta docs fs f delta).
Proof.
  intros d probe fs add o rem added Hpr Hfs docs Hm.
  unfold measure in Hm.
  assert ((fun f => probed probe (docs_of d f)) = docs) as Hd.
  { unfold docs, probed. destruct probe as [q|]; [|reflexivity].
    rewrite bool_decide_eq_false_2 by congruence. reflexivity. }
  rewrite Hd in Hm. apply measure_docs_spec in Hm as (H1 & H2 & H3 & H4 & H5); [|done].
  split_and!; try done.
  - rewrite H2. apply merge_sort_Permutation.
  - rewrite H3. apply merge_sort_Permutation.
Qed.
Print Assumptions C36_contributions_exact.

(** An empty probe query counts as none; an empty group has objective 0 and no scores. *)
Theorem C36_empty_cases : forall d probe fs add,
  measure d (Some ∅) fs add = measure d None fs add /\
  measure d probe ∅ add = (Qc_of_Z 0, [], []).
Proof. intros. split; [|reflexivity]. unfold measure, probed. by rewrite bool_decide_eq_true_2. Qed.
Print Assumptions C36_empty_cases.

Definition frac (a : Z) (b : positive) : Qc := Q2Qc (QArith_base.Qmake a b).
Example C36_example :
  let o := (frac 5 6 - frac 5 7)%Qc in
  measure sample_index None {[1%N; 2%N]} {[3%N; 4%N]} =
  (o, [(1%N, (o - (frac 2 3 - frac 2 3))%Qc); (2%N, (o - (frac 3 4 - frac 3 4))%Qc)],
   [(3%N, ((frac 7 8 - frac 7 10) - o)%Qc); (4%N, frac (-1) 1)]).
Proof. by_computation. Qed.

(** C37: candidates are compared by score, then by key ([key_le], e.g. the cluster id). *)
Theorem C37_best_moves : forall {K} (key_leb : K -> K -> bool) top_k results f,
  (forall a b, key_leb a b = true \/ key_leb b a = true) ->
  (forall a b c, key_leb a b = true -> key_leb b c = true -> key_leb a c = true) ->
  (forall a b, key_leb a b = true -> key_leb b a = true -> a = b) ->
  let better_or_equal (x y : Qc * K) := (y.1 < x.1)%Qc \/ (x.1 = y.1 /\ key_leb y.2 x.2 = true) in
  let all := concat ((fun r : K * list (N * Qc) =>
               omap (fun s : N * Qc => if decide (s.1 = f) then Some (s.2, r.1) else None) r.2) <$> results) in
  match best_of key_leb top_k results !! f with
  | None => all = []
  | Some best => all <> [] /\ k_greatest (fun x y => better_or_equal y x) top_k all best
  end.
Proof. intros K leb k results f. exact (best_moves leb k results f). Qed.
Print Assumptions C37_best_moves.

Theorem C37_order_independent : forall {K} (key_leb : K -> K -> bool) top_k r1 r2,
  (forall a b, key_leb a b = true \/ key_leb b a = true) ->
  (forall a b c, key_leb a b = true -> key_leb b c = true -> key_leb a c = true) ->
  (forall a b, key_leb a b = true -> key_leb b a = true -> a = b) ->
  r1 ≡ₚ r2 -> best_of key_leb top_k r1 = best_of key_leb top_k r2.
Proof. intros K leb k r1 r2 H1 H2 H3. by apply best_of_perm, Order. Qed.
Print Assumptions C37_order_independent.

(** The keys used: cluster ids, and tuples of cluster ids. *)
Theorem C37_keys :
  (forall a b, Z.leb a b = true <-> (a <= b)%Z) /\ (forall a b, zlist_leb a b = true <-> tuple_le a b) /\
  leb_order Z.leb /\ leb_order zlist_leb.
Proof. split; [apply Z.leb_le|]. split; [apply zlist_leb_spec|]. split; [apply order_Z|apply order_zlist]. Qed.
Print Assumptions C37_keys.

Example C37_example :
  best_of Z.leb 2 [(0%Z, [(7%N, Qc_of_Z 1)]); (2%Z, [(7%N, Qc_of_Z 3)]); (1%Z, [(7%N, Qc_of_Z 3); (8%N, Qc_of_Z 0)])] =
  {[7%N := [(Qc_of_Z 3, 2%Z); (Qc_of_Z 3, 1%Z)]; 8%N := [(Qc_of_Z 0, 1%Z)]]}.
Proof. by_computation. Qed.

(** C38, refuted for refine_clusters: an empty selection selects everything. *)
Theorem C38_empty_selection_refuted :
  ~ (forall a g c c' f, idle c -> quiet (disk c) -> pool_works c -> r_selection a = Some [] ->
      refine_clusters a g c = (c', Ok tt) -> assigned (disk c') f = assigned (disk c) f).
Proof.
  intros H. destruct sample_conn2_ready as (H1 & H2 & H3).
  set (a := RefineArgs 3 (Some []) 1 None None (Qc_of_Z 0) None 2).
  specialize (H a rng0 sample_conn2 (refine_clusters a rng0 sample_conn2).1 1%N H1 H2 H3 eq_refl).
  assert ((refine_clusters a rng0 sample_conn2).2 = Ok tt) as E by by_computation.
  apply run_eq, H in E.
  assert (assigned (disk (refine_clusters a rng0 sample_conn2).1) 1 = Some 0%Z) as E1 by by_computation.
  assert (assigned (disk sample_conn2) 1 = Some 1%Z) as E2 by by_computation.
  rewrite E1, E2 in E. discriminate E.
Qed.
Print Assumptions C38_empty_selection_refuted.

(** What it does instead: exactly what a call without a selection does. *)
Theorem C38_empty_selection_is_none_partial : forall a g c,
  refine_clusters (RefineArgs (r_iterations a) (Some []) (r_min_features a) (r_probe a) (r_target a)
                     (r_tolerance a) (r_batches a) (r_top_k a)) g c =
  refine_clusters (RefineArgs (r_iterations a) None (r_min_features a) (r_probe a) (r_target a)
                     (r_tolerance a) (r_batches a) (r_top_k a)) g c.
Proof. exact refine_empty_selection. Qed.
Print Assumptions C38_empty_selection_is_none_partial.

Example C38_example : cluster_ids sample_db = [0; 1]%Z.
Proof. by_computation. Qed.
