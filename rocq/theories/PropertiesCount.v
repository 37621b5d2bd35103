(** PropertiesCount.v: C115, how many clusters refine_clusters leaves (proofs in
    RefineCount.v). The vocabulary is in SpecCluster.v, SpecConn.v and SpecRefine.v. *)
From Verif Require Import RefineCount PropertiesRefine SampleDb.

(** The selected clusters that cannot be dissolved: pinned, or with a pinned feature. *)
Definition held_cluster (d : db) (sel : option (list Z)) (x : Z) : Prop :=
  x ∈ selected_clusters d sel /\
  (cluster_pinned d x = true \/ exists f, assigned d f = Some x /\ feature_pinned d f = true).

(** However many clusters there were: with a target above the number of pinned ones among
    them, the selection is left with at most that many, or with those that cannot be dissolved. *)
Theorem C115_at_most_target_partial : forall a g c t held,
  idle c -> usable (disk c) -> pool_works c -> r_target a = Some t ->
  let n := size (selected_clusters (disk c) (r_selection a)) in
  let n_pinned := n - size (free_clusters (disk c) (r_selection a)) in
  (Z.of_nat n_pinned < t)%Z ->
  (forall x : Z, x ∈ (held : gset Z) <-> held_cluster (disk c) (r_selection a) x) ->
  (exists e, call_raises (refine_clusters a g) c e) \/
  call_succeeds (refine_clusters a g) c tt (fun d d' =>
    (Z.of_nat (length (cluster_ids d') + n) <= Z.of_nat (length (cluster_ids d)) + Z.max t (Z.of_nat (size held)))%Z).
Proof.
  intros a g c t held Hid Hu Hp Ht n n_pinned Hlt Hheld. pose proof (refine_call a g c Hid Hu Hp) as H.
  destruct (refine_plan a g (disk c) (disk c)) as [cf|e] eqn:E; [right|left; eauto].
  assert (r_iterations a <> 0) as Hit.
  { intros E0. rewrite refine_plan_unfold, E0 in E. discriminate E. }
  pose proof (refine_plan_ok _ _ _ _ _ Hu E) as Hpl. pose proof (plan_size _ _ _ _ _ Hu Hit E) as [Hsz Hgrow].
  destruct H as (c' & H1 & H2 & H3 & H4 & [H5 _] & H6). exists c'. split_and!; try done.
  set (d := disk c) in *. set (d' := disk c') in *. set (sel := r_selection a) in *.
  assert (forall s : gset Z, length (z_list s) = size s) as Hzl.
  { intros s. rewrite <- (size_list_to_set (C := gset Z)) by apply NoDup_z_list. f_equal. apply set_eq. intros x.
    by rewrite elem_of_list_to_set, elem_of_z_list. }
  unfold cluster_ids. rewrite !Hzl. pose proof (worked_on_dom a d Hu) as Hwd. fold sel in Hwd.
  pose proof (free_subset d sel) as Hfs. pose proof (subseteq_size _ _ Hfs) as Hfsz.
  assert (selected_clusters d sel ⊆ dom (cluster d)) as Hss. { unfold selected_clusters. set_solver. }
  assert (dom (cluster d') ⊆ (dom (cluster d) ∖ free_clusters d sel) ∪ dom cf) as Hsub.
  { intros x Hx. assert (members d' x ≠ ∅) as Hne.
    { apply (quiet_cluster_ids d' x (proj2 H3)). unfold cluster_ids. by apply elem_of_z_list. }
    apply set_choose_L in Hne as [f Hf]. apply (updated_members a cf d d' x f Hpl H5) in Hf.
    destruct Hf as [(s & Hs & _)|[Hno Hf]]; [apply elem_of_union_r; by apply elem_of_dom_2 in Hs|].
    assert (x ∈ dom (cluster d)) as Hxd. { apply (members_cluster d x Hu). intros Hn. rewrite Hn in Hf. set_solver. }
    destruct (decide (x ∈ free_clusters d sel)) as [Hfree|Hfree]; [|set_solver].
    apply elem_of_union_r. pose proof Hfree as Hw. rewrite <- Hwd in Hw.
    destruct (decide (Z.of_nat (size (worked_on a d)) <= aim (worked_on a d) (work_target a d))%Z) as [Hge|Hge].
    - by apply Hgrow.
    - exfalso. apply assigned_members in Hf.
      destruct (po_all _ _ _ _ Hpl ltac:(lia) f x Hf Hw) as (y & s & Hs & Hfs'). by apply (Hno y s). }
  apply subseteq_size in Hsub.
  assert (size ((dom (cluster d) ∖ free_clusters d sel) ∪ dom cf) <= size (dom (cluster d)) - size (free_clusters d sel) + size cf) as Hun.
  { rewrite size_union_alt. rewrite <- (size_dom cf), <- size_difference by set_solver.
    pose proof (subseteq_size (dom cf ∖ (dom (cluster d) ∖ free_clusters d sel)) (dom cf) ltac:(set_solver)). lia. }
  pose proof (subseteq_size _ _ Hss) as Hssz.
  (* what cannot be dissolved *)
  set (frozen := frozen_of (selected_pinned (selection a d) d) (worked_on a d)) in *.
  assert (frozen ⊆ free_clusters d sel) as Hff.
  { rewrite <- Hwd. unfold frozen, frozen_of. intros x Hx. apply elem_of_dom in Hx as [s Hs].
    apply map_filter_lookup_Some in Hs as [Hs _]. by apply elem_of_dom_2 in Hs. }
  assert ((selected_clusters d sel ∖ free_clusters d sel) ∪ frozen ⊆ held) as Hhs.
  { intros x Hx. apply Hheld. apply elem_of_union in Hx as [Hx|Hx].
    - apply elem_of_difference in Hx as [Hx Hn]. split; [done|]. left. destruct (cluster_pinned d x) eqn:Ep; [done|].
      destruct Hn. unfold free_clusters. by apply elem_of_filter.
    - split; [by apply Hfs, Hff|]. right. unfold frozen, frozen_of in Hx. apply elem_of_dom in Hx as [s Hs].
      apply map_filter_lookup_Some in Hs as [Hs Hi]. cbn in Hi. apply set_choose_L in Hi as [f Hf].
      apply elem_of_intersection in Hf as [Hf1 Hf2]. exists f. apply elem_of_selected_pinned in Hf2 as (y & Hy & _ & Hpin).
      apply worked_on_spec in Hs as (_ & _ & -> & _). by apply assigned_members in Hf1. }
  apply subseteq_size in Hhs. rewrite size_union in Hhs by set_solver. rewrite size_difference in Hhs by done.
  fold n in Hfsz, Hhs, Hssz. assert (n_pinned = n - size (free_clusters d sel)) as Hnp by done.
  clearbody n_pinned.
  assert (aim (worked_on a d) (work_target a d) = t - Z.of_nat n_pinned)%Z as Haim.
  { unfold aim. rewrite (work_target_spec a d Hu), Ht. fold sel. fold n.
    destruct (t =? 0)%Z eqn:E0; [apply Z.eqb_eq in E0; subst t; lia|].
    destruct (t - _ =? 0)%Z eqn:E1; [apply Z.eqb_eq in E1|apply Z.eqb_neq in E1]; lia. }
  rewrite Haim in Hsz. lia.
Qed.
Print Assumptions C115_at_most_target_partial.

(** The target equal to the number of pinned clusters is taken for no target: two of four
    clusters are pinned, and the target 2 leaves four where 3 leaves three. *)
Definition two_pinned_conn : conn := (pin_clusters [0;1]%Z true four_conn).1.
Lemma two_pinned_ready : idle two_pinned_conn /\ quiet (disk two_pinned_conn) /\ pool_works two_pinned_conn.
Proof.
  destruct four_ready as (H1 & H2 & H3).
  refine (ready_after _ _ _ _ (pin_clusters_call [0;1]%Z true four_conn H1 (quiet_usable _ H2) H3) _).
  unfold pool_works. by_computation.
Qed.
Theorem C115_target_of_pinned_refuted :
  ~ (forall a g c c' t held, idle c -> quiet (disk c) -> pool_works c -> r_target a = Some t -> (0 < t)%Z ->
      r_selection a = None -> (forall x : Z, x ∈ (held : gset Z) <-> held_cluster (disk c) None x) ->
      refine_clusters a g c = (c', Ok tt) ->
      (Z.of_nat (length (cluster_ids (disk c'))) <= Z.max t (Z.of_nat (size held) + 1))%Z).
Proof.
  intros H. destruct two_pinned_ready as (H1 & H2 & H3).
  specialize (H (settings (Some 2%Z)) rng0 two_pinned_conn (refine_clusters (settings (Some 2%Z)) rng0 two_pinned_conn).1 2%Z
    {[0; 1]}%Z H1 H2 H3 eq_refl eq_refl eq_refl).
  assert (length (cluster_ids (disk (refine_clusters (settings (Some 2%Z)) rng0 two_pinned_conn).1)) = 4) as E by by_computation.
  rewrite E in H. assert (size ({[0; 1]}%Z : gset Z) = 2) as Es by by_computation. rewrite Es in H.
  cut (4 <= Z.max 2 (2 + 1))%Z; [lia|]. apply H.
  - assert (selected_clusters (disk two_pinned_conn) None = {[0;1;2;3]}%Z) as Esel by by_computation.
    assert (forall f, feature_pinned (disk two_pinned_conn) f = false) as Enf.
    { intros f. unfold feature_pinned. destruct (feature_cluster (disk two_pinned_conn) !! f) as [row|] eqn:Er; [|done].
      assert (map_Forall (fun _ r => fc_pinned r = false) (feature_cluster (disk two_pinned_conn))) as Hall by by_computation.
      exact (Hall f row Er). }
    intros x. unfold held_cluster. rewrite Esel. split.
    + intros [->%elem_of_singleton| ->%elem_of_singleton]%elem_of_union; (split; [set_solver|left; by_computation]).
    + intros [Hx [Hc|(f & _ & Hf)]]; [|by rewrite Enf in Hf].
      apply elem_of_union in Hx as [Hx| ->%elem_of_singleton]; [|exfalso; assert (cluster_pinned (disk two_pinned_conn) 3 = false) as E3 by by_computation; congruence].
      apply elem_of_union in Hx as [Hx| ->%elem_of_singleton]; [done|exfalso; assert (cluster_pinned (disk two_pinned_conn) 2 = false) as E3 by by_computation; congruence].
  - assert ((refine_clusters (settings (Some 2%Z)) rng0 two_pinned_conn).2 = Ok tt) as E2 by by_computation.
    rewrite <- E2. apply surjective_pairing.
Qed.
Print Assumptions C115_target_of_pinned_refuted.

(** Raising the number of clusters does not raise an exception. *)
Theorem C115_raising_target : forall a g c t,
  idle c -> usable (disk c) -> pool_works c ->
  1 <= r_iterations a -> 1 <= r_top_k a \/ r_batches a = Some 0 -> r_target a = Some t ->
  (Z.of_nat (size (selected_clusters (disk c) (r_selection a))) <= t)%Z ->
  (exists f, movable_feature (disk c) (r_selection a) f) \/ selected_clusters (disk c) (r_selection a) = ∅ ->
  call_succeeds (refine_clusters a g) c tt (fun _ _ => True).
Proof.
  intros a g c t Hid Hu Hp Hit Hk Ht Hle Hm. pose proof (refine_call a g c Hid Hu Hp) as H.
  pose proof (subseteq_size _ _ (free_subset (disk c) (r_selection a))) as Hsub.
  assert (exists cf, refine_plan a g (disk c) (disk c) = Ok cf) as [cf E].
  { destruct Hm as [Hm|Hm].
    - apply refine_returns; try done; [by right|]. left.
      unfold aim. rewrite work_target_spec, Ht, size_worked_on by done. 
      destruct (t =? 0)%Z eqn:E0; [apply Z.eqb_eq in E0|apply Z.eqb_neq in E0];
        (destruct (_ - _ =? 0)%Z eqn:E1; [apply Z.eqb_eq in E1|apply Z.eqb_neq in E1]; lia).
    - rewrite refine_plan_unfold. replace (r_iterations a =? 0) with false by (symmetry; apply Nat.eqb_neq; lia).
      assert (worked_on a (disk c) = ∅) as Hw.
      { apply map_size_empty_inv. rewrite size_worked_on by done. rewrite Hm, size_empty in Hsub. lia. }
      rewrite Hw. cbn [rbind]. unfold refine_feature_groups. rewrite map_size_empty. cbn. eauto. }
  rewrite E in H. destruct H as (c' & H1 & H2 & H3 & H4 & _ & H6). exists c'. split_and!; done.
Qed.
Print Assumptions C115_raising_target.

Example C115_example :
  (idle two_pinned_conn /\ quiet (disk two_pinned_conn) /\ pool_works two_pinned_conn) /\
  length (cluster_ids (disk two_pinned_conn)) = 4 /\
  size (selected_clusters (disk two_pinned_conn) None) = 4 /\ size (free_clusters (disk two_pinned_conn) None) = 2 /\
  length (cluster_ids (disk (refine_clusters (settings (Some 3%Z)) rng0 two_pinned_conn).1)) = 3 /\
  (refine_clusters (settings (Some 6%Z)) rng0 two_pinned_conn).2 = Ok tt /\
  movable_feature (disk two_pinned_conn) None 5.
Proof.
  split; [apply two_pinned_ready|]. split; [by_computation|]. split; [by_computation|]. split; [by_computation|].
  split; [by_computation|]. split; [by_computation|].
  exists 2%Z. split; [by_computation|]. split; by_computation.
Qed.
