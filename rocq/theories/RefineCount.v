(** RefineCount.v: how many clusters refinement leaves. *)
From Verif Require Export RefineFacts.

Lemma lowest_size objectives (cs : list Z) n s : NoDup cs -> lowest objectives cs n = Ok s ->
  size s = min n (length cs) /\ (forall c, c ∈ s -> c ∈ cs).
Proof.
  intros Hnd. unfold lowest. destruct (rtraverse _ cs) as [l|] eqn:E; [|done]. cbn [rbind]. intros [= <-].
  assert (l.*1 = cs) as Hl.
  { clear Hnd. revert l E. induction cs as [|c cs IH]; intros l E; [by injection E as <-|].
    cbn [rtraverse] in E. destruct (py_get objectives c) as [o|]; [|done]. cbn [rmap rbind] in E.
    destruct (rtraverse _ cs) as [l'|] eqn:E'; [|done]. cbn in E. injection E as <-. cbn. by rewrite (IH l'). }
  assert ((merge_sort objective_le l).*1 ≡ₚ cs) as Hp by (by rewrite merge_sort_Permutation, Hl).
  assert (NoDup (take n (merge_sort objective_le l).*1)) as Hnt.
  { assert (NoDup ((merge_sort objective_le l).*1)) as H by (by rewrite Hp).
    rewrite <- (take_drop n (merge_sort objective_le l).*1) in H. by apply NoDup_app in H as (? & _). }
  split.
  - rewrite size_list_to_set by done. rewrite take_length, (Permutation_length Hp). done.
  - intros c Hc. apply elem_of_list_to_set in Hc. rewrite <- Hp. rewrite <- (take_drop n (merge_sort objective_le l).*1).
    apply elem_of_app. by left.
Qed.

Lemma refine_loop_size d a b frozen movable per n cf fc order td g cf' g' :
  cl_ok cf fc -> (forall f, f ∈ order -> f ∈ movable) -> td <= n * per ->
  refine_loop d a b frozen movable per n cf fc order td g = Ok (cf', g') ->
  size cf' <= max (size cf - td) (size frozen).
Proof.
  revert cf fc order td g. induction n as [|n IH]; intros cf fc order td g Hok Hord Htd H.
  - cbn in H. injection H as <- <-. cbn in Htd. lia.
  - pose proof H as H0. apply refine_loop_spec in H0 as [[_ Hsub0 _] _]; [|done|done].
    cbn [refine_loop] in H.
    destruct (find_best_moves _ _ _ _ _ _ _) as [[[objectives best] g1]|]; [|done]. cbn [rbind] in H.
    destruct (if td =? 0 then Ok ∅ else _) as [dissolve|] eqn:Ed; [|done]. cbn [rbind] in H.
    destruct (py_shuffle order g1) as [order' g2] eqn:Es.
    destruct (rfold _ order' _) as [[p g3]|] eqn:Ef; [|done]. cbn [rbind] in H.
    destruct (drop_dissolved dissolve (p_cf p)) as [cf1|] eqn:Edr; [|done]. cbn [rbind] in H.
    assert (forall f, f ∈ order' -> f ∈ movable) as Hord'.
    { intros f Hf. apply Hord. pose proof (py_shuffle_perm order g1) as Hp. rewrite Es in Hp. cbn in Hp. by rewrite <- Hp. }
    assert (pass_step (r_min_features a) dissolve movable (Pass cf fc 0) p) as Hps.
    { eapply consider_fold; [| |  |exact Ef]; [done|done|]. intros x. rewrite elem_of_z_list. set_solver. }
    destruct Hps as [[Hd1 Hok1 Hf1 Hfix1] Hmin1 Hdis1]. cbn [p_cf p_fc] in *.
    destruct (drop_dissolved_spec _ _ _ Edr) as [Hempty Hlook].
    assert (cl_ok cf1 (p_fc p)) as Hok2.
    { intros f c. rewrite (Hok1 f c), Hlook. destruct (decide (c ∈ dissolve)) as [Hc|Hc]; [|reflexivity].
      split; [|by intros (? & ? & _)]. intros (s & Hs & Hfs). rewrite (Hempty c Hc) in Hs.
      injection Hs as <-. set_solver. }
    assert (dom cf1 = dom cf ∖ dissolve) as Hdom1.
    { apply set_eq. intros c. rewrite elem_of_difference, <- Hd1, !elem_of_dom, Hlook. destruct (decide (c ∈ dissolve)) as [Hc|Hc].
      - split; [by intros []|]. by intros [_ ?].
      - split; [by intros ?|]. by intros [? _]. }
    assert (dissolve ⊆ dom cf) as Hdsub.
    { rewrite <- Hd1. intros c Hc. apply elem_of_dom. rewrite (Hempty c Hc). eauto. }
    assert (size cf1 = size cf - size dissolve) as Hsz1.
    { rewrite <- !size_dom, Hdom1. by apply size_difference. }
    assert (size cf' <= size cf1) as Hmono.
    { assert (dom cf' ⊆ dom cf1) as Hs.
      { case_bool_decide.
        - destruct (size movable =? 0); [done|]. destruct (small_share _ _ _); [by injection H as <- _|].
          by apply refine_loop_spec in H as [[_ ? _] _].
        - by apply refine_loop_spec in H as [[_ ? _] _]. }
      apply subseteq_size in Hs. by rewrite !size_dom in Hs. }
    destruct (td =? 0) eqn:Etd.
    { apply Nat.eqb_eq in Etd. subst td. lia. }
    apply Nat.eqb_neq in Etd. apply lowest_size in Ed as [Hds Hdin]; [|apply NoDup_z_list].
    assert (length (z_list (dom cf ∖ frozen)) = size (dom cf ∖ frozen)) as Hlen.
    { rewrite <- (size_list_to_set (C := gset Z)) by apply NoDup_z_list. f_equal. apply set_eq. intros x.
      by rewrite elem_of_list_to_set, elem_of_z_list. }
    rewrite Hlen in Hds.
    destruct (decide (min td per <= size (dom cf ∖ frozen))) as [Hle|Hgt].
    + rewrite Nat.min_l in Hds by done.
      assert (1 <= per). { destruct per; [|lia]. rewrite Nat.mul_0_r in Htd. lia. }
      rewrite bool_decide_eq_false_2 in H.
      2:{ intros ->. rewrite size_empty in Hds. lia. }
      apply IH in H; [|done|done|].
      2:{ cbn in Htd. lia. }
      lia.
    + rewrite Nat.min_r in Hds by lia.
      assert (dissolve = dom cf ∖ frozen) as Hall.
      { apply set_eq. assert (dissolve ⊆ dom cf ∖ frozen) as Hs.
        { intros c Hc. by apply Hdin, elem_of_z_list in Hc. }
        destruct (decide (dom cf ∖ frozen ⊆ dissolve)) as [Hs2|Hs2]; [set_solver|]. exfalso.
        assert (dissolve ⊂ dom cf ∖ frozen) as Hst by (by split).
        apply subset_size in Hst. lia. }
      assert (size cf1 <= size frozen).
      { rewrite <- size_dom, Hdom1, Hall. apply subseteq_size. intros c [Hc Hn]%elem_of_difference.
        destruct (decide (c ∈ frozen)); [done|]. set_solver. }
      lia.
Qed.

Definition frozen_of (pinned : gset N) (cf : clustering) : gset Z :=
  dom (filter (fun kv : Z * gset N => kv.2 ∩ pinned ≠ ∅) cf).

Lemma refine_groups_size d a b cf pinned target g cf2 new g2 : r_iterations a <> 0 ->
  disjoint_clusters cf -> refine_feature_groups d a b cf pinned target g = Ok (cf2, new, g2) ->
  (Z.of_nat (size cf2) <= Z.max 0 (Z.max (aim cf target) (Z.of_nat (size (frozen_of pinned cf)))))%Z.
Proof.
  intros Hit Hd. unfold refine_feature_groups. fold (aim cf target). fold (max_id (dom cf)). fold (frozen_of pinned cf).
  destruct (Z.of_nat (size cf) =? 0)%Z eqn:E0; [intros [= <- <- <-]; lia|].
  destruct ((Z.of_nat (size cf) =? 1)%Z && (aim cf target =? 1)%Z) eqn:E1; [intros [= <- <- <-]; lia|].
  assert (cf ≠ ∅) as Hne. { intros ->. by rewrite map_size_empty in E0. }
  cbv zeta. set (new' := z_range (max_id (dom cf) + 1) (aim cf target - Z.of_nat (size cf))).
  assert (forall x, x ∈ new' -> x ∉ dom cf) as Hfresh.
  { intros x Hx Hin. apply max_id_ge in Hin. unfold new' in Hx. apply elem_of_z_range in Hx. lia. }
  pose proof (feature_map_ok cf Hd) as Hok.
  destruct (split_all_spec pinned new' cf (feature_map cf) g ltac:(by left) Hok (NoDup_z_range _ _) Hfresh)
    as (cf1 & fc1 & g1 & Esp & [S1 S2 S3 S4]). rewrite Esp. cbn [rbind].
  assert (Z.of_nat (size cf1) = Z.of_nat (size cf) + Z.of_nat (length new'))%Z as Hsz.
  { rewrite <- !size_dom, S2. rewrite size_union.
    - rewrite size_list_to_set by apply NoDup_z_range. lia.
    - intros x Hx Hx'. apply elem_of_list_to_set in Hx'. by apply (Hfresh x). }
  unfold new' in Hsz at 1. rewrite length_z_range in Hsz.
  destruct (refine_loop _ _ _ _ _ _ _ _ _ _ _ _) as [[cf3 g3]|] eqn:El; [|done]. cbn [rbind].
  intros [= <- <- <-].
  set (td := Z.to_nat (Z.of_nat (size cf1) - aim cf target)) in *.
  apply refine_loop_size in El; [|done|by intros f; rewrite elem_of_elements|].
  2:{ set (k := max 1 (r_iterations a - 1)). assert (1 <= k <= r_iterations a) as Hk by lia.
      transitivity (k * ((td + k - 1) / k)).
      - pose proof (Nat.div_mod (td + k - 1) k ltac:(lia)) as Hdm.
        pose proof (Nat.mod_upper_bound (td + k - 1) k ltac:(lia)). lia.
      - apply Nat.mul_le_mono_r. lia. }
  lia.
Qed.

Lemma rename_fold_size next new copies : forall cf j, length copies = length new -> NoDup new ->
  list_to_set new ⊆ dom cf ->
  size (rename_fold next cf (zip (seq j (length new)) (zip new copies))) <= size cf.
Proof.
  revert copies. induction new as [|c new IH]; intros [|s copies] cf j Hlen Hnd Hin; try done.
  cbn [length seq zip zip_with]. unfold rename_fold. cbn [foldl]. inversion Hnd as [|? ? Hc Hnd']; subst.
  assert (c ∈ dom cf) as Hcd by set_solver.
  etrans; [apply (IH copies (<[(next + Z.of_nat j)%Z:=s]> (delete c cf)) (S j)); [cbn in Hlen; lia|done|]|].
  - rewrite dom_insert_L, dom_delete_L. intros x Hx. apply elem_of_list_to_set in Hx.
    assert (x ≠ c) by congruence. set_solver.
  - assert (size cf = S (size (delete c cf))) as ->.
    { apply elem_of_dom in Hcd as [v Hv]. rewrite <- (insert_delete cf c v Hv) at 1. by rewrite map_size_insert_None by apply lookup_delete. }
    destruct (delete c cf !! (next + Z.of_nat j)%Z) eqn:El.
    + rewrite map_size_insert_Some by eauto. lia.
    + by rewrite map_size_insert_None.
Qed.

(** All clusters of the features worked on are clusters of the plan. *)
Lemma plan_size a g com d cf3 : usable d -> r_iterations a <> 0 ->
  refine_plan a g com d = Ok cf3 ->
  (Z.of_nat (size cf3) <= Z.max 0 (Z.max (aim (worked_on a d) (work_target a d))
     (Z.of_nat (size (frozen_of (selected_pinned (selection a d) d) (worked_on a d))))))%Z /\
  ((Z.of_nat (size (worked_on a d)) <= aim (worked_on a d) (work_target a d))%Z -> dom (worked_on a d) ⊆ dom cf3).
Proof.
  intros Hu Hit. rewrite refine_plan_unfold. rewrite (proj2 (Nat.eqb_neq _ 0) Hit).
  destruct (refine_feature_groups _ _ _ _ _ _ _) as [[[cf2 new] g2]|] eqn:Eg; [|done]. cbn [rbind].
  pose proof (refine_groups_size _ _ _ _ _ _ _ _ _ _ Hit (worked_on_disjoint a d) Eg) as Hsz.
  apply refine_feature_groups_spec in Eg; [|apply worked_on_disjoint].
  destruct Eg as [_ Hnew Hin _ _ _ Hgrow].
  assert (NoDup new) as Hnd. { destruct Hnew as [[-> _]|[_ ->]]; [constructor|apply NoDup_z_range]. }
  assert (forall x, x ∈ new -> x ∉ dom (worked_on a d)) as Hfresh.
  { intros x Hx Hd. destruct Hnew as [[-> _]|[_ ->]]; [by apply elem_of_nil in Hx|].
    apply elem_of_z_range in Hx. apply max_id_ge in Hd. lia. }
  destruct (rename_new_ok (next_cluster_id d) new cf2 Hin) as (copies & Hlen & Hcop & ->).
  intros [= <-]. split.
  - pose proof (rename_fold_size (next_cluster_id d) new copies cf2 0 Hlen Hnd Hin). lia.
  - intros Hge x Hx. pose proof (worked_on_next a d x Hu Hx) as Hlt.
    apply elem_of_dom. rewrite rename_fold_other; [|done| |].
    + apply elem_of_dom. rewrite (Hgrow Hge). set_solver.
    + intros Hn. by apply (Hfresh x).
    + intros i Hi. lia.
Qed.
