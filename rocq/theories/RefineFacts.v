(** RefineFacts.v: the facts behind the statements about [refine_clusters]. *)
From Verif Require Export RefineTotal RefineCalls SpecRefine ScoreProofs.

Lemma members_cluster d c : usable d -> members d c ≠ ∅ -> c ∈ dom (cluster d).
Proof.
  intros [(Href & _ & _) _] Hne. apply set_choose_L in Hne as [f Hf].
  apply elem_of_members in Hf as (row & Hrow & <-). destruct (Href f row Hrow) as [_ H]. by apply elem_of_dom.
Qed.

Lemma elem_of_selection a d c : c ∈ dom (cluster d) ->
  c ∈ selection a d <-> r_selection a = None \/ r_selection a = Some [] \/ c ∈ default [] (r_selection a).
Proof.
  intros Hc. unfold selection. rewrite elem_of_list_to_set.
  assert (c ∈ cluster_ids d) as Hin by (by apply elem_of_z_list).
  destruct (r_selection a) as [[|x l]|]; cbn; naive_solver.
Qed.

Lemma selected_dom a d : usable d ->
  dom (selected_clustering (selection a d) d) = selected_clusters d (r_selection a).
Proof.
  intros Hu. apply set_eq. intros c. unfold selected_clusters. rewrite elem_of_dom, elem_of_filter. split.
  - intros [s (H1 & -> & H2)%selected_clustering_spec].
    pose proof (members_cluster d c Hu H2) as Hc. split_and!; try done. by apply (elem_of_selection a d c Hc).
  - intros ([H1 H2] & Hc). exists (members d c). apply selected_clustering_spec. split_and!; [|done|done].
    by apply (elem_of_selection a d c Hc).
Qed.

Lemma worked_on_dom a d : usable d -> dom (worked_on a d) = free_clusters d (r_selection a).
Proof.
  intros Hu. apply set_eq. intros c. unfold free_clusters. rewrite elem_of_filter, <- (selected_dom a d Hu), !elem_of_dom.
  split.
  - intros [s (H1 & H2 & -> & H3)%worked_on_spec]. split; [done|]. exists (members d c).
    by apply selected_clustering_spec.
  - intros (H1 & s & H2). apply selected_clustering_spec in H2 as (H2 & -> & H3).
    exists (members d c). by apply worked_on_spec.
Qed.

Lemma free_subset d sel : free_clusters d sel ⊆ selected_clusters d sel.
Proof. unfold free_clusters. intros c [_ H]%elem_of_filter. done. Qed.

Lemma size_worked_on a d : usable d -> size (worked_on a d) = size (free_clusters d (r_selection a)).
Proof. intros Hu. by rewrite <- worked_on_dom, size_dom. Qed.

Lemma work_target_spec a d : usable d ->
  work_target a d =
  ((match r_target a with
    | Some t => if (t =? 0)%Z then Z.of_nat (size (selected_clusters d (r_selection a))) else t
    | None => Z.of_nat (size (selected_clusters d (r_selection a)))
    end) - (Z.of_nat (size (selected_clusters d (r_selection a))) - Z.of_nat (size (free_clusters d (r_selection a)))))%Z.
Proof.
  intros Hu. unfold work_target.
  assert (size (selected_clustering (selection a d) d) = size (selected_clusters d (r_selection a))) as ->.
  { by rewrite <- selected_dom, size_dom. }
  f_equal. rewrite selected_dom by done.
  assert (selected_clusters d (r_selection a) ∩ pinned_cluster_ids d =
          selected_clusters d (r_selection a) ∖ free_clusters d (r_selection a)) as ->.
  { apply set_eq. intros c. rewrite elem_of_intersection, elem_of_difference, elem_of_pinned_ids.
    unfold free_clusters. rewrite elem_of_filter. destruct (cluster_pinned d c); naive_solver. }
  pose proof (free_subset d (r_selection a)). rewrite size_difference by done.
  pose proof (subseteq_size _ _ H). lia.
Qed.

Lemma aim_none a d : usable d -> r_target a = None ->
  aim (worked_on a d) (work_target a d) = Z.of_nat (size (worked_on a d)).
Proof.
  intros Hu Ht. unfold aim. case_match eqn:E; [done|]. rewrite work_target_spec, Ht, size_worked_on by done. lia.
Qed.

Lemma aim_some a d t : usable d -> r_target a = Some t -> (0 < t)%Z ->
  (aim (worked_on a d) (work_target a d) - Z.of_nat (size (worked_on a d)) <=
   Z.max 0 (t - Z.of_nat (size (selected_clusters d (r_selection a)))))%Z.
Proof.
  intros Hu Ht Hp. unfold aim. rewrite work_target_spec, Ht, size_worked_on by done.
  destruct (t =? 0)%Z eqn:E; [lia|]. case_match; lia.
Qed.

(** ** After the update *)
Lemma updated_assigned cf d d' f : updated_with cf d d' -> disjoint_clusters cf ->
  (forall c s, cf !! c = Some s -> f ∈ s -> assigned d' f = (fun _ => c) <$> assigned d f) /\
  ((forall c s, cf !! c = Some s -> f ∉ s) -> assigned d' f = assigned d f) /\
  feature_pinned d' f = feature_pinned d f /\
  fc_docs_count <$> feature_cluster d' !! f = fc_docs_count <$> feature_cluster d !! f.
Proof.
  intros [U1 U2] Hdj. split; [|split].
  - intros c s Hc Hf. unfold assigned. rewrite (U1 f c s Hc Hf). by destruct (feature_cluster d !! f).
  - intros H. unfold assigned. by rewrite (U2 f H).
  - destruct (decide (f ∈ features_in cf)) as [Hin|Hin].
    + apply elem_of_features_in in Hin as (c & s & Hc & Hf). unfold feature_pinned. rewrite (U1 f c s Hc Hf).
      by destruct (feature_cluster d !! f).
    + unfold feature_pinned. rewrite (U2 f); [done|]. intros c s Hc Hf. apply Hin. apply elem_of_features_in. eauto.
Qed.

Lemma refine_conserves a g c : idle c -> usable (disk c) -> pool_works c ->
  (exists e, call_raises (refine_clusters a g) c e) \/
  call_succeeds (refine_clusters a g) c tt (fun d d' =>
    (forall f, is_Some (assigned d' f) <-> is_Some (assigned d f)) /\
    (forall f, fc_docs_count <$> feature_cluster d' !! f = fc_docs_count <$> feature_cluster d !! f) /\
    (forall f, feature_pinned d' f = feature_pinned d f) /\ cluster_pins_kept d d').
Proof.
  intros Hid Hu Hp. pose proof (refine_call a g c Hid Hu Hp) as H.
  destruct (refine_plan a g (disk c) (disk c)) as [cf|e] eqn:E; [right|left; eauto].
  pose proof (refine_plan_ok _ _ _ _ _ Hu E) as [_ _ _ Hdj _ _ _].
  destruct H as (c' & H1 & H2 & H3 & H4 & [H5 H5'] & H6). exists c'. split_and!; try done.
  - intros f. destruct (updated_assigned cf _ _ f H5 Hdj) as (A1 & A2 & _).
    destruct (decide (f ∈ features_in cf)) as [Hin|Hin].
    + apply elem_of_features_in in Hin as (x & s & Hc & Hf). rewrite (A1 x s Hc Hf). by rewrite fmap_is_Some.
    + rewrite A2; [done|]. intros x s Hc Hf. apply Hin. apply elem_of_features_in. eauto.
  - intros f. by destruct (updated_assigned cf _ _ f H5 Hdj) as (_ & _ & _ & A).
  - intros f. by destruct (updated_assigned cf _ _ f H5 Hdj) as (_ & _ & A & _).
Qed.

(** Membership afterwards. *)
Lemma updated_members a cf d d' x f : plan_ok (r_min_features a) a d cf -> updated_with cf d d' ->
  f ∈ members d' x <-> (exists s, cf !! x = Some s /\ f ∈ s) \/
    ((forall c s, cf !! c = Some s -> f ∉ s) /\ f ∈ members d x).
Proof.
  intros [Hsrc _ _ Hdj _ _ _] Hup. destruct (updated_assigned cf d d' f Hup Hdj) as (A1 & A2 & _).
  rewrite !assigned_members. split.
  - intros Ha. destruct (decide (f ∈ features_in cf)) as [Hin|Hin].
    + apply elem_of_features_in in Hin as (c & s & Hc & Hf). left.
      destruct (Hsrc c s f Hc Hf) as (c0 & Hc0 & _). rewrite (A1 c s Hc Hf), Hc0 in Ha. cbn in Ha.
      injection Ha as <-. eauto.
    + right. assert (forall c s, cf !! c = Some s -> f ∉ s) as Hno.
      { intros c s Hc Hf. apply Hin. apply elem_of_features_in. eauto. }
      split; [done|]. by rewrite <- A2.
  - intros [(s & Hs & Hf)|[Hno Ha]].
    + destruct (Hsrc x s f Hs Hf) as (c0 & Hc0 & _). by rewrite (A1 x s Hs Hf), Hc0.
    + by rewrite A2.
Qed.

Lemma untouched_members a cf d d' x : usable d -> plan_ok (r_min_features a) a d cf -> updated_with cf d d' ->
  x ∈ dom (cluster d) -> x ∉ free_clusters d (r_selection a) -> members d' x = members d x.
Proof.
  intros Hu Hpl Hup Hx Hfree. apply set_eq. intros f. rewrite (updated_members a cf d d' x f Hpl Hup).
  rewrite <- (worked_on_dom a d Hu) in Hfree. pose proof (next_cluster_id_fresh _ _ Hx).
  destruct Hpl as [Hsrc _ Htgt _ _ _ _]. split.
  - intros [(s & Hs & Hf)|[_ ?]]; [|done]. exfalso. apply elem_of_dom_2 in Hs. destruct (Htgt x Hs); [done|lia].
  - intros Hm. right. split; [|done]. intros c s Hc Hf. destruct (Hsrc c s f Hc Hf) as (c0 & Hc0 & Hin).
    apply assigned_members in Hm. congruence.
Qed.

Lemma refine_respects_pins a g c : idle c -> usable (disk c) -> pool_works c ->
  (exists e, call_raises (refine_clusters a g) c e) \/
  call_succeeds (refine_clusters a g) c tt (fun d d' =>
    (forall f, feature_pinned d f = true -> assigned d' f = assigned d f) /\
    (forall x, cluster_pinned d x = true -> members d' x = members d x) /\
    (forall l x, r_selection a = Some l -> l <> [] -> x ∉ l -> x ∈ cluster_ids d -> members d' x = members d x)).
Proof.
  intros Hid Hu Hp. pose proof (refine_call a g c Hid Hu Hp) as H.
  destruct (refine_plan a g (disk c) (disk c)) as [cf|e] eqn:E; [right|left; eauto].
  pose proof (refine_plan_ok _ _ _ _ _ Hu E) as Hpl. pose proof Hpl as [_ Hpin _ Hdj _ _ _].
  destruct H as (c' & H1 & H2 & H3 & H4 & [H5 H5'] & H6). exists c'. split_and!; try done.
  - intros f Hf. destruct (updated_assigned cf _ _ f H5 Hdj) as (A1 & A2 & _).
    destruct (decide (f ∈ features_in cf)) as [Hin|Hin].
    + apply elem_of_features_in in Hin as (x & s & Hc & Hin). rewrite (A1 x s Hc Hin), (Hpin x s f Hc Hin Hf). done.
    + rewrite A2; [done|]. intros x s Hc Hf'. apply Hin. apply elem_of_features_in. eauto.
  - intros x Hx. assert (x ∈ dom (cluster (disk c))) as Hd.
    { unfold cluster_pinned in Hx. destruct (cluster (disk c) !! x) eqn:Ex; [|done]. by apply elem_of_dom_2 in Ex. }
    eapply untouched_members; try done. unfold free_clusters. intros [Hno _]%elem_of_filter. congruence.
  - intros l x Hl Hne Hx Hd. apply elem_of_z_list in Hd.
    eapply untouched_members; try done. unfold free_clusters, selected_clusters. rewrite Hl.
    intros (_ & ([_ Hin] & _)%elem_of_filter)%elem_of_filter. destruct l; cbn in Hin; naive_solver.
Qed.

Lemma refine_min_size a g c : idle c -> usable (disk c) -> pool_works c ->
  (forall t, r_target a = Some t -> (0 <= t <= Z.of_nat (size (selected_clusters (disk c) (r_selection a))))%Z) ->
  (exists e, call_raises (refine_clusters a g) c e) \/
  call_succeeds (refine_clusters a g) c tt (fun d d' => forall x,
    r_min_features a <= size (members d x) ->
    r_min_features a <= size (members d' x) \/ (r_target a <> None /\ members d' x = ∅)).
Proof.
  intros Hid Hu Hp Ht. pose proof (refine_call a g c Hid Hu Hp) as H.
  destruct (refine_plan a g (disk c) (disk c)) as [cf|e] eqn:E; [right|left; eauto].
  pose proof (refine_plan_ok _ _ _ _ _ Hu E) as Hpl. pose proof Hpl as [Hsrc _ _ Hdj Hall Hmin Hsame].
  destruct H as (c' & H1 & H2 & H3 & H4 & [H5 H5'] & H6). exists c'. split_and!; try done.
  intros x Hm. set (d := disk c) in *.
  assert (aim (worked_on a d) (work_target a d) <= Z.of_nat (size (worked_on a d)))%Z as Hle.
  { destruct (r_target a) as [t|] eqn:Et; [|rewrite aim_none; [lia|done|done]].
    destruct (Ht t eq_refl) as [Ht0 Ht1].
    unfold aim. rewrite work_target_spec, Et, size_worked_on by done.
    destruct (t =? 0)%Z eqn:E0; case_match; lia. }
  destruct (decide (x ∈ dom (worked_on a d))) as [Hw|Hw].
  2:{ left. destruct (decide (members d x = ∅)) as [He|Hne].
      - rewrite He, size_empty in Hm. lia.
      - rewrite (untouched_members a cf d (disk c') x Hu Hpl H5); [done|by apply members_cluster|].
        by rewrite <- worked_on_dom. }
  assert (forall f, f ∈ members (disk c') x <-> exists s, cf !! x = Some s /\ f ∈ s) as Hmem.
  { intros f. rewrite (updated_members a cf d _ x f Hpl H5). split; [|by left].
    intros [?|[Hno Hf]]; [done|]. exfalso. apply assigned_members in Hf.
    destruct (Hall Hle f x Hf Hw) as (c1 & s & Hs & Hin). by apply (Hno c1 s). }
  apply elem_of_dom in Hw as [s0 Hs0]. pose proof Hs0 as (_ & _ & -> & _)%worked_on_spec.
  destruct (cf !! x) as [s|] eqn:Ex.
  - left. assert (members (disk c') x = s) as ->.
    { apply set_eq. intros f. rewrite (Hmem f). naive_solver. }
    by eapply (Hmin Hle x _ s Hs0).
  - right. split.
    + intros Hn. assert (x ∈ dom cf) as Hd; [|apply elem_of_dom in Hd as [? ?]; congruence].
      rewrite Hsame; [by apply elem_of_dom_2 in Hs0|by apply aim_none].
    + apply set_eq. intros f. rewrite (Hmem f). split; [by intros (? & ? & _)|set_solver].
Qed.

(** ** Returning normally *)
Lemma features_in_worked_on a d f : usable d ->
  f ∈ features_in (worked_on a d) <-> exists c, assigned d f = Some c /\ c ∈ free_clusters d (r_selection a).
Proof.
  intros Hu. rewrite elem_of_features_in, <- (worked_on_dom a d Hu). split.
  - intros (c & s & Hs & Hf). exists c. split; [|by apply elem_of_dom_2 in Hs].
    apply worked_on_spec in Hs as (_ & _ & -> & _). by apply assigned_members.
  - intros (c & Ha & [s Hs]%elem_of_dom). exists c, s. split; [done|].
    apply worked_on_spec in Hs as (_ & _ & -> & _). by apply assigned_members.
Qed.

Lemma movable_worked_on a d f : usable d ->
  movable_feature d (r_selection a) f <-> f ∈ features_in (worked_on a d) ∖ selected_pinned (selection a d) d.
Proof.
  intros Hu. rewrite elem_of_difference, (features_in_worked_on a d f Hu), elem_of_selected_pinned.
  unfold movable_feature. split.
  - intros (c & H1 & H2 & H3). split; [eauto|]. intros (c' & _ & _ & ?). congruence.
  - intros [(c & H1 & H2) H3]. exists c. split_and!; try done. destruct (feature_pinned d f) eqn:E; [|done].
    destruct H3. exists c. split_and!; try done. rewrite <- (worked_on_dom a d Hu) in H2.
    apply elem_of_dom in H2 as [s Hs]. by apply worked_on_spec in Hs as (? & _).
Qed.

Lemma refine_returns a g c : idle c -> usable (disk c) -> pool_works c ->
  1 <= r_iterations a -> 1 <= r_top_k a \/ r_batches a = Some 0 ->
  let d := disk c in let cf := worked_on a d in
  (size cf <= 1 /\ aim cf (work_target a d) = Z.of_nat (size cf) \/ (exists f, movable_feature d (r_selection a) f)) ->
  ((Z.of_nat (size cf) <= aim cf (work_target a d))%Z \/
   ((1 <= aim cf (work_target a d))%Z /\
    (r_batches a = Some 0 \/
     (resolve_batches (r_batches a) (size cf) <= r_top_k a /\ r_min_features a = 1)))) ->
  exists cf3, refine_plan a g d d = Ok cf3.
Proof.
  intros Hid Hu Hp Hit Hk d cf Hmov Htar. subst cf.
  rewrite refine_plan_unfold. replace (r_iterations a =? 0) with false by (symmetry; apply Nat.eqb_neq; lia).
  destruct (refine_feature_groups_ok d a (resolve_batches (r_batches a) (size (worked_on a d))) (worked_on a d)
    (selected_pinned (selection a d) d) (work_target a d) g (worked_on_disjoint a d)) as (cf2 & new & g2 & E).
  - destruct Hk as [?| ->]; [by right|by left].
  - destruct Hmov as [?|(f & Hf)]; [by left|right]. apply (movable_worked_on a d f Hu) in Hf. set_solver.
  - destruct Htar as [?|(H1 & Hb)]; [by left|right]. split; [done|].
    destruct Hb as [->|[Hb Hm]]; [split; by left|]. split; [|by right]. right. split; [done|].
    intros x t Hx. by apply worked_on_spec in Hx as (_ & _ & -> & ?).
  - rewrite E. cbn [rbind]. apply refine_feature_groups_spec in E; [|apply worked_on_disjoint].
    destruct E as [_ _ Hin _ _ _ _]. destruct (rename_new_ok (next_cluster_id d) new cf2 Hin) as (copies & _ & _ & ->).
    eauto.
Qed.

(** Nothing can move: if the call returns, nothing changed. *)
Lemma refine_all_pinned a g c : idle c -> usable (disk c) -> pool_works c ->
  (forall f, ~ movable_feature (disk c) (r_selection a) f) ->
  (exists e, call_raises (refine_clusters a g) c e) \/
  call_succeeds (refine_clusters a g) c tt (fun d d' => forall f, assigned d' f = assigned d f).
Proof.
  intros Hid Hu Hp Hno. pose proof (refine_call a g c Hid Hu Hp) as H.
  destruct (refine_plan a g (disk c) (disk c)) as [cf|e] eqn:E; [right|left; eauto].
  pose proof (refine_plan_ok _ _ _ _ _ Hu E) as Hpl. pose proof Hpl as [Hsrc Hpin _ Hdj _ _ _].
  destruct H as (c' & H1 & H2 & H3 & H4 & [H5 H5'] & H6). exists c'. split_and!; try done.
  intros f. destruct (updated_assigned cf _ _ f H5 Hdj) as (A1 & A2 & _).
  destruct (decide (f ∈ features_in cf)) as [Hin|Hin].
  - apply elem_of_features_in in Hin as (x & s & Hc & Hin). rewrite (A1 x s Hc Hin).
    destruct (feature_pinned (disk c) f) eqn:Ep.
    + by rewrite (Hpin x s f Hc Hin Ep).
    + exfalso. apply (Hno f). destruct (Hsrc x s f Hc Hin) as (c0 & Hc0 & Hd). exists c0.
      split_and!; try done. by rewrite <- worked_on_dom.
  - apply A2. intros x s Hc Hf'. apply Hin. apply elem_of_features_in. eauto.
Qed.

(** ... and with two or more clusters to refine it does not return. *)
Lemma find_best_moves_none d probe cf batches top_k g : features_in cf ≠ ∅ ->
  find_best_moves d probe cf ∅ batches top_k g = find_best_moves d probe cf (features_in cf) batches top_k g.
Proof.
  intros Hne. unfold find_best_moves. destruct (py_shuffle (z_list (dom cf)) g) as [order g1]. cbv zeta.
  rewrite (bool_decide_eq_true_2 (∅ = ∅)) by done. by rewrite (bool_decide_eq_false_2 (features_in cf = ∅)) by done.
Qed.
Lemma refine_feature_groups_stuck d a batches cf pinned target g : (batches = 0 \/ 1 <= r_top_k a) -> features_in cf ≠ ∅ ->
  features_in cf ∖ pinned = ∅ -> 2 <= size cf -> aim cf target = Z.of_nat (size cf) -> 1 <= r_iterations a ->
  refine_feature_groups d a batches cf pinned target g = Err ZeroDivisionError.
Proof.
  intros Hk Hne Hmov Hsz Haim Hit. unfold refine_feature_groups. fold (aim cf target). rewrite Haim.
  replace (Z.of_nat (size cf) =? 0)%Z with false by (symmetry; apply Z.eqb_neq; lia).
  replace (Z.of_nat (size cf) =? 1)%Z with false by (symmetry; apply Z.eqb_neq; lia). cbn [andb]. cbv zeta.
  rewrite Z.sub_diag. change (z_range (default 0%Z (last (z_list (dom cf))) + 1) 0) with (@nil Z). cbn [rfold rbind].
  rewrite Z.sub_diag, Hmov. change (Z.to_nat 0) with 0.
  destruct (r_iterations a) as [|n]; [lia|]. cbn [refine_loop]. rewrite find_best_moves_none by done.
  destruct (find_best_moves_ok d (r_probe a) cf (features_in cf) batches (r_top_k a) g Hne ltac:(done) Hk) as (objectives & best & g1 & -> & _).
  cbn [rbind Nat.eqb]. rewrite elements_empty. destruct (py_shuffle [] g1) as [order g2] eqn:Es.
  pose proof (py_shuffle_perm (@nil N) g1) as Hp. rewrite Es in Hp. cbn [fst] in Hp. apply Permutation_nil_r in Hp as ->.
  cbn [rfold rbind]. unfold drop_dissolved. assert (z_list ∅ = []) as Ez by reflexivity. rewrite Ez. cbn [rfold rbind].
  rewrite bool_decide_eq_true_2 by done. rewrite size_empty. done.
Qed.
Lemma refine_stuck a g c : idle c -> usable (disk c) -> pool_works c ->
  1 <= r_iterations a -> 1 <= r_top_k a \/ r_batches a = Some 0 -> r_target a = None ->
  (forall f, ~ movable_feature (disk c) (r_selection a) f) -> 2 <= size (free_clusters (disk c) (r_selection a)) ->
  call_raises (refine_clusters a g) c ZeroDivisionError.
Proof.
  intros Hid Hu Hp Hit Hk Ht Hno Hsz. pose proof (refine_call a g c Hid Hu Hp) as H. rewrite refine_plan_unfold in H.
  replace (r_iterations a =? 0) with false in H by (symmetry; apply Nat.eqb_neq; lia).
  rewrite <- (size_worked_on a _ Hu) in Hsz.
  rewrite refine_feature_groups_stuck in H; [exact H| | | |done| |done].
  - destruct Hk as [?| ->]; [by right|by left].
  - assert (worked_on a (disk c) ≠ ∅) as Hn by (intros E; rewrite E, map_size_empty in Hsz; lia).
    apply map_choose in Hn as (x & s & Hx). pose proof Hx as (_ & _ & -> & Hm)%worked_on_spec. apply set_choose_L in Hm as [f Hf].
    intros E. assert (f ∈ features_in (worked_on a (disk c))) as Hin by (apply elem_of_features_in; eauto). rewrite E in Hin. set_solver.
  - apply set_eq. intros f. split; [|set_solver]. intros Hf. exfalso. apply (Hno f). apply movable_worked_on; [done|].  set_solver.
  - by apply aim_none.
Qed.

(** ** New clusters *)
Lemma rename_saved next (cf : clustering) new cf2 cf3 (k : nat) : cf ≠ ∅ ->
  new = z_range (max_id (dom cf) + 1) (Z.of_nat k) ->
  (forall c, c ∈ dom cf -> (c < next)%Z) ->
  list_to_set new ⊆ dom cf2 -> dom cf2 ⊆ dom cf ∪ list_to_set new ->
  (next = max_id (dom cf) + 1 \/ (max_id (dom cf) + Z.of_nat k < next) \/ Z.of_nat k <= 1)%Z ->
  rename_new next new cf2 = Ok cf3 ->
  (forall i x, new !! i = Some x -> cf3 !! (next + Z.of_nat i)%Z = cf2 !! x) /\
  (forall x, x ∈ dom cf -> cf3 !! x = cf2 !! x).
Proof.
  intros Hne Hnew Hlt Hin Hdom Hgap Hr.
  pose proof (max_id_in (dom cf) ltac:(by intros ?%dom_empty_iff_L)) as Hmax. pose proof (Hlt _ Hmax) as Hmx.
  destruct (rename_new_ok next new cf2 Hin) as (copies & Hlen & Hcop & Hr').
  rewrite Hr in Hr'. injection Hr' as ->.
  assert (length new = k) as Hk by (rewrite Hnew, length_z_range; lia).
  assert (forall i x, new !! i = Some x -> x = (max_id (dom cf) + 1 + Z.of_nat i)%Z /\ i < k) as Hnth.
  { intros i x Hi. rewrite Hnew in Hi. unfold z_range in Hi. apply list_lookup_fmap_Some in Hi as (j & Hj & ->).
    apply lookup_seq in Hj as [-> ?]. split; [done|lia]. }
  split.
  - intros i x Hi. rewrite <- (Hcop i x Hi).
    destruct (copies !! i) as [s|] eqn:Es.
    + apply (rename_fold_new next 0 new copies cf2 i x s); try done.
      intros i1 i2 c Hlt12 Hc. destruct (Hnth i2 c Hc) as [-> Hik]. cbn [Nat.add]. lia.
    + apply lookup_ge_None in Es. apply lookup_lt_Some in Hi. lia.
  - intros x Hx. pose proof (Hlt x Hx). apply rename_fold_other; [done| |].
    + intros Hx'. apply elem_of_list_lookup in Hx' as [i Hi]. destruct (Hnth i x Hi) as [-> _].
      apply max_id_ge in Hx. lia.
    + intros i _ E. lia.
Qed.

(** The ids of the clusters created by refinement do not overlap with each other when saved. *)
Definition ids_apart (d : db) (sel : option (list Z)) (t : Z) : Prop :=
  (exists y, y ∈ free_clusters d sel /\ forall x, x ∈ cluster_ids d -> (x <= y)%Z) \/
  (forall y, y ∈ free_clusters d sel -> (y + (t - Z.of_nat (size (selected_clusters d sel))) < next_cluster_id d)%Z) \/
  (t <= Z.of_nat (size (selected_clusters d sel)) + 1)%Z.

Lemma refine_new_saved a g c t : idle c -> usable (disk c) -> pool_works c ->
  r_target a = Some t -> (Z.of_nat (size (selected_clusters (disk c) (r_selection a))) <= t)%Z ->
  free_clusters (disk c) (r_selection a) ≠ ∅ ->
  ids_apart (disk c) (r_selection a) t ->
  (exists e, call_raises (refine_clusters a g) c e) \/
  call_succeeds (refine_clusters a g) c tt (fun d d' =>
    exists after new g', refine_feature_groups d a (resolve_batches (r_batches a) (size (worked_on a d)))
        (worked_on a d) (selected_pinned (selection a d) d) (work_target a d) g = Ok (after, new, g') /\
      Z.of_nat (length new) = (t - Z.of_nat (size (selected_clusters d (r_selection a))))%Z /\
      (forall i x, new !! i = Some x ->
         Some (members d' (next_cluster_id d + Z.of_nat i)%Z) = after !! x) /\
      (forall x, x ∈ free_clusters d (r_selection a) -> Some (members d' x) = after !! x)).
Proof.
  intros Hid Hu Hp Ht Hle Hfree Hap. pose proof (refine_call a g c Hid Hu Hp) as H.
  destruct (refine_plan a g (disk c) (disk c)) as [cf|e] eqn:E; [right|left; eauto].
  pose proof (refine_plan_ok _ _ _ _ _ Hu E) as Hpl. pose proof Hpl as [Hsrc _ _ Hdj _ _ _].
  destruct H as (c' & H1 & H2 & H3 & H4 & [H5 H5'] & H6). exists c'. split_and!; try done.
  set (d := disk c) in *. rewrite refine_plan_unfold in E. destruct (r_iterations a =? 0); [done|].
  destruct (refine_feature_groups _ _ _ _ _ _ _) as [[[cf2 new] g2]|] eqn:Eg; [|done]. cbn [rbind] in E.
  exists cf2, new, g2. split; [done|].
  apply refine_feature_groups_spec in Eg; [|apply worked_on_disjoint].
  destruct Eg as [(fc2 & Hok & Hfeat & _) Hnew Hin Hdom _ _ Hgrow].
  set (sel := r_selection a) in *. set (k := Z.to_nat (t - Z.of_nat (size (selected_clusters d sel)))).
  assert (size (free_clusters d sel) <> 0) as Hsz.
  { intros E0. apply Hfree. apply leibniz_equiv. by apply size_empty_inv. }
  pose proof (subseteq_size _ _ (free_subset d sel)) as Hsub.
  assert (aim (worked_on a d) (work_target a d) - Z.of_nat (size (worked_on a d)) = Z.of_nat k)%Z as Haim.
  { unfold aim. rewrite work_target_spec, Ht, size_worked_on by done. fold sel. unfold k.
    replace (t =? 0)%Z with false by (symmetry; apply Z.eqb_neq; lia). case_match; lia. }
  assert (worked_on a d ≠ ∅) as Hwne.
  { intros E0. apply Hsz. unfold sel. rewrite <- (size_worked_on a d Hu), E0. done. }
  assert (new = z_range (max_id (dom (worked_on a d)) + 1) (Z.of_nat k)) as Hn.
  { destruct Hnew as [[-> [?|Hz]]|[_ ->]]; [done| |by rewrite Haim].
    replace k with 0 by lia. done. }
  assert (length new = k) as Hlen by (rewrite Hn, length_z_range; lia).
  destruct (rename_saved (next_cluster_id d) (worked_on a d) new cf2 cf k Hwne Hn) as [R1 R2]; try done.
  { intros x Hx. by eapply worked_on_next. }
  { pose proof (max_id_in (dom (worked_on a d)) ltac:(by intros ?%dom_empty_iff_L)) as Hmax.
    pose proof (worked_on_next a d _ Hu Hmax) as Hmx.
    destruct Hap as [(y & Hy & Hy')|[Hy|Hy]].
    - left. fold sel in Hy. unfold sel in Hy. rewrite <- (worked_on_dom a d Hu) in Hy. apply max_id_ge in Hy.
      unfold next_cluster_id, max_cluster_id. unfold next_cluster_id, max_cluster_id in Hmx.
      destruct (last (z_list (dom (cluster d)))) as [m|] eqn:El.
      + apply last_Some_elem_of in El. specialize (Hy' m El). lia.
      + apply last_None in El. exfalso.
        assert (max_id (dom (worked_on a d)) ∈ cluster_ids d) as Hin'.
        { apply elem_of_z_list. apply elem_of_dom in Hmax as [s Hs]. apply worked_on_spec in Hs as (_ & _ & -> & Hs).
          by apply members_cluster. }
        unfold cluster_ids in Hin'. rewrite El in Hin'. by apply elem_of_nil in Hin'.
    - right. left. unfold sel in Hy. rewrite (worked_on_dom a d Hu) in Hmax |- *. specialize (Hy _ Hmax). unfold k. rewrite Z2Nat.id; [exact Hy|clear -Hle; lia].
    - right. right. unfold k. lia. }
  split; [unfold k in Hlen; lia|].
  assert (forall y x, cf !! y = cf2 !! x -> x ∈ dom cf2 ->
    (forall f, f ∈ members d y -> exists c s, cf !! c = Some s /\ f ∈ s) -> Some (members (disk c') y) = cf2 !! x) as Hmem.
  { intros y x Hyx [s Hs]%elem_of_dom Hmv. rewrite Hs in Hyx |- *. f_equal. apply set_eq. intros f.
    rewrite (updated_members a cf d (disk c') y f Hpl H5). split.
    - intros [(s' & Hs' & Hf)|[Hno Hf]]; [congruence|]. destruct (Hmv f Hf) as (c1 & s1 & Hc1 & Hf1).
      by destruct (Hno c1 s1).
    - intros Hf. left. eauto. }
  assert (dom cf2 = dom (worked_on a d) ∪ list_to_set new) as Hd2. { apply Hgrow. lia. }
  split.
  - intros i x Hi. apply Hmem; [by apply R1| |].
    + rewrite Hd2. apply elem_of_union_r. apply elem_of_list_to_set. by eapply elem_of_list_lookup_2.
    + intros f Hf. exfalso. assert (members d (next_cluster_id d + Z.of_nat i) ≠ ∅) as Hne by set_solver.
      apply members_cluster in Hne; [|done]. apply next_cluster_id_fresh in Hne. lia.
  - intros x Hx. unfold sel in Hx. rewrite <- (worked_on_dom a d Hu) in Hx. apply Hmem; [by apply R2|set_solver|].
    intros f Hf. assert (f ∈ dom fc2) as [c1 Hc1]%elem_of_dom.
    { rewrite Hfeat. apply elem_of_features_in. apply elem_of_dom in Hx as [s Hs]. exists x, s. split; [done|].
      by apply worked_on_spec in Hs as (_ & _ & -> & _). }
    apply Hok in Hc1 as (s1 & Hs1 & Hf1). assert (c1 ∈ dom cf2) as Hin1 by (by apply elem_of_dom_2 in Hs1).
    rewrite Hd2 in Hin1. apply elem_of_union in Hin1 as [Hw|Hnw].
    + exists c1, s1. split; [|done]. by rewrite R2.
    + apply elem_of_list_to_set, elem_of_list_lookup in Hnw as [i Hi].
      exists (next_cluster_id d + Z.of_nat i)%Z, s1. split; [|done]. by rewrite (R1 i c1 Hi).
Qed.

Lemma worked_on_free a d x s : usable d ->
  worked_on a d !! x = Some s <-> x ∈ free_clusters d (r_selection a) /\ s = members d x.
Proof.
  intros Hu. rewrite worked_on_spec, <- (worked_on_dom a d Hu). split.
  - intros Hx. split; [|by destruct Hx as (_ & _ & ? & _)]. apply elem_of_dom. exists s. by apply worked_on_spec.
  - intros [Hx ->]. apply elem_of_dom in Hx as [s' Hx]. by apply worked_on_spec in Hx as (? & ? & -> & ?).
Qed.

Lemma selected_pinned_free a d f : usable d ->
  f ∈ selected_pinned (selection a d) d <->
  feature_pinned d f = true /\ exists x, assigned d f = Some x /\ x ∈ selected_clusters d (r_selection a).
Proof.
  intros Hu. rewrite elem_of_selected_pinned, <- (selected_dom a d Hu). split.
  - intros (x & Hx & Hs1 & Hp). split; [done|]. exists x. split; [done|]. apply elem_of_dom. exists (members d x).
    apply selected_clustering_spec. split_and!; try done. apply assigned_members in Hx. set_solver.
  - intros (Hp & x & Hx & [s' Hs']%elem_of_dom). exists x. split_and!; try done.
    by apply selected_clustering_spec in Hs' as (? & _).
Qed.

(** The selection is not used inside the refinement itself. *)
Definition with_selection (s : option (list Z)) (a : refine_args) : refine_args :=
  RefineArgs (r_iterations a) s (r_min_features a) (r_probe a) (r_target a)
    (r_tolerance a) (r_batches a) (r_top_k a).
Lemma refine_loop_selection s d a batches frozen movable per n cf fc order td g :
  refine_loop d (with_selection s a) batches frozen movable per n cf fc order td g =
  refine_loop d a batches frozen movable per n cf fc order td g.
Proof.
  revert cf fc order td g. induction n as [|n IH]; intros cf fc order td g; [reflexivity|].
  cbn [refine_loop]. change (r_probe (with_selection s a)) with (r_probe a).
  change (r_top_k (with_selection s a)) with (r_top_k a).
  destruct (find_best_moves _ _ _ _ _ _ _) as [[[objectives best] g1]|]; [|reflexivity]. cbn [rbind].
  destruct (if td =? 0 then _ else _) as [dissolve|]; [|reflexivity]. cbn [rbind].
  destruct (py_shuffle order g1) as [order' g2].
  change (r_min_features (with_selection s a)) with (r_min_features a).
  destruct (rfold _ _ _) as [[p g3]|]; [|reflexivity]. cbn [rbind].
  destruct (drop_dissolved _ _) as [cf'|]; [|reflexivity]. cbn [rbind]. rewrite IH. reflexivity.
Qed.
Lemma refine_groups_selection s d a b cf pinned target g :
  refine_feature_groups d (with_selection s a) b cf pinned target g = refine_feature_groups d a b cf pinned target g.
Proof.
  unfold refine_feature_groups. destruct (_ =? 0)%Z; [reflexivity|]. destruct (_ && _); [reflexivity|].
  cbv zeta. destruct (rfold _ _ _) as [[[cf1 fc1] g1]|]; [|reflexivity]. cbn [rbind].
  rewrite refine_loop_selection. reflexivity.
Qed.
Lemma refine_empty_selection a g c :
  refine_clusters (with_selection (Some []) a) g c = refine_clusters (with_selection None a) g c.
Proof.
  assert (forall com d, refine_plan (with_selection (Some []) a) g com d = refine_plan (with_selection None a) g com d) as H.
  { intros com d. rewrite !refine_plan_unfold. rewrite !refine_groups_selection. reflexivity. }
  unfold refine_clusters, atomic, pbind. destruct (sql_savepoint _ _) as [c1 [[]|e]]; [|reflexivity].
  rewrite H. reflexivity.
Qed.
