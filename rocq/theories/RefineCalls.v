(** RefineCalls.v: [refine_clusters] from an idle connection. *)
From Verif Require Export RefineProofs ClusterCalls.

(** ** Renaming the new clusters *)
Definition rename_fold (next : Z) (cf : clustering) (l : list (nat * (Z * gset N))) : clustering :=
  foldl (fun cf '(i, (c, s)) => <[(next + Z.of_nat i)%Z := s]> (delete c cf)) cf l.

Lemma rename_fold_entries next j new copies cf k s : length copies = length new ->
  rename_fold next cf (zip (seq j (length new)) (zip new copies)) !! k = Some s ->
  (k ∉ new /\ cf !! k = Some s) \/
  (exists i c, new !! i = Some c /\ k = (next + Z.of_nat (j + i))%Z /\ copies !! i = Some s).
Proof.
  revert j copies cf. induction new as [|c0 new IH]; intros j copies cf Hl H.
  - left. split; [apply not_elem_of_nil|done].
  - destruct copies as [|s0 copies]; [done|]. cbn [length seq zip zip_with] in H.
    unfold rename_fold in H. cbn [foldl] in H.
    destruct (IH (S j) copies _ ltac:(cbn in Hl; lia) H) as [[Hk Hs]|(i & c & Hc & -> & Hs)].
    + destruct (decide (k = next + Z.of_nat j)%Z) as [->|Hkj].
      * rewrite lookup_insert in Hs. right. exists 0, c0. cbn. rewrite Nat.add_0_r. done.
      * rewrite lookup_insert_ne in Hs by done. apply lookup_delete_Some in Hs as [Hne Hs].
        left. split; [|done]. intros [->|?]%elem_of_cons; done.
    + right. exists (S i), c. cbn. split_and!; [done| |done]. f_equal. lia.
Qed.

Lemma rename_fold_other next j new copies cf k : length copies = length new ->
  k ∉ new -> (forall i, i < length new -> k ≠ (next + Z.of_nat (j + i))%Z) ->
  rename_fold next cf (zip (seq j (length new)) (zip new copies)) !! k = cf !! k.
Proof.
  revert j copies cf. induction new as [|c0 new IH]; intros j copies cf Hl Hk Hi; [done|].
  destruct copies as [|s0 copies]; [done|]. cbn [length seq zip zip_with].
  unfold rename_fold. cbn [foldl]. apply not_elem_of_cons in Hk as [Hk0 Hk].
  change (foldl _ ?x ?l) with (rename_fold next x l). rewrite IH.
  - rewrite lookup_insert_ne. 2:{ intros E. apply (Hi 0); [cbn; lia|]. rewrite Nat.add_0_r. done. }
    by rewrite lookup_delete_ne by done.
  - cbn in Hl. lia.
  - done.
  - intros i Hi' E. apply (Hi (S i)); [cbn; lia|]. rewrite E. f_equal. lia.
Qed.

Lemma rename_fold_new next j new copies cf i c s : length copies = length new ->
  (forall i i' c, i < i' -> new !! i' = Some c -> c ≠ (next + Z.of_nat (j + i))%Z) ->
  new !! i = Some c -> copies !! i = Some s ->
  rename_fold next cf (zip (seq j (length new)) (zip new copies)) !! (next + Z.of_nat (j + i))%Z = Some s.
Proof.
  revert j i copies cf. induction new as [|c0 new IH]; intros j i copies cf Hl Hno Hc Hs; [done|].
  destruct copies as [|s0 copies]; [done|]. cbn [length seq zip zip_with].
  unfold rename_fold. cbn [foldl]. change (foldl _ ?x ?l) with (rename_fold next x l).
  destruct i as [|i].
  - cbn in Hs. injection Hs as ->. rewrite Nat.add_0_r, rename_fold_other.
    + by rewrite lookup_insert.
    + cbn in Hl. lia.
    + intros [i' Hi']%elem_of_list_lookup. apply (Hno 0 (S i') _ ltac:(lia) Hi').
      by rewrite Nat.add_0_r.
    + intros i Hi E. lia.
  - cbn in Hc, Hs. replace (j + S i) with (S j + i) by lia. apply IH; [cbn in Hl; lia| |done|done].
    intros a b x Hab Hx. replace (S j + a) with (j + S a) by lia. apply (Hno (S a) (S b)); [lia|done].
Qed.

Lemma rename_new_ok next new cf : list_to_set new ⊆ dom cf ->
  exists copies, length copies = length new /\
    (forall i c, new !! i = Some c -> copies !! i = cf !! c) /\
    rename_new next new cf = Ok (rename_fold next cf (zip (seq 0 (length new)) (zip new copies))).
Proof.
  intros Hsub. exists ((fun c => default ∅ (cf !! c)) <$> new). split; [by rewrite fmap_length|].
  assert (forall c, c ∈ new -> exists s, cf !! c = Some s) as Hin.
  { intros c Hc. apply (elem_of_dom cf). apply Hsub. by apply elem_of_list_to_set. }
  split.
  - intros i c Hc. rewrite list_lookup_fmap, Hc. cbn. destruct (Hin c) as [s ->]; [by eapply elem_of_list_lookup_2|].
    done.
  - unfold rename_new.
    assert (rtraverse (py_get cf) new = Ok ((fun c => default ∅ (cf !! c)) <$> new)) as ->; [|done].
    apply rtraverse_ok_iff. apply Forall2_fmap_r. apply Forall_Forall2_diag.
    apply Forall_forall. intros c Hc. destruct (Hin c Hc) as [s Hs]. apply py_get_ok. unfold compose. by rewrite Hs.
Qed.

(** ** The selected clusters *)
Lemma selected_clustering_spec sel d c s :
  selected_clustering sel d !! c = Some s <-> c ∈ sel /\ s = members d c /\ s ≠ ∅.
Proof.
  set (P := fun (r : clustering) (m : gmap N fc_row) => forall c s,
    r !! c = Some s <-> c ∈ sel /\ s = dom (filter (fun kv => fc_cluster kv.2 = c) m) /\ s ≠ ∅).
  cut (P (selected_clustering sel d) (feature_cluster d)); [intros H; apply H|].
  unfold selected_clustering. apply (map_fold_ind P).
  - intros x t. rewrite lookup_empty, map_filter_empty, dom_empty_L. split; [done|]. intros (_ & -> & ?). done.
  - intros f row m r Hf IH x t.
    assert (dom (filter (fun kv : N * fc_row => fc_cluster kv.2 = x) (<[f:=row]> m)) =
            (if decide (fc_cluster row = x) then {[f]} else ∅) ∪
            dom (filter (fun kv : N * fc_row => fc_cluster kv.2 = x) m)) as ->.
    { apply set_eq. intros y. rewrite elem_of_union, !elem_of_dom. unfold is_Some.
      setoid_rewrite map_filter_lookup_Some. cbn. destruct (decide (y = f)) as [->|Hy].
      - rewrite lookup_insert. destruct (decide (fc_cluster row = x)) as [Hx|Hx].
        + split; [set_solver|]. intros _. exists row. done.
        + split; [intros (r' & [= <-] & ?); done|]. intros [?|(r' & ? & _)]; [set_solver|congruence].
      - rewrite lookup_insert_ne by done. split; [by right|]. intros [H|?]; [|done].
        destruct (decide (fc_cluster row = x)); set_solver. }
    case_bool_decide as Hsel.
    + destruct (decide (fc_cluster row = x)) as [Hx|Hx].
      * subst x. rewrite lookup_insert.
        assert (default ∅ (r !! fc_cluster row) = dom (filter (fun kv : N * fc_row => fc_cluster kv.2 = fc_cluster row) m)) as Hr.
        { destruct (r !! fc_cluster row) as [t'|] eqn:E; cbn.
          - by apply IH in E as (_ & ? & _).
          - destruct (decide (dom (filter (fun kv : N * fc_row => fc_cluster kv.2 = fc_cluster row) m) = ∅)) as [->|Hne]; [done|].
            assert (r !! fc_cluster row = Some (dom (filter (fun kv : N * fc_row => fc_cluster kv.2 = fc_cluster row) m))) by (by apply IH).
            congruence. }
        rewrite Hr. split.
        -- intros [= <-]. split; [done|]. split; [done|]. set_solver.
        -- intros (_ & -> & _). done.
      * rewrite lookup_insert_ne by done. rewrite (IH x t). by rewrite union_empty_l_L.
    + rewrite (IH x t). destruct (decide (fc_cluster row = x)) as [Hx|Hx].
      * subst x. split; intros [? _]; done.
      * by rewrite union_empty_l_L.
Qed.

Lemma elem_of_selected_pinned sel d f :
  f ∈ selected_pinned sel d <-> exists c, assigned d f = Some c /\ c ∈ sel /\ feature_pinned d f = true.
Proof.
  unfold selected_pinned. rewrite elem_of_dom. unfold is_Some. setoid_rewrite map_filter_lookup_Some. cbn.
  unfold assigned, feature_pinned. split.
  - intros (row & -> & H1 & H2). cbn. eauto.
  - destruct (feature_cluster d !! f) as [row|]; cbn; [|by intros (? & ? & _)].
    intros (c & [= <-] & ? & ?). eauto.
Qed.

(** The clusters refinement works on: selected, not pinned, with a feature. *)
Definition worked_on (a : refine_args) (d : db) : clustering :=
  let cf := selected_clustering (selection a d) d in
  filter (fun kv : Z * gset N => kv.1 ∉ dom cf ∩ pinned_cluster_ids d) cf.
Definition work_target (a : refine_args) (d : db) : Z :=
  let cf := selected_clustering (selection a d) d in
  let target := match r_target a with
                | Some t => if (t =? 0)%Z then Z.of_nat (size cf) else t
                | None => Z.of_nat (size cf)
                end in
  (target - Z.of_nat (size (dom cf ∩ pinned_cluster_ids d)))%Z.

Lemma refine_plan_unfold a g com d :
  refine_plan a g com d =
  if r_iterations a =? 0 then Err ValueError else
  rbind (refine_feature_groups com a (resolve_batches (r_batches a) (size (worked_on a d))) (worked_on a d)
           (selected_pinned (selection a d) d) (work_target a d) g)
    (fun '(cf2, new_ids, _) => rename_new (next_cluster_id d) new_ids cf2).
Proof. reflexivity. Qed.

Lemma elem_of_pinned_ids d c : c ∈ pinned_cluster_ids d <-> cluster_pinned d c = true.
Proof.
  unfold pinned_cluster_ids, cluster_pinned. rewrite elem_of_dom. unfold is_Some.
  setoid_rewrite map_filter_lookup_Some. cbn. destruct (cluster d !! c) as [row|].
  - split; [by intros (? & [= <-] & ?)|]. eauto.
  - split; [by intros (? & ? & _)|done].
Qed.

Lemma worked_on_spec a d c s :
  worked_on a d !! c = Some s <->
  c ∈ selection a d /\ cluster_pinned d c = false /\ s = members d c /\ s ≠ ∅.
Proof.
  unfold worked_on. rewrite map_filter_lookup_Some. cbn [fst].
  rewrite selected_clustering_spec, not_elem_of_intersection, elem_of_pinned_ids. split.
  - intros ((H1 & H2 & H3) & [Hno|Hp]).
    + destruct Hno. apply elem_of_dom. exists s. by apply selected_clustering_spec.
    + split_and!; try done. by destruct (cluster_pinned d c).
  - intros (H1 & H2 & H3 & H4). split_and!; try done. right. by rewrite H2.
Qed.

Lemma worked_on_disjoint a d : disjoint_clusters (worked_on a d).
Proof.
  intros c c' s s' f H1 H2 Hf Hf'. apply worked_on_spec in H1 as (_ & _ & -> & _).
  apply worked_on_spec in H2 as (_ & _ & -> & _).
  apply assigned_members in Hf. apply assigned_members in Hf'. congruence.
Qed.

Lemma worked_on_next a d c : usable d -> c ∈ dom (worked_on a d) -> (c < next_cluster_id d)%Z.
Proof.
  intros [(Href & _ & _) _] [s Hs]%elem_of_dom. apply worked_on_spec in Hs as (_ & _ & -> & Hne).
  apply next_cluster_id_fresh. apply set_choose_L in Hne as [f Hf].
  apply elem_of_members in Hf as (row & Hrow & <-). destruct (Href f row Hrow) as [_ H].
  by apply elem_of_dom.
Qed.

(** What a plan says about features: [target] is where [f] goes. *)
Record plan_ok (m : nat) (a : refine_args) (d : db) (cf3 : clustering) : Prop := PlanOk {
  po_source : forall c s f, cf3 !! c = Some s -> f ∈ s -> exists c0, assigned d f = Some c0 /\ c0 ∈ dom (worked_on a d);
  po_pinned : forall c s f, cf3 !! c = Some s -> f ∈ s -> feature_pinned d f = true -> assigned d f = Some c;
  po_target : forall c, c ∈ dom cf3 -> c ∈ dom (worked_on a d) \/ (next_cluster_id d <= c)%Z;
  po_disjoint : disjoint_clusters cf3;
  po_all : (aim (worked_on a d) (work_target a d) <= Z.of_nat (size (worked_on a d)))%Z ->
           forall f c0, assigned d f = Some c0 -> c0 ∈ dom (worked_on a d) ->
           exists c s, cf3 !! c = Some s /\ f ∈ s;
  po_min : (aim (worked_on a d) (work_target a d) <= Z.of_nat (size (worked_on a d)))%Z ->
           forall c s s', worked_on a d !! c = Some s -> cf3 !! c = Some s' -> m <= size s -> m <= size s';
  po_same : aim (worked_on a d) (work_target a d) = Z.of_nat (size (worked_on a d)) ->
           dom cf3 = dom (worked_on a d) }.

Lemma refine_plan_ok a g com d cf3 : usable d ->
  refine_plan a g com d = Ok cf3 -> plan_ok (r_min_features a) a d cf3.
Proof.
  intros Hu. rewrite refine_plan_unfold. destruct (r_iterations a =? 0); [done|].
  destruct (refine_feature_groups _ _ _ _ _ _ _) as [[[cf2 new] g2]|] eqn:Eg; [|done]. cbn [rbind].
  apply refine_feature_groups_spec in Eg; [|apply worked_on_disjoint].
  destruct Eg as [(fc2 & Hok & Hfeat & Hpin) Hnew Hin Hdom Hmin Hsame _].
  destruct (rename_new_ok (next_cluster_id d) new cf2 Hin) as (copies & Hlen & Hcop & ->).
  intros [= <-]. set (next := next_cluster_id d) in *.
  set (cf3 := rename_fold next cf2 (zip (seq 0 (length new)) (zip new copies))).
  assert (forall k s, cf3 !! k = Some s -> (k ∉ new /\ cf2 !! k = Some s) \/
    (exists i c, new !! i = Some c /\ k = (next + Z.of_nat i)%Z /\ cf2 !! c = Some s)) as Hent.
  { intros k s Hk. apply rename_fold_entries in Hk as [?|(i & c & Hc & -> & Hs)]; [by left| |done].
    right. exists i, c. by rewrite <- (Hcop i c Hc). }
  pose proof (feature_map_ok _ (worked_on_disjoint a d)) as Hfm.
  assert (forall c s f, cf2 !! c = Some s -> f ∈ s -> exists c0, assigned d f = Some c0 /\ c0 ∈ dom (worked_on a d)) as Hsrc.
  { intros c s f Hc Hf. assert (f ∈ dom fc2) as Hf2. { apply elem_of_dom. exists c. apply Hok. eauto. }
    rewrite Hfeat in Hf2. apply elem_of_features_in in Hf2 as (c0 & s0 & Hs0 & Hf0).
    exists c0. split; [|by apply elem_of_dom_2 in Hs0].
    apply worked_on_spec in Hs0 as (_ & _ & -> & _). by apply assigned_members. }
  assert (forall x, x ∈ new -> x ∉ dom (worked_on a d)) as Hfresh.
  { intros x Hx Hd. destruct Hnew as [[-> _]|[_ ->]]; [by apply elem_of_nil in Hx|].
    apply elem_of_z_range in Hx. apply max_id_ge in Hd. lia. }
  assert (NoDup new) as Hnd. { destruct Hnew as [[-> _]|[_ ->]]; [constructor|apply NoDup_z_range]. }
  assert ((aim (worked_on a d) (work_target a d) <= Z.of_nat (size (worked_on a d)))%Z -> new = []) as Hnil.
  { intros Hle. destruct Hnew as [[-> _]|[_ ->]]; [done|]. apply nil_length_inv. rewrite length_z_range. lia. }
  assert (new = [] -> cf3 = cf2) as Hcf3. { intros En. unfold cf3. rewrite En. done. }
  split.
  - intros c s f Hc Hf. destruct (Hent c s Hc) as [[_ H]|(i & c' & _ & _ & H)]; by eapply Hsrc.
  - intros c s f Hc Hf Hp.
    assert (exists c', cf2 !! c' = Some s /\ (c' = c \/ c' ∈ new)) as (c' & Hc' & Hcase).
    { destruct (Hent c s Hc) as [[_ H]|(i & c' & Hi & _ & H)]; [eauto|].
      exists c'. split; [done|]. right. by eapply elem_of_list_lookup_2. }
    destruct (Hsrc c' s f Hc' Hf) as (c0 & Ha & Hc0).
    assert (c' = c0) as ->.
    { assert (fc2 !! f = Some c') as E by (apply Hok; eauto). rewrite Hpin in E.
      - apply Hfm in E as (s0 & Hs0 & Hf0). apply worked_on_spec in Hs0 as (_ & _ & -> & _).
        apply assigned_members in Hf0. congruence.
      - apply elem_of_selected_pinned. exists c0. split_and!; [done| |done].
        apply elem_of_dom in Hc0 as [s0 Hs0]. by apply worked_on_spec in Hs0 as (? & _). }
    destruct Hcase as [->|Hcn]; [done|]. by apply Hfresh in Hcn.
  - intros c [s Hs]%elem_of_dom. destruct (Hent c s Hs) as [[Hn H]|(i & c' & _ & -> & _)]; [|right; lia].
    left. apply elem_of_dom_2 in H. apply Hdom in H. set_solver.
  - intros c c' s s' f Hc Hc' Hf Hf'.
    destruct (Hent c s Hc) as [[Hn H]|(i & x & Hi & -> & H)], (Hent c' s' Hc') as [[Hn' H']|(i' & x' & Hi' & -> & H')].
    + by eapply (cl_ok_disjoint cf2 fc2 Hok c c').
    + assert (c = x') as -> by (by eapply (cl_ok_disjoint cf2 fc2 Hok)). destruct Hn. by eapply elem_of_list_lookup_2.
    + assert (x = c') as -> by (by eapply (cl_ok_disjoint cf2 fc2 Hok)). destruct Hn'. by eapply elem_of_list_lookup_2.
    + assert (x = x') as -> by (by eapply (cl_ok_disjoint cf2 fc2 Hok)).
      assert (i = i') as -> by (by eapply NoDup_lookup). done.
  - intros Hle f c0 Ha Hc0. rewrite (Hcf3 (Hnil Hle)).
    assert (f ∈ dom fc2) as [c Hc]%elem_of_dom.
    { rewrite Hfeat. apply elem_of_features_in. apply elem_of_dom in Hc0 as [s0 Hs0]. exists c0, s0.
      split; [done|]. apply worked_on_spec in Hs0 as (_ & _ & -> & _). by apply assigned_members. }
    apply Hok in Hc as (s & Hs & Hf). eauto.
  - intros Hle. rewrite (Hcf3 (Hnil Hle)). by apply Hmin, Hnil.
  - intros Heq. destruct (Hsame Heq) as [Hn Hd]. by rewrite (Hcf3 Hn).
Qed.

(** ** The update of the tables *)
Definition row_step (fc : gmap N fc_row) (cf : Z * N) : gmap N fc_row := alter (move_row cf.1) cf.2 fc.

Lemma rows_lookup rows fc f :
  (forall c c', (c, f) ∈ rows -> (c', f) ∈ rows -> c = c') ->
  (forall c, (c, f) ∈ rows -> foldl row_step fc rows !! f = move_row c <$> fc !! f) /\
  ((forall c, (c, f) ∉ rows) -> foldl row_step fc rows !! f = fc !! f).
Proof.
  induction rows as [|[c1 f1] rows IH] using rev_ind; intros Hu.
  - split; [by intros c ?%elem_of_nil|done].
  - rewrite foldl_app. cbn [foldl]. change (row_step (foldl row_step fc rows) (c1, f1)) with (alter (move_row c1) f1 (foldl row_step fc rows)).
    destruct IH as [IH1 IH2]. { intros c c' H1 H2. apply Hu; set_solver. }
    destruct (decide (f1 = f)) as [->|Hne].
    + split.
      * intros c Hc. assert (c = c1) as -> by (apply Hu; [done|set_solver]). rewrite lookup_alter.
        destruct (decide ((c1, f) ∈ rows)) as [Hin|Hin].
        -- rewrite (IH1 c1 Hin). by destruct (fc !! f).
        -- rewrite IH2; [done|]. intros c2 H2. apply Hin. assert (c2 = c1) as ->; [|done].
           apply Hu; set_solver.
      * intros H. exfalso. apply (H c1). set_solver.
    + split.
      * intros c Hc. rewrite lookup_alter_ne by done. apply IH1. apply elem_of_app in Hc as [?|Hc]; [done|].
        apply elem_of_list_singleton in Hc. congruence.
      * intros H. rewrite lookup_alter_ne by done. apply IH2. intros c Hc. apply (H c). set_solver.
Qed.

Lemma elem_of_clustering_rows cf c f : (c, f) ∈ clustering_rows cf <-> exists s, cf !! c = Some s /\ f ∈ s.
Proof.
  unfold clustering_rows. rewrite elem_of_concat. split.
  - intros (l & Hin & Hl). apply elem_of_list_fmap in Hl as (c' & -> & Hc').
    apply elem_of_list_fmap in Hin as (f' & [= <- <-] & Hf). apply elem_of_z_list, elem_of_dom in Hc' as [s Hs].
    rewrite Hs in Hf. exists s. split; [done|]. by apply elem_of_bm_list.
  - intros (s & Hs & Hf). eexists. split.
    2:{ apply elem_of_list_fmap. exists c. split; [reflexivity|]. apply elem_of_z_list. by apply elem_of_dom_2 in Hs. }
    apply elem_of_list_fmap. exists f. split; [done|]. rewrite Hs. by apply elem_of_bm_list.
Qed.

(** The assignments after the update with [cf]. *)
Definition updated_with (cf : clustering) (d d' : db) : Prop :=
  (forall f c s, cf !! c = Some s -> f ∈ s ->
     feature_cluster d' !! f = move_row c <$> feature_cluster d !! f) /\
  (forall f, (forall c s, cf !! c = Some s -> f ∉ s) -> feature_cluster d' !! f = feature_cluster d !! f).

Lemma update_rows_spec cf d : usable d -> disjoint_clusters cf ->
  exists d', dmany (fun '(c, f) => update_cluster_of_feature c f) (clustering_rows cf) d = (d', Ok tt) /\
    step d d' (feature_cluster d') /\ updated_with cf d d'.
Proof.
  intros Hu Hd.
  destruct (dmany_steps (fun '(c, f) => update_cluster_of_feature c f) row_step) with (l := clustering_rows cf) (d := d)
    as (d' & H & S); [|done|].
  { intros [c f] d0 Hu0. apply (step_update_row c d0 f Hu0). }
  exists d'. split; [done|]. pose proof (step_fc _ _ _ S) as Hfc. rewrite Hfc. split; [done|].
  assert (forall f c c', (c, f) ∈ clustering_rows cf -> (c', f) ∈ clustering_rows cf -> c = c') as Hun.
  { intros f c c' H1 H2. apply elem_of_clustering_rows in H1 as (s & Hs & Hf).
    apply elem_of_clustering_rows in H2 as (s' & Hs' & Hf'). by eapply Hd. }
  split.
  - intros f c s Hs Hf. rewrite Hfc. apply (rows_lookup _ (feature_cluster d) f (Hun f)).
    apply elem_of_clustering_rows. eauto.
  - intros f Hno. rewrite Hfc. apply (rows_lookup _ (feature_cluster d) f (Hun f)).
    intros c Hc. apply elem_of_clustering_rows in Hc as (s & Hs & Hf). by apply (Hno c s).
Qed.

Definition refine_body (a : refine_args) (g : rng) : M unit := fun c =>
  match refine_plan a g (disk c) (cur c) with
  | Err e => (c, Err e)
  | Ok cf => update_cluster_feature cf c
  end.

Lemma contained_refine a g : contained (refine_body a g).
Proof.
  intros c Ht Hl. unfold refine_body. destruct (refine_plan a g (disk c) (cur c)) as [cf|e].
  - unfold update_cluster_feature. by apply contained_atomic; [apply contained_on_db|..].
  - apply same_txn_refl.
Qed.

Lemma refine_call a g c : idle c -> usable (disk c) -> pool_works c ->
  match refine_plan a g (disk c) (disk c) with
  | Err e => call_raises (refine_clusters a g) c e
  | Ok cf => call_succeeds (refine_clusters a g) c tt (fun d d' =>
      updated_with cf d d' /\ cluster_pins_kept d d')
  end.
Proof.
  intros Hid Hu Hp. destruct (refine_plan a g (disk c) (disk c)) as [cf|e] eqn:E.
  - pose proof (refine_plan_ok _ _ _ _ _ Hu E) as [_ _ _ Hdj _ _ _].
    destruct (update_rows_spec cf (disk c) Hu Hdj) as (d1 & Hrun & S & Hupd).
    set (c1 := pushed "refine_clusters" c).
    assert (refine_body a g c1 = (set_changed true (set_cur d1 c1), Ok tt)) as Hb.
    { unfold refine_body. change (disk c1) with (disk c). change (cur c1) with (cur c).
      rewrite (idle_cur c Hid), E. unfold update_cluster_feature.
      rewrite atomic_nested; [|apply contained_on_db|apply in_txn_pushed|cbn; lia].
      rewrite on_db_run by apply in_txn_pushed.
      change (cur (pushed "_update_cluster_feature" c1)) with (cur c). rewrite (idle_cur c Hid), Hrun.
      cbn [fst snd changed set_changed set_cur cur]. by rewrite orb_true_r. }
    destruct (atomic_outer_ok "refine_clusters" false (refine_body a g) c _ tt Hid (contained_refine a g) Hb)
      as (d & Hr & Hat).
    + done.
    + apply S.
    + apply S.
    + done.
    + change (cur (set_changed true (set_cur d1 c1))) with d1 in Hr.
      exists (committed_conn d (Datatypes.S (pool_pos c)) c).
      split; [exact Hat|]. split; [apply idle_committed|].
      pose proof Hr as (H1 & H2 & H3 & H4 & H5).
      change (disk (committed_conn d (Datatypes.S (pool_pos c)) c)) with d.
      split; [by split|]. split; [by eapply same_index_trans; [apply S|]|].
      split; [|apply crash_committed]. split; [|by eapply step_refreshed_pins].
      destruct Hupd as [U1 U2]. split; intros; rewrite H4; [by eapply U1|by apply U2].
  - exists (committed_conn (disk c) (pool_pos c) c). split; [|split; [apply idle_committed|split; [done|]]].
    + eapply atomic_outer_err; [done|apply (contained_refine a g)| |].
      * unfold refine_body. change (disk (pushed "refine_clusters" c)) with (disk c).
        change (cur (pushed "refine_clusters" c)) with (cur c). rewrite (idle_cur c Hid), E. reflexivity.
      * apply Hid.
    + intros d Hd. by destruct (crash_committed _ _ _ _ Hd).
Qed.
