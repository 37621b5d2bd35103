(** ClusterCalls.v: the public clustering methods, from an idle connection. *)
From Verif Require Export ConnProofs SpecUtilities UtilitiesProofs.

Lemma crash_committed c d pos x : crash_states c (committed_conn d pos c) x -> x = disk c \/ x = d.
Proof.
  intros [->|(new & old & H & -> & Hx)]; [by left|]. right.
  change (commits (committed_conn d pos c)) with ([d] ++ commits c) in H.
  apply app_inv_tail in H. subst new. by apply elem_of_list_singleton in Hx.
Qed.

Lemma call_ok {A} name (body : dbm A) c d1 a (post : db -> db -> Prop) :
  idle c -> pool_works c -> body (disk c) = (d1, Ok a) ->
  usable d1 -> same_index (disk c) d1 ->
  (forall d2, refreshed d1 d2 -> post (disk c) d2) ->
  call_succeeds (atomic name true (on_db body)) c a post.
Proof.
  intros Hid Hp Hb Hu Hi Hpost.
  assert (on_db body (pushed name c) = (set_cur d1 (pushed name c), Ok a)) as Hrun.
  { rewrite on_db_run by apply in_txn_pushed. change (cur (pushed name c)) with (cur c).
    rewrite (idle_cur c Hid), Hb. done. }
  destruct (atomic_outer_ok name true (on_db body) c _ a Hid (contained_on_db body) Hrun)
    as (d & Hr & Hat).
  - by rewrite orb_true_r.
  - done.
  - cbn [cur set_cur]. apply Hi.
  - done.
  - cbn [cur set_cur] in Hr. exists (committed_conn d (S (pool_pos c)) c).
    split; [done|]. split; [apply idle_committed|].
    pose proof Hr as (H1 & H2 & H3 & H4 & H5). cbn.
    split; [by split|]. split; [by eapply same_index_trans|]. split; [auto|].
    apply crash_committed.
Qed.

Lemma call_err {A} name (body : dbm A) c d1 e :
  idle c -> body (disk c) = (d1, Err e) -> call_raises (atomic name true (on_db body)) c e.
Proof.
  intros Hid Hb.
  assert (on_db body (pushed name c) = (set_cur d1 (pushed name c), Err e)) as Hrun.
  { rewrite on_db_run by apply in_txn_pushed. change (cur (pushed name c)) with (cur c).
    rewrite (idle_cur c Hid), Hb. done. }
  exists (committed_conn (disk c) (pool_pos c) c).
  split.
  { eapply atomic_outer_err; [done|apply contained_on_db|done|]. cbn. apply Hid. }
  split; [apply idle_committed|]. split; [done|]. intros d Hd. by destruct (crash_committed _ _ _ _ Hd).
Qed.

(** Reading off assignments and pins. *)
Lemma refreshed_assigned d d' f : refreshed d d' -> assigned d' f = assigned d f.
Proof. intros (_ & _ & _ & H & _). unfold assigned. by rewrite H. Qed.
Lemma refreshed_fpin d d' f : refreshed d d' -> feature_pinned d' f = feature_pinned d f.
Proof. intros (_ & _ & _ & H & _). unfold feature_pinned. by rewrite H. Qed.
Lemma refreshed_members d d' c : refreshed d d' -> members d' c = members d c.
Proof. intros (_ & _ & _ & H & _). by apply members_ext. Qed.

Lemma step_refreshed_pins d d1 d2 fc :
  step d d1 fc -> refreshed d1 d2 -> cluster_pins_kept d d2.
Proof.
  intros S R x Hx. rewrite (refreshed_members _ _ _ R) in Hx.
  destruct R as (_ & _ & _ & _ & R). by rewrite R, (step_pins _ _ _ S).
Qed.

Lemma delete_clusters_call cs c : idle c -> usable (disk c) -> pool_works c ->
  call_succeeds (delete_clusters cs) c tt (fun d d' =>
    (forall f, assigned d' f = match assigned d f with
                               | Some x => if decide (x ∈ cs) then None else Some x
                               | None => None
                               end) /\
    feature_pins_kept d d' /\ cluster_pins_kept d d').
Proof.
  intros Hid Hu Hp. destruct (delete_clusters_body_spec cs (disk c) Hu) as (d1 & Hb & S).
  apply (call_ok _ _ _ d1); [done..|apply S|apply S|].
  intros d2 R. split_and!; [| |by eapply step_refreshed_pins].
  - intros f. rewrite (refreshed_assigned _ _ _ R). unfold assigned. rewrite (step_fc _ _ _ S).
    destruct (feature_cluster (disk c) !! f) as [row|] eqn:E; simpl.
    + case_decide as Hx.
      * destruct (filter _ _ !! f) eqn:E2; [|done].
        apply map_filter_lookup_Some in E2 as [E2 H2]. simpl in H2. congruence.
      * erewrite (proj2 (map_filter_lookup_Some _ _ _ _)); [done|]. done.
    + destruct (filter _ _ !! f) eqn:E2; [|done].
      apply map_filter_lookup_Some in E2 as [E2 H2]. congruence.
  - intros f Hf. rewrite (refreshed_assigned _ _ _ R) in Hf. rewrite (refreshed_fpin _ _ _ R).
    unfold assigned in Hf. unfold feature_pinned. rewrite (step_fc _ _ _ S) in Hf |- *.
    destruct (filter _ _ !! f) as [row|] eqn:E2; [|by destruct Hf].
    by apply map_filter_lookup_Some in E2 as [-> _].
Qed.

Lemma merge_clusters_call m rest c : idle c -> usable (disk c) -> pool_works c ->
  call_succeeds (merge_clusters (m :: rest)) c m (fun d d' =>
    (forall f, assigned d' f = match assigned d f with
                               | Some x => if decide (x ∈ rest) then Some m else Some x
                               | None => None
                               end) /\
    (forall f, feature_pinned d' f = feature_pinned d f) /\ cluster_pins_kept d d').
Proof.
  intros Hid Hu Hp. destruct (merge_clusters_body_spec m rest (disk c) Hu) as (d1 & Hb & S).
  apply (call_ok _ _ _ d1); [done..|apply S|apply S|].
  intros d2 R. split_and!; [| |by eapply step_refreshed_pins].
  - intros f. rewrite (refreshed_assigned _ _ _ R). unfold assigned. rewrite (step_fc _ _ _ S).
    rewrite lookup_fmap. destruct (feature_cluster (disk c) !! f) as [row|] eqn:E; [|done].
    cbn. by case_decide.
  - intros f. rewrite (refreshed_fpin _ _ _ R). unfold feature_pinned. rewrite (step_fc _ _ _ S).
    rewrite lookup_fmap. destruct (feature_cluster (disk c) !! f) as [row|] eqn:E; [|done].
    cbn. by case_decide.
Qed.

Lemma delete_features_call fs c : idle c -> usable (disk c) -> pool_works c ->
  call_succeeds (delete_features fs) c tt (fun d d' =>
    (forall f, assigned d' f = if decide (f ∈ fs) then None else assigned d f) /\
    feature_pins_kept d d' /\ cluster_pins_kept d d').
Proof.
  intros Hid Hu Hp. destruct (delete_features_body_spec fs (disk c) Hu) as (d1 & Hb & S).
  apply (call_ok _ _ _ d1); [done..|apply S|apply S|].
  intros d2 R. split_and!; [| |by eapply step_refreshed_pins].
  - intros f. rewrite (refreshed_assigned _ _ _ R). unfold assigned. rewrite (step_fc _ _ _ S).
    case_decide as Hx.
    + destruct (filter _ _ !! f) eqn:E2; [|done].
      apply map_filter_lookup_Some in E2 as [E2 H2]. simpl in H2. congruence.
    + destruct (feature_cluster (disk c) !! f) as [row|] eqn:E.
      * erewrite (proj2 (map_filter_lookup_Some _ _ _ _)); [done|]. done.
      * destruct (filter _ _ !! f) eqn:E2; [|done].
        apply map_filter_lookup_Some in E2 as [E2 H2]. congruence.
  - intros f Hf. rewrite (refreshed_assigned _ _ _ R) in Hf. rewrite (refreshed_fpin _ _ _ R).
    unfold assigned in Hf. unfold feature_pinned. rewrite (step_fc _ _ _ S) in Hf |- *.
    destruct (filter _ _ !! f) as [row|] eqn:E2; [|by destruct Hf].
    by apply map_filter_lookup_Some in E2 as [-> _].
Qed.

Lemma pin_features_call fs p c : idle c -> usable (disk c) -> pool_works c ->
  call_succeeds (pin_features fs p) c tt (fun d d' =>
    (forall f, assigned d' f = assigned d f) /\
    (forall f, feature_pinned d' f =
       if decide (f ∈ fs /\ is_Some (assigned d f)) then p else feature_pinned d f) /\
    cluster_pins_kept d d').
Proof.
  intros Hid Hu Hp. destruct (pin_features_body_spec fs p (disk c) Hu) as (d1 & Hb & S).
  apply (call_ok _ _ _ d1); [done..|apply S|apply S|].
  intros d2 R. split_and!; [| |by eapply step_refreshed_pins].
  - intros f. rewrite (refreshed_assigned _ _ _ R). unfold assigned. rewrite (step_fc _ _ _ S).
    rewrite map_lookup_imap. destruct (feature_cluster (disk c) !! f) as [row|] eqn:E; [|done].
    cbn. by case_decide.
  - intros f. rewrite (refreshed_fpin _ _ _ R). unfold feature_pinned, assigned. rewrite (step_fc _ _ _ S).
    rewrite map_lookup_imap. destruct (feature_cluster (disk c) !! f) as [row|] eqn:E.
    + cbn. destruct (decide (f ∈ fs)).
      * rewrite decide_True by (split; [done|by eexists]). done.
      * rewrite decide_False by tauto. done.
    + cbn. rewrite decide_False; [done|]. intros [_ []]. done.
Qed.

Lemma pin_clusters_call cs p c : idle c -> usable (disk c) -> pool_works c ->
  call_succeeds (pin_clusters cs p) c tt (fun d d' =>
    (forall f, assigned d' f = assigned d f) /\
    (forall f, feature_pinned d' f = feature_pinned d f) /\
    (forall x, members d x ≠ ∅ ->
       cluster_pinned d' x = if decide (x ∈ cs) then p else cluster_pinned d x)).
Proof.
  intros Hid Hu Hp.
  destruct (pin_clusters_body_spec cs p (disk c) Hu) as (d1 & Hb & U & I & F & C & D & P).
  apply (call_ok _ _ _ d1); [done..|].
  intros d2 R. split_and!.
  - intros f. rewrite (refreshed_assigned _ _ _ R). unfold assigned. by rewrite F.
  - intros f. rewrite (refreshed_fpin _ _ _ R). unfold feature_pinned. by rewrite F.
  - intros x Hx. destruct R as (_ & _ & _ & _ & R).
    rewrite R by (by rewrite (members_ext (disk c) d1)). rewrite P.
    assert (x ∈ dom (cluster (disk c))) as Hd.
    { destruct (set_choose_L _ Hx) as [f Hf]. apply elem_of_members in Hf as (row & Hf & <-).
      destruct Hu as [(Hfc & _) _]. apply elem_of_dom. by apply (Hfc f row Hf). }
    destruct (decide (x ∈ cs)); [by rewrite decide_True|rewrite decide_False by tauto; done].
Qed.

Lemma create_call fs c : idle c -> usable (disk c) -> pool_works c ->
  (forall f, f ∈ fs -> is_Some (inverted_index (disk c) !! f)) ->
  exists id, (forall x, x ∈ cluster_ids (disk c) -> (x < id)%Z) /\
  call_succeeds (create_cluster_from_features fs) c id (fun d d' =>
    (forall f, assigned d' f = if decide (f ∈ fs) then Some id else assigned d f) /\
    (forall f, feature_pinned d' f = feature_pinned d f) /\
    (forall x, x <> id -> members d' x ≠ ∅ -> cluster_pinned d' x = cluster_pinned d x) /\
    cluster_pinned d' id = false).
Proof.
  intros Hid Hu Hp Hall. exists (next_cluster_id (disk c)).
  split. { intros x Hx. apply next_cluster_id_fresh. by apply elem_of_z_list in Hx. }
  pose proof (create_cluster_body_spec fs (disk c) Hu) as Hb.
  destruct (create_cluster_body fs (disk c)) as [d1 [id|e]] eqn:Eb.
  2:{ destruct Hb as (_ & f & Hf & Hn). destruct (Hall f Hf) as [? H]. congruence. }
  destruct Hb as (-> & _ & S). set (id := next_cluster_id (disk c)) in *.
  apply (call_ok _ _ _ d1); [done..|apply S|apply S|].
  intros d2 R. pose proof (step_refreshed_pins _ _ _ _ S R) as Hpk.
  assert (forall f row, feature_cluster (disk c) !! f = Some row ->
            is_Some (inverted_index (disk c) !! f)) as Hfi.
  { intros f row Hf. destruct Hu as [(Hfc & _) _].
    destruct (Hfc f row Hf) as [(ii & -> & _) _]. eauto. }
  split_and!.
  - intros f. rewrite (refreshed_assigned _ _ _ R). unfold assigned. rewrite (step_fc _ _ _ S).
    unfold created_fc. rewrite map_lookup_imap.
    destruct (feature_cluster (disk c) !! f) as [row|] eqn:E.
    + destruct (Hfi f row E) as [ii ->]. cbn. by case_decide.
    + destruct (inverted_index (disk c) !! f) eqn:E2; cbn; case_decide as Hx; try done.
      destruct (Hall f Hx). congruence.
  - intros f. rewrite (refreshed_fpin _ _ _ R). unfold feature_pinned. rewrite (step_fc _ _ _ S).
    unfold created_fc. rewrite map_lookup_imap.
    destruct (feature_cluster (disk c) !! f) as [row|] eqn:E.
    + destruct (Hfi f row E) as [ii ->]. cbn. by case_decide.
    + destruct (inverted_index (disk c) !! f) eqn:E2; cbn; [|done]. by case_decide.
  - intros x _ Hx. by apply Hpk.
  - assert (cluster_pinned (disk c) id = false) as Hn.
    { unfold cluster_pinned. destruct (cluster (disk c) !! id) eqn:E; [|done].
      apply elem_of_dom_2, next_cluster_id_fresh in E. unfold id in E. lia. }
    destruct (decide (members d2 id = ∅)) as [He|He]; [|by rewrite Hpk].
    unfold cluster_pinned. destruct (cluster d2 !! id) eqn:E; [|done].
    destruct R as (_ & (_ & R & _) & _). exfalso. eapply R; eauto.
Qed.

Lemma create_call_err fs c : idle c -> usable (disk c) ->
  (exists f, f ∈ fs /\ inverted_index (disk c) !! f = None) ->
  call_raises (create_cluster_from_features fs) c IntegrityError.
Proof.
  intros Hid Hu (f & Hf & Hn).
  pose proof (create_cluster_body_spec fs (disk c) Hu) as Hb.
  destruct (create_cluster_body fs (disk c)) as [d1 [id|e]] eqn:Eb.
  - destruct Hb as (_ & H & _). destruct (H f Hf). congruence.
  - destruct Hb as (-> & _). by eapply call_err.
Qed.

(** initialise_clusters *)
Lemma init_rows_lookup n md fields g d f row : NoDup fields ->
  (list_to_map (row_entry <$> init_rows n md fields g d) : gmap N fc_row) !! f = Some row ->
  (fc_cluster row, (f, fc_docs_count row)) ∈ init_rows n md fields g d /\ fc_pinned row = false.
Proof.
  intros Hnd Hl. apply elem_of_list_to_map_2 in Hl.
  apply elem_of_list_fmap in Hl as ([z [f' dc]] & Heq & Hin). unfold row_entry in Heq. cbn in Heq.
  injection Heq as -> ->. done.
Qed.

Lemma init_rows_eligible n md fields g d f dc : 1 <= n ->
  (f, dc) ∈ (init_rows n md fields g d).*2 <->
  eligible d md fields f /\ exists row, inverted_index d !! f = Some row /\ dc = f_docs_count row.
Proof.
  intros Hn. unfold init_rows. rewrite initial_rows_features, py_shuffle_perm by done.
  rewrite elem_of_selected_features. unfold eligible.
  assert (forall x, x ∈ (map_to_list (field_summary d)).*1 <-> is_Some (field_summary d !! x)) as Hfs.
  { intros x. rewrite elem_of_list_fmap. split.
    - intros ([a b] & -> & H). apply elem_of_map_to_list in H. cbn. eauto.
    - intros [b H]. exists (x, b). split; [done|]. by apply elem_of_map_to_list. }
  split.
  - intros (ii & H1 & -> & H2 & H3). split; [|eauto]. exists ii. split_and!; try done.
    destruct fields; [|done]. by apply Hfs.
  - intros [(row & H1 & H2 & H3) (row' & H1' & ->)]. rewrite H1 in H1'. injection H1' as ->.
    exists row'. split_and!; try done. destruct fields; [|done]. by apply Hfs.
Qed.

Lemma init_members_size (fc : gmap N fc_row) rows d i :
  feature_cluster d = list_to_map (row_entry <$> rows) ->
  NoDup ((fun r : Z * (N * N) => r.2.1) <$> rows) ->
  size (members d i) = length (filter (fun r => r.1 = i) rows).
Proof.
  intros Hfc Hnd.
  assert (members d i = list_to_set ((fun r : Z * (N * N) => r.2.1) <$> filter (fun r => r.1 = i) rows)) as ->.
  { apply leibniz_equiv. intros f. rewrite elem_of_members, elem_of_list_to_set, elem_of_list_fmap.
    rewrite Hfc. split.
    - intros (row & Hl & <-). apply elem_of_list_to_map_2 in Hl.
      apply elem_of_list_fmap in Hl as ([z [f' dc]] & Heq & Hin). unfold row_entry in Heq. cbn in Heq.
      injection Heq as -> ->. exists (z, (f', dc)). split; [done|]. by apply elem_of_list_filter.
    - intros ([z [f' dc]] & -> & Hin). apply elem_of_list_filter in Hin as [Hz Hin]. cbn in Hz |- *. subst z.
      exists (FcRow i dc false). split; [|done]. apply elem_of_list_to_map_1.
      + rewrite <- list_fmap_compose. done.
      + apply elem_of_list_fmap. exists (i, (f', dc)). done. }
  rewrite size_list_to_set; [by rewrite fmap_length|].
  clear Hfc. induction rows as [|r rows IH]; [constructor|]. cbn in Hnd.
  apply NoDup_cons in Hnd as [Hr Hnd]. rewrite filter_cons. case_decide; [|auto].
  cbn. apply NoDup_cons. split; [|auto]. intros Hin. apply Hr.
  apply elem_of_list_fmap in Hin as (x & -> & Hx). apply elem_of_list_filter in Hx as [_ Hx].
  apply elem_of_list_fmap. by exists x.
Qed.

Lemma initialise_call n md fields g c : idle c -> usable (disk c) -> pool_works c ->
  1 <= n -> NoDup fields ->
  call_succeeds (initialise_clusters n md fields g) c tt (fun d d' =>
    (forall f, is_Some (assigned d' f) <-> eligible d md fields f) /\
    (forall f x, assigned d' f = Some x -> (0 <= x < Z.of_nat n)%Z) /\
    (forall i j, (0 <= i < Z.of_nat n)%Z -> (0 <= j < Z.of_nat n)%Z ->
       size (members d' i) <= S (size (members d' j))) /\
    (forall f, feature_pinned d' f = false) /\ (forall x, cluster_pinned d' x = false)).
Proof.
  intros Hid Hu Hp Hn Hnd.
  pose proof (initialise_clusters_body_spec n md fields g (disk c) Hu) as Hb.
  destruct (initialise_clusters_body n md fields g (disk c)) as [d1 [[]|e]] eqn:Eb.
  2:{ destruct Hb as [_ Hb]. exfalso. apply Hb. by apply init_rows_NoDup. }
  destruct Hb as [S Hnd2].
  apply (call_ok _ _ _ d1); [done..|apply S| |].
  { destruct (step_index _ _ _ S) as (H1 & H2 & H3 & H4 & H5). done. }
  intros d2 R. set (rows := init_rows n md fields g (disk c)) in *.
  assert (feature_cluster d2 = list_to_map (row_entry <$> rows)) as Hfc.
  { destruct R as (_ & _ & _ & -> & _). apply S. }
  assert (forall f row, feature_cluster d2 !! f = Some row ->
     (fc_cluster row, (f, fc_docs_count row)) ∈ rows /\ fc_pinned row = false) as Hl.
  { intros f row. rewrite Hfc. by apply init_rows_lookup. }
  split_and!.
  - intros f. unfold assigned. rewrite fmap_is_Some. split.
    + intros [row Hrow]. destruct (Hl _ _ Hrow) as [Hin _].
      assert ((f, fc_docs_count row) ∈ rows.*2) as Hin2.
      { apply elem_of_list_fmap. by exists (fc_cluster row, (f, fc_docs_count row)). }
      by apply init_rows_eligible in Hin2 as [? _].
    + intros He. assert (exists dc, (f, dc) ∈ rows.*2) as [dc Hdc].
      { pose proof He as (row & Hrow & _). exists (f_docs_count row).
        apply init_rows_eligible; eauto. }
      apply elem_of_list_fmap in Hdc as ([z [f' dc']] & Heq & Hin). cbn in Heq. injection Heq as <- <-.
      exists (FcRow z dc false). rewrite Hfc. apply elem_of_list_to_map_1.
      * rewrite <- list_fmap_compose. done.
      * apply elem_of_list_fmap. by exists (z, (f, dc)).
  - intros f x. unfold assigned. destruct (feature_cluster d2 !! f) as [row|] eqn:E; [|done].
    intros [= <-]. destruct (Hl _ _ E) as [Hin _]. by eapply initial_rows_cluster.
  - intros i j Hi Hj. rewrite !(init_members_size ∅ rows) by done.
    rewrite <- (Z2Nat.id i), <- (Z2Nat.id j) by lia. unfold rows, init_rows.
    rewrite !initial_rows_of_cluster by lia. rewrite !fmap_length. apply stride_length_bal; lia.
  - intros f. unfold feature_pinned. destruct (feature_cluster d2 !! f) as [row|] eqn:E; [|done].
    by apply Hl in E as [_ ?].
  - intros x. destruct (decide (members d2 x = ∅)) as [He|He].
    + unfold cluster_pinned. destruct (cluster d2 !! x) eqn:E; [|done].
      destruct R as (_ & (_ & R & _) & _). exfalso. eapply R; eauto.
    + rewrite (step_refreshed_pins _ _ _ _ S R) by done. unfold cluster_pinned, cleared. cbn.
      by rewrite lookup_empty.
Qed.

(** ** Readers *)
Lemma feature_order_total : Total feature_order.
Proof. intros x y. unfold feature_order. destruct x as [[[? ?] ?] ?], y as [[[? ?] ?] ?]; cbn. lia. Qed.
Lemma feature_order_trans : Transitive feature_order.
Proof. intros x y z. unfold feature_order. destruct x as [[[? ?] ?] ?], y as [[[? ?] ?] ?], z as [[[? ?] ?] ?]; cbn. lia. Qed.
Lemma cluster_order_total : Total cluster_order.
Proof. intros x y. unfold cluster_order. lia. Qed.
Lemma cluster_order_trans : Transitive cluster_order.
Proof. intros x y z. unfold cluster_order. lia. Qed.

Definition all_features (d : db) (c : Z) : list (N * string * value * N) :=
  omap (fun f =>
      match feature_cluster d !! f, inverted_index d !! f with
      | Some fc, Some ii => Some (f, f_field ii, f_value ii, fc_docs_count fc)
      | _, _ => None
      end) (features_of_cluster c d).

Lemma elem_of_all_features d c r : references_ok d ->
  r ∈ all_features d c <->
  exists f ii, f ∈ members d c /\ inverted_index d !! f = Some ii /\
    r = (f, f_field ii, f_value ii, f_docs_count ii).
Proof.
  intros (Hfc & _). unfold all_features. rewrite elem_of_list_omap. rewrite features_of_cluster_members.
  split.
  - intros (f & Hf & Hr). apply elem_of_bm_list in Hf. exists f.
    destruct (feature_cluster d !! f) as [row|] eqn:E; [|done].
    destruct (inverted_index d !! f) as [ii|] eqn:E2; [|done]. injection Hr as <-.
    exists ii. split_and!; try done. destruct (Hfc f row E) as [(ii' & H1 & ->) _].
    rewrite E2 in H1. by injection H1 as ->.
  - intros (f & ii & Hf & E & ->). exists f. split; [by apply elem_of_bm_list|].
    apply elem_of_members in Hf as (row & Hrow & _).
    destruct (Hfc f row Hrow) as [(ii' & H1 & H2) _].
    rewrite E in H1. injection H1 as <-. rewrite Hrow, E. by rewrite H2.
Qed.

Lemma all_features_ids d c : references_ok d ->
  (all_features d c).*1.*1.*1 = bm_list (members d c).
Proof.
  intros (Hfc & _). unfold all_features. rewrite features_of_cluster_members.
  assert (forall f, f ∈ bm_list (members d c) -> exists row ii, feature_cluster d !! f = Some row /\
    inverted_index d !! f = Some ii) as H.
  { intros f Hf. apply elem_of_bm_list, elem_of_members in Hf as (row & Hrow & _).
    destruct (Hfc f row Hrow) as [(ii & ? & _) _]. eauto. }
  induction (bm_list (members d c)) as [|f l IH]; [done|].
  destruct (H f ltac:(left)) as (row & ii & H1 & H2). cbn. rewrite H1, H2. cbn. f_equal.
  apply IH. intros x Hx. apply H. by right.
Qed.

Lemma take_sorted_top {A} (R : relation A) (l : list A) k :
  StronglySorted R l -> forall x y, x ∈ take k l -> y ∈ drop k l -> R x y.
Proof.
  revert k. induction l as [|a l IH]; intros k Hs x y Hx Hy.
  - rewrite take_nil in Hx. by apply elem_of_nil in Hx.
  - destruct k; [by apply elem_of_nil in Hx|]. cbn in Hx, Hy. inversion Hs as [|? ? Hs' Hf]; subst.
    apply elem_of_cons in Hx as [->|Hx]; [|by eapply IH].
    rewrite Forall_forall in Hf. apply Hf. rewrite <- (take_drop k l). set_solver.
Qed.

Lemma StronglySorted_take {A} (R : relation A) l k : StronglySorted R l -> StronglySorted R (take k l).
Proof.
  revert k. induction l as [|a l IH]; intros k Hs; [by rewrite take_nil|].
  destruct k; [constructor|]. cbn. inversion Hs; subst. constructor; [auto|].
  by apply Forall_take.
Qed.

Lemma StronglySorted_weaken {A} (R R' : relation A) l :
  (forall x y, R x y -> R' x y) -> StronglySorted R l -> StronglySorted R' l.
Proof.
  intros H. induction 1; constructor; [done|]. eapply Forall_impl; [done|]. auto.
Qed.

Lemma cluster_features_sorted d c k :
  exists l, l ≡ₚ all_features d c /\ StronglySorted feature_order l /\
    cluster_features d c k = match k with Some k => take k l | None => l end.
Proof.
  exists (merge_sort feature_order (all_features d c)). split; [apply merge_sort_Permutation|].
  split; [|by destruct k]. pose proof feature_order_trans.
  apply Sorted_StronglySorted; [done|]. pose proof feature_order_total. apply Sorted_merge_sort, _.
Qed.

Lemma clusters_by_docs_sorted d :
  clusters_by_docs d ≡ₚ ((fun kv => (kv.1, c_docs_count kv.2)) <$> map_to_list (cluster d)) /\
  StronglySorted cluster_order (clusters_by_docs d).
Proof.
  split; [apply merge_sort_Permutation|]. pose proof cluster_order_trans.
  apply Sorted_StronglySorted; [done|]. pose proof cluster_order_total. apply Sorted_merge_sort, _.
Qed.

Lemma cluster_features_ids d c : references_ok d ->
  (cluster_features d c None).*1.*1.*1 ≡ₚ elements (members d c).
Proof.
  intros Hr. destruct (cluster_features_sorted d c None) as (l & Hl & _ & ->).
  rewrite Hl. rewrite (all_features_ids d c Hr). apply bm_list_perm.
Qed.

Lemma count_in_features d (fs : list N) doc :
  count_in (docs_of d <$> fs) doc = N.of_nat (length (filter (fun f => doc ∈ feature_docs d f) fs)).
Proof.
  unfold count_in. f_equal. induction fs as [|f fs IH]; [done|].
  cbn [fmap list_fmap]. rewrite !filter_cons. change (docs_of d f) with (feature_docs d f).
  case_decide; cbn [length]; by rewrite IH.
Qed.

Lemma cluster_query_quiet d c row : quiet d -> cluster d !! c = Some row ->
  cluster_docs d c = Ok (Some (cluster_query d c).1) /\
  (forall doc, binary_value (cluster_query d c).2 doc =
     N.of_nat (size (filter (fun f => doc ∈ feature_docs d f) (members d c)))).
Proof.
  intros [Hr (Hs & _)] Hrow. unfold cluster_docs, cluster_query, union_bitslice. rewrite Hrow.
  destruct (Hs c row Hrow) as (_ & (docs & Hdocs & Hiff & _) & _).
  pose proof (cluster_features_ids d c Hr) as Hids.
  pose proof (compute_bitslice_spec (docs_of d <$> (cluster_features d c None).*1.*1.*1)) as Hb.
  destruct (compute_bitslice _) as [m layers]. destruct Hb as (H1 & _ & H3). cbn. split.
  - rewrite Hdocs. do 2 f_equal. apply set_eq. intros x. rewrite Hiff, H1. split.
    + intros (f & Hf & Hx). exists (docs_of d f). split; [|done].
      apply elem_of_list_fmap. exists f. split; [done|]. rewrite Hids. by apply elem_of_elements.
    + intros (b & Hb & Hx). apply elem_of_list_fmap in Hb as (f & -> & Hf). exists f. split; [|done].
      rewrite Hids in Hf. by apply elem_of_elements.
  - intros doc. rewrite H3, count_in_features. f_equal.
    rewrite Hids. rewrite <- (list_to_set_elements_L (members d c)) at 2.
    assert (forall l : list N, NoDup l ->
      length (filter (fun f => doc ∈ feature_docs d f) l) =
      size (filter (fun f => doc ∈ feature_docs d f) (list_to_set l : gset N))) as Hgen.
    { induction 1 as [|x l Hx Hnd IH]; [change (0 = size (filter (fun f => doc ∈ feature_docs d f) (∅ : gset N))); rewrite filter_empty_L by apply _; by rewrite size_empty|].
      rewrite filter_cons, list_to_set_cons, filter_union_L by apply _. case_decide as Hd.
      - rewrite filter_singleton_L by (done || apply _). rewrite size_union, size_singleton; [cbn; lia|].
        set_solver.
      - rewrite filter_singleton_not_L by (done || apply _). by rewrite (left_id_L ∅ (∪)). }
    apply Hgen. apply NoDup_elements.
Qed.

Lemma assigned_members d x f : f ∈ members d x <-> assigned d f = Some x.
Proof. apply members_assigned. Qed.

Lemma quiet_cluster_ids d x : summaries_agree d -> x ∈ cluster_ids d <-> members d x ≠ ∅.
Proof.
  intros (_ & H & _). unfold cluster_ids. rewrite elem_of_z_list, elem_of_dom. apply H.
Qed.

Lemma call_weaken {A} (call : M A) c a (P Q : db -> db -> Prop) :
  (forall d', quiet d' -> P (disk c) d' -> Q (disk c) d') ->
  call_succeeds call c a P -> call_succeeds call c a Q.
Proof. intros H (c' & H1 & H2 & H3 & H4 & H5 & H6). exists c'. split_and!; auto. Qed.

Lemma merge_clusters_members m rest c : idle c -> usable (disk c) -> pool_works c ->
  call_succeeds (merge_clusters (m :: rest)) c m (fun d d' =>
    (forall f, f ∈ members d' m <-> exists x, x ∈ m :: rest /\ f ∈ members d x) /\
    (forall x, x ∈ rest -> x <> m -> x ∉ cluster_ids d') /\
    (forall x, x ∉ m :: rest -> members d' x = members d x)).
Proof.
  intros Hid Hu Hp. eapply call_weaken; [|by apply merge_clusters_call].
  intros d' [_ Hq] (Ha & _). split_and!.
  - intros f. rewrite assigned_members, Ha. split.
    + destruct (assigned (disk c) f) as [x|] eqn:E; [|done]. case_decide as Hx; intros Heq.
      * exists x. rewrite assigned_members. set_solver.
      * injection Heq as ->. exists m. rewrite assigned_members. set_solver.
    + intros (x & Hx & Hf). apply assigned_members in Hf. rewrite Hf. case_decide; [done|].
      apply elem_of_cons in Hx as [->|?]; [done|congruence].
  - intros x Hx Hne. rewrite (quiet_cluster_ids _ _ Hq). intros Hm. apply Hm.
    apply leibniz_equiv. intros f. rewrite assigned_members, Ha.
    split; [|by intros ?%elem_of_empty].
    destruct (assigned (disk c) f) as [y|]; [|done]. case_decide; intros [= ?]; congruence.
  - intros x Hx. apply leibniz_equiv. intros f. rewrite !assigned_members, Ha.
    apply not_elem_of_cons in Hx as [H1 H2].
    destruct (assigned (disk c) f) as [y|]; [|done]. case_decide; split; intros [= ?]; congruence.
Qed.

Lemma cluster_features_spec d c (k : option nat) :
  references_ok d ->
  exists all,
    all.*1.*1.*1 ≡ₚ elements (members d c) /\
    (forall r, r ∈ all -> exists ii, inverted_index d !! r.1.1.1 = Some ii /\
       r = (r.1.1.1, f_field ii, f_value ii, f_docs_count ii)) /\
    StronglySorted (fun r s => s.2 <= r.2)%N all /\
    cluster_features d c k = match k with Some k => take k all | None => all end.
Proof.
  intros Hr. destruct (cluster_features_sorted d c k) as (l & Hl & Hs & Hc). exists l. split_and!.
  - rewrite Hl. rewrite (all_features_ids d c Hr). apply bm_list_perm.
  - intros r. rewrite Hl, elem_of_all_features by done. intros (f & ii & Hf & Hi & ->). cbn. eauto.
  - eapply StronglySorted_weaken; [|exact Hs]. unfold feature_order. intros. lia.
  - done.
Qed.

Lemma cluster_features_top d c k :
  references_ok d ->
  length (cluster_features d c (Some k)) = min k (size (members d c)) /\
  NoDup (cluster_features d c (Some k)).*1.*1.*1 /\
  forall r, r ∈ cluster_features d c (Some k) ->
    r.1.1.1 ∈ members d c /\
    forall f ii, f ∈ members d c -> inverted_index d !! f = Some ii ->
      f ∉ (cluster_features d c (Some k)).*1.*1.*1 -> (f_docs_count ii <= r.2)%N.
Proof.
  intros Hr. destruct (cluster_features_spec d c (Some k) Hr) as (l & Hl & Hd & Hs & ->).
  assert (length l = size (members d c)) as Hlen.
  { unfold size, set_size. unfold compose. rewrite <- Hl. by rewrite !fmap_length. }
  split_and!.
  - rewrite take_length. lia.
  - rewrite !fmap_take. assert (NoDup (take k l.*1.*1.*1 ++ drop k l.*1.*1.*1)) as Hn.
    { rewrite take_drop, Hl. apply NoDup_elements. }
    by apply NoDup_app in Hn as [? _].
  - intros r Hin. split.
    + apply elem_of_elements. rewrite <- Hl. do 3 (apply elem_of_list_fmap_1).
      rewrite <- (take_drop k l). set_solver.
    + intros f ii Hf Hii Hn. apply elem_of_elements in Hf. rewrite <- Hl in Hf.
      apply elem_of_list_fmap in Hf as (x1 & -> & Hf). apply elem_of_list_fmap in Hf as (x2 & -> & Hf).
      apply elem_of_list_fmap in Hf as (x3 & -> & Hf).
      destruct (Hd x3 Hf) as (ii' & Hi' & Heq). rewrite Hii in Hi'. injection Hi' as <-.
      rewrite <- (take_drop k l) in Hf. apply elem_of_app in Hf as [Hf|Hf].
      * exfalso. apply Hn. do 3 (apply elem_of_list_fmap_1). done.
      * pose proof (take_sorted_top _ _ _ Hs _ _ Hin Hf) as Hle. rewrite Heq in Hle. exact Hle.
Qed.

Lemma top_cluster_features_spec d k :
  (top_cluster_features d k).*1.*1 ≡ₚ cluster_ids d /\
  StronglySorted (fun r s => s.1.2 <= r.1.2)%N (top_cluster_features d k) /\
  (forall r, r ∈ top_cluster_features d k ->
     exists row, cluster d !! r.1.1 = Some row /\ r.1.2 = c_docs_count row /\
       r.2 = cluster_features d r.1.1 (Some k)).
Proof.
  destruct (clusters_by_docs_sorted d) as [Hp Hs]. unfold top_cluster_features.
  set (F := (fun '(c, n) => (c, n, cluster_features d c (Some k)))).
  split_and!.
  - rewrite <- !list_fmap_compose.
    assert ((fst ∘ fst ∘ F) <$> clusters_by_docs d = (clusters_by_docs d).*1) as Hf.
    { apply list_fmap_ext. intros i [x y] _. done. }
    rewrite Hf, Hp, <- list_fmap_compose. unfold cluster_ids. rewrite z_list_perm.
    apply NoDup_Permutation.
    + apply (NoDup_fst_map_to_list (cluster d)).
    + apply NoDup_elements.
    + intros x. rewrite elem_of_elements, elem_of_dom, elem_of_list_fmap. split.
      * intros ([x' row] & -> & Hin). apply elem_of_map_to_list in Hin. eauto.
      * intros [row Hrow]. exists (x, row). split; [done|]. by apply elem_of_map_to_list.
  - clear Hp. induction Hs as [|[c n] l Hs IH Hf]; [constructor|]. cbn. constructor; [exact IH|].
    rewrite Forall_forall in Hf. apply Forall_forall. intros r Hr. apply elem_of_list_fmap in Hr as ([c' n'] & -> & Hin).
    specialize (Hf _ Hin). unfold cluster_order in Hf. cbn in *. lia.
  - intros r Hr. apply elem_of_list_fmap in Hr as ([c n] & -> & Hin). cbn.
    rewrite Hp in Hin. apply elem_of_list_fmap in Hin as ([c' row] & Heq & Hin). cbn in Heq.
    injection Heq as -> ->. apply elem_of_map_to_list in Hin. eauto.
Qed.

Lemma cluster_query_agrees d c :
  quiet d -> c ∈ cluster_ids d ->
  cluster_docs d c = Ok (Some (cluster_query d c).1) /\
  (forall doc, binary_value (cluster_query d c).2 doc =
     N.of_nat (size (filter (fun f => doc ∈ feature_docs d f) (members d c)))).
Proof.
  intros Hq Hc. unfold cluster_ids in Hc. apply elem_of_z_list, elem_of_dom in Hc as [row Hrow].
  by eapply cluster_query_quiet.
Qed.
