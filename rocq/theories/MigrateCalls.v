(** MigrateCalls.v: opening an index database. *)
From Verif Require Export MigrateProofs ClusterCalls.

Lemma written_wal v f : written_at v f -> written_at v (set_wal f).
Proof. by intros [H1 H2 H3 H4]; constructor. Qed.

Lemma migrated_members v d c : members (migrated_rows v d) c = members d c.
Proof.
  unfold members. cbn [feature_cluster migrated_rows write_field_summary set_field_summary].
  apply set_eq. intros f. rewrite !elem_of_dom. unfold is_Some. setoid_rewrite map_filter_lookup_Some.
  rewrite lookup_fmap. destruct (feature_cluster d !! f) as [r|]; cbn; naive_solver.
Qed.
Lemma migrated_references v d : references_ok d -> references_ok (migrated_rows v d).
Proof.
  intros (H1 & H2 & H3). split_and!.
  - intros f row. cbn [feature_cluster inverted_index cluster migrated_rows write_field_summary set_field_summary].
    rewrite lookup_fmap. destruct (feature_cluster d !! f) as [r|] eqn:E; [|done]. cbn. intros [= <-].
    destruct (H1 f r E) as [(ii & A & B) C]. split; [by exists ii|]. cbn. by rewrite lookup_fmap, fmap_is_Some.
  - done.
  - intros c. cbn [cluster changed_cluster migrated_rows write_field_summary set_field_summary].
    rewrite lookup_fmap, fmap_is_Some. destruct (v <=? 4)%Z; [|by apply H3].
    intros [H|H]%elem_of_union; [by apply elem_of_dom|by apply H3].
Qed.
Lemma migrated_docs v d f : feature_docs (migrated_rows v d) f = feature_docs d f.
Proof. done. Qed.
Lemma migrated_quiet v d : (5 <= v)%Z -> quiet d -> quiet (migrated_rows v d).
Proof.
  intros Hv [H1 (H2 & H3 & H4)]. split; [by apply migrated_references|].
  assert ((v <=? 4)%Z = false) as Hv4 by lia. split_and!.
  - intros c row. cbn [cluster migrated_rows write_field_summary set_field_summary]. rewrite lookup_fmap.
    destruct (cluster d !! c) as [r|] eqn:E; [|done]. cbn. intros [= <-].
    destruct (H2 c r E) as (A & B & C). unfold summary_correct. rewrite migrated_members.
    unfold migrated_cluster. rewrite Hv4. cbn [c_feature_count c_doc_ids c_docs_count c_weight].
    split_and!; [done| |done]. destruct B as (docs & B1 & B2 & B3). by exists docs.
  - intros c. rewrite migrated_members. cbn [cluster migrated_rows write_field_summary set_field_summary].
    by rewrite lookup_fmap, fmap_is_Some.
  - cbn [changed_cluster migrated_rows write_field_summary set_field_summary]. by rewrite Hv4.
Qed.

Lemma map_imap_id {K A} `{Countable K} (g : K -> A -> option A) (m : gmap K A) :
  (forall k x, m !! k = Some x -> g k x = Some x) -> map_imap g m = m.
Proof.
  intros Hg. apply map_eq. intros k. rewrite map_lookup_imap. destruct (m !! k) as [x|] eqn:E; [|done].
  cbn. by apply Hg.
Qed.
Lemma refresh_quiet d : quiet d -> refresh_on_open d = (d, Ok tt).
Proof.
  intros [H1 (H2 & H3 & H4)]. unfold refresh_on_open.
  assert (update_feature_counts d = d) as E.
  { unfold update_feature_counts. rewrite H4. rewrite map_imap_id; [by destruct d|].
    intros c row _. rewrite bool_decide_false; [done|]. set_solver. }
  rewrite E. unfold housekeeping_jobs. rewrite H4. change (z_list ∅) with (@nil Z). cbn [fmap list_fmap].
  unfold delete_clusters_where.
  assert (filter (fun kv : Z * cluster_row => (c_feature_count kv.2 =? 0)%N = true) (cluster d) = ∅) as E1.
  { apply map_empty. intros c. apply map_filter_lookup_None. right. intros row Hr. cbn.
    destruct (H2 c row Hr) as (A & _). rewrite A. assert (members d c ≠ ∅) as Hm by (apply H3; by eexists).
    intros Hz%N.eqb_eq. apply Hm. apply leibniz_equiv, size_empty_inv. lia. }
  assert (filter (fun kv : Z * cluster_row => (c_feature_count kv.2 =? 0)%N = false) (cluster d) = cluster d) as E2.
  { apply map_filter_id. intros c row Hr. cbn.
    assert (filter (fun kv : Z * cluster_row => (c_feature_count kv.2 =? 0)%N = true) (cluster d) !! c = None) as HN by (by rewrite E1).
    apply map_filter_lookup_None in HN as [HN|HN]; [congruence|].
    specialize (HN row Hr). cbn in HN. by destruct (c_feature_count row =? 0)%N. }
  rewrite E1, E2, dom_empty_L. rewrite bool_decide_true by (intros ? ? ?; set_solver).
  f_equal. destruct d. cbn in *. subst. unfold set_changed_cluster, set_cluster. cbn. done.
Qed.

Lemma refresh_marked d c : c ∈ changed_cluster d -> refresh_on_open d = (d, Err AttributeError).
Proof.
  intros Hc. unfold refresh_on_open, housekeeping_jobs.
  change (changed_cluster (update_feature_counts d)) with (changed_cluster d).
  assert (c ∈ z_list (changed_cluster d)) as Hin by (by apply elem_of_z_list).
  destruct (z_list (changed_cluster d)); [by apply elem_of_nil in Hin|]. done.
Qed.

Lemma migrated_settings v f : tables (migrated v f) !! "settings" = Some ["key"; "value"].
Proof.
  change (tables (migrated v f)) with (tables (after_schema (before_schema v f))).
  apply after_table; [apply before_compatible|reflexivity].
Qed.

Lemma open_known v f : (4 <= v <= 9)%Z -> written_at v f ->
  open_file f =
    match refresh_on_open (migrated_rows v (rows f)) with
    | (d, Ok _) => (set_rows d (migrated v (set_wal f)), Ok (settings (migrated v (set_wal f))))
    | (d, Err e) => (set_rows d (migrated v (set_wal f)), Err e)
    end.
Proof.
  intros Hv Hw. unfold open_file. rewrite (migrate_known v _ Hv (written_wal _ _ Hw)).
  change (rows (migrated v (set_wal f))) with (migrated_rows v (rows f)).
  destruct (refresh_on_open (migrated_rows v (rows f))) as [d [[]|e]]; [|done].
  rewrite bool_decide_true; [done|].
  change (tables (set_rows d (migrated v (set_wal f)))) with (tables (migrated v (set_wal f))).
  apply migrated_settings.
Qed.

Lemma open_known_quiet v f : (5 <= v <= 9)%Z -> written_at v f -> quiet (rows f) ->
  open_file f = (migrated v (set_wal f), Ok (settings (migrated v (set_wal f)))).
Proof.
  intros Hv Hw Hq. rewrite (open_known v) by (done || lia). rewrite refresh_quiet; [done|].
  apply migrated_quiet; [lia|done].
Qed.
Lemma open_v4_clusters f c row : written_at 4 f -> cluster (rows f) !! c = Some row ->
  open_file f = (migrated 4 (set_wal f), Err AttributeError).
Proof.
  intros Hw Hc. rewrite (open_known 4) by (done || lia). rewrite (refresh_marked _ c); [done|].
  cbn [changed_cluster migrated_rows write_field_summary set_field_summary].
  change ((4 <=? 4)%Z) with true. cbv iota. apply elem_of_union_l. apply elem_of_dom. eauto.
Qed.
Lemma open_v4_empty f : written_at 4 f -> references_ok (rows f) -> cluster (rows f) = ∅ ->
  open_file f = (migrated 4 (set_wal f), Ok (settings (migrated 4 (set_wal f)))).
Proof.
  intros Hw Hr Hc. rewrite (open_known 4) by (done || lia). rewrite refresh_quiet; [done|].
  assert (feature_cluster (rows f) = ∅) as Hf.
  { apply map_empty. intros x. destruct (feature_cluster (rows f) !! x) as [r|] eqn:E; [|done].
    apply Hr in E as [_ [? E]]. rewrite Hc, lookup_empty in E. done. }
  assert (changed_cluster (rows f) = ∅) as Hm.
  { apply set_eq. intros x. split; [|by intros ?%elem_of_empty]. intros Hx. apply Hr in Hx as [? Hx].
    rewrite Hc, lookup_empty in Hx. done. }
  assert (cluster (migrated_rows 4 (rows f)) = ∅) as Ec.
  { cbn [cluster migrated_rows write_field_summary set_field_summary]. by rewrite Hc, fmap_empty. }
  split; [by apply migrated_references|]. split_and!.
  - intros c row. by rewrite Ec, lookup_empty.
  - intros c. rewrite Ec, lookup_empty, migrated_members. unfold members. rewrite Hf, map_filter_empty, dom_empty_L.
    split; [by intros []|done].
  - cbn [changed_cluster migrated_rows write_field_summary set_field_summary]. rewrite Hc, Hm. by_computation.
Qed.

Lemma migrated_current v f : is_current (migrated v f).
Proof.
  split_and!; [done|done| | |].
  - intros t cols Ht. change (tables (migrated v f)) with (tables (after_schema (before_schema v f))).
    apply after_table; [apply before_compatible|done].
  - change (objects (migrated v f)) with (objects (after_schema (before_schema v f))). unfold after_schema. cbn [objects]. set_solver.
  - change (objects (migrated v f)) with (objects (after_schema (before_schema v f))). unfold after_schema. cbn [objects].
    assert (retired_triggers ## index_triggers) as H; [|set_solver].
    apply (bool_decide_unpack _). vm_compute. exact I.
Qed.
Lemma migrated_other v f t : index_tables !! t = None -> t ≠ "skipgram_count" -> tables (migrated v f) !! t = tables f !! t.
Proof.
  intros Ht Hs. change (tables (migrated v f)) with (tables (after_schema (before_schema v f))).
  unfold after_schema. cbn [tables]. rewrite lookup_union, Ht, lookup_delete_ne by done.
  unfold before_schema, pre_tables. cbn [tables]. rewrite map_lookup_imap.
  destruct (tables f !! t); [|done]. unfold mbind, option_bind. by rewrite Ht.
Qed.
