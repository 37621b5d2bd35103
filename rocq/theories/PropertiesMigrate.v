(** PropertiesMigrate.v: C58, C59, C72. Vocabulary: SpecMigrate.v, SpecCluster.v. *)
From Verif Require Import MigrateCalls SampleDb.

(** ** Files for the examples *)
Definition old_tables (v : Z) : gmap string (list string) :=
  map_imap (fun t cols => Some (filter (had_column v t) cols)) index_tables.
(** The sample index as version [v] stored it (columns of later versions at their defaults). *)
Definition old_file (v : Z) (d : db) : file :=
  File v 715973853 true (<["notes" := ["text"]]> (old_tables v)) {["ensure_cluster"]} {["position_window_size" := 5%Z]} d.
Lemma written_check v f : user_version f = v ->
  map_Forall (fun t cols => tables f !! t = Some (filter (had_column v t) cols)) index_tables ->
  (v = 4%Z -> dom (cluster (rows f)) ## changed_cluster (rows f)) -> written_at v f.
Proof.
  intros H1 H2 H3. constructor; [done| | |done].
  - intros t cols old Ht Ho. specialize (H2 t cols Ht). cbn in H2. rewrite Ho in H2. by injection H2.
  - intros t c last Ha _. assert (exists cols, index_tables !! t = Some cols) as [cols Hc].
    { destruct (decide (t = "cluster")) as [->|]; [by eexists|]. destruct (decide (t = "feature_cluster")) as [->|]; [by eexists|].
      destruct (decide (t = "field_summary")) as [->|]; [by eexists|]. rewrite added_none in Ha by done. done. }
    specialize (H2 t cols Hc). cbn in H2. by eexists.
Qed.
Lemma old_file_written v : (v = 4 \/ v = 7 \/ v = 9)%Z -> written_at v (old_file v sample_db).
Proof.
  intros [->|[->| ->]]; (apply written_check; [done|by_computation|intros ?; by_computation]).
Qed.

(** ** C58: opening *)

(** A database at the current version: nothing changes but the journal mode. *)
Theorem C58_current_version : forall f,
  user_version f = 10%Z -> tables f !! "settings" = Some ["key"; "value"] ->
  open_file f = (set_wal f, Ok (settings f)).
Proof.
  intros f H1 H2. unfold open_file, migrate. change (user_version (set_wal f)) with (user_version f). rewrite H1.
  cbn [Z.eqb CURRENT_SCHEMA_VERSION Pos.eqb]. rewrite bool_decide_true; done.
Qed.
Print Assumptions C58_current_version.

(** A new database gets the current schema, without rows. *)
Theorem C58_new_database : forall f,
  user_version f = 0%Z -> tables f = ∅ -> objects f = ∅ ->
  exists f', open_file f = (f', Ok (settings f')) /\ is_current f' /\ rows f' = rows f /\
    is_index_db (Database f') = Some true /\ (forall t, is_Some (tables f' !! t) -> is_Some (index_tables !! t)).
Proof.
  intros f H1 H2 H3. exists (after_schema (set_wal f)).
  assert (compatible (set_wal f)) as Hc.
  { intros t cols old _. change (tables (set_wal f)) with (tables f). rewrite H2, lookup_empty. done. }
  split_and!.
  - unfold open_file. rewrite (migrate_new (set_wal f)) by done. cbv iota beta.
    rewrite bool_decide_true; [done|]. by apply after_table.
  - split_and!; [done|done| | |].
    + intros t cols Ht. by apply after_table.
    + unfold after_schema. cbn [objects]. set_solver.
    + unfold after_schema. cbn [objects].
      assert (retired_triggers ## index_triggers) as H; [|set_solver]. apply (bool_decide_unpack _). vm_compute. exact I.
  - done.
  - done.
  - intros t. unfold after_schema. cbn [tables]. change (tables (set_wal f)) with (tables f).
    rewrite H2, delete_empty. by rewrite (left_id_L ∅ (∪)).
Qed.
Print Assumptions C58_new_database.

(** A database of a known older version is migrated: its documents, features,
    positions, clustering and foreign tables are kept, pins appear (unset) with the
    migration from version 7, summaries from version 5 on are kept, and the field
    summary is recomputed. *)
Theorem C58_known_versions : forall v f,
  (4 <= v <= 9)%Z -> written_at v f -> features_unique (inverted_index (rows f)) ->
  (forall k row, position_index (rows f) !! k = Some row -> p_count row = N.of_nat (size (p_positions row))) ->
  (v = 4%Z /\ references_ok (rows f)) \/ quiet (rows f) ->
  let f' := (open_file f).1 in
  is_current f' /\ is_index_db (Database f') = Some true /\
  same_documents (rows f) (rows f') /\ field_summary_correct (rows f') /\
  (forall x, assigned (rows f') x = assigned (rows f) x) /\
  (forall x, feature_pinned (rows f') x = if (v <=? 7)%Z then false else feature_pinned (rows f) x) /\
  (forall c, cluster_pinned (rows f') c = if (v <=? 7)%Z then false else cluster_pinned (rows f) c) /\
  dom (cluster (rows f')) = dom (cluster (rows f)) /\
  ((5 <= v)%Z -> quiet (rows f')) /\
  settings f' = <["position_window_size" := 0%Z]> (settings f) /\
  (forall t, index_tables !! t = None -> t ≠ "skipgram_count" -> tables f' !! t = tables f !! t).
Proof.
  intros v f Hv Hw Hu Hpc Hq.
  assert ((open_file f).1 = migrated v (set_wal f)) as E.
  { destruct (decide (v = 4%Z)) as [->|Hne].
    - assert (references_ok (rows f)) as Hr by (destruct Hq as [[_ ?]|[? _]]; done).
      destruct (decide (cluster (rows f) = ∅)) as [Hc|Hc].
      + by rewrite open_v4_empty.
      + apply map_choose in Hc as (c & row & Hc). by rewrite (open_v4_clusters f c row).
    - destruct Hq as [[? _]|Hq]; [done|]. rewrite (open_known_quiet v); [done|lia|done|done]. }
  intros f'. subst f'. rewrite E. change (rows (migrated v (set_wal f))) with (migrated_rows v (rows f)).
  split_and!.
  - apply migrated_current.
  - done.
  - done.
  - unfold migrated_rows. by apply write_summary_correct.
  - intros x. unfold assigned. cbn [feature_cluster migrated_rows write_field_summary set_field_summary].
    rewrite lookup_fmap. by destruct (feature_cluster (rows f) !! x).
  - intros x. unfold feature_pinned. cbn [feature_cluster migrated_rows write_field_summary set_field_summary].
    rewrite lookup_fmap. destruct (feature_cluster (rows f) !! x); [done|]. by destruct (v <=? 7)%Z.
  - intros c. unfold cluster_pinned. cbn [cluster migrated_rows write_field_summary set_field_summary].
    rewrite lookup_fmap. destruct (cluster (rows f) !! c); [done|]. by destruct (v <=? 7)%Z.
  - cbn [cluster migrated_rows write_field_summary set_field_summary]. by rewrite dom_fmap_L.
  - intros H5. destruct Hq as [[-> _]|Hq]; [lia|]. by apply migrated_quiet.
  - done.
  - intros t H1 H2. by rewrite migrated_other.
Qed.
Print Assumptions C58_known_versions.

(** From version 5 on, or without clusters, the call itself returns; opening the
    migrated database again changes nothing. *)
Theorem C58_known_versions_open : forall v f,
  (4 <= v <= 9)%Z -> written_at v f -> quiet (rows f) -> (v = 4%Z -> cluster (rows f) = ∅) ->
  exists f', open_file f = (f', Ok (settings f')) /\ open_file f' = (f', Ok (settings f')).
Proof.
  intros v f Hv Hw Hq H4. exists (migrated v (set_wal f)). split.
  - destruct (decide (v = 4%Z)) as [->|Hne].
    + apply open_v4_empty; [done|by destruct Hq|by apply H4].
    + apply open_known_quiet; [lia|done|done].
  - rewrite C58_current_version; [done|done|apply migrated_settings].
Qed.
Print Assumptions C58_known_versions_open.

(** Any other version is refused; only the journal mode changes. *)
Theorem C58_unknown_version_refused : forall f,
  user_version f ≠ 0%Z -> user_version f ≠ 10%Z -> ~ (4 <= user_version f <= 9)%Z ->
  open_file f = (set_wal f, Err MigrationError).
Proof.
  intros f H0 H10 H. unfold open_file, migrate. change (user_version (set_wal f)) with (user_version f).
  rewrite (proj2 (Z.eqb_neq _ 0)) by done. rewrite (proj2 (Z.eqb_neq _ CURRENT_SCHEMA_VERSION)) by done.
  rewrite bool_decide_false; [done|]. cbn. rewrite !elem_of_cons, elem_of_nil. lia.
Qed.
Print Assumptions C58_unknown_version_refused.

(** Whatever the database, a call that raises leaves every table, row, setting and
    version as it was, or a database at the current version. *)
Theorem C58_failure_rolls_back : forall f f' e,
  open_file f = (f', Err e) -> f' = set_wal f \/ user_version f' = 10%Z.
Proof.
  intros f f' e. unfold open_file. destruct (migrate (set_wal f)) as [f1 [b|e1]] eqn:Em.
  2:{ intros [= <- <-]. left. unfold migrate in Em.
      repeat match type of Em with
      | context [if ?b then _ else _] => destruct b
      | context [match run_stmts ?l ?s with _ => _ end] => destruct (run_stmts l s)
      end; congruence. }
  assert (user_version f1 = 10%Z) as H10.
  { unfold migrate in Em. assert (forall l1 l2 s s', run_stmts (l1 ++ CURRENT_SCHEMA ++ l2) s = Ok s' ->
      Forall (fun x => match x with SetUserVersion _ => False | _ => True end) l2 -> user_version s' = 10%Z) as Hrun.
    { assert (forall x s s', exec x s = Ok s' -> user_version s' = match x with SetUserVersion v => v | _ => user_version s end) as Hx.
      { intros x s s' Hx. destruct x; unfold exec, rbind in Hx; repeat case_match; simplify_eq; done. }
      intros l1 l2 s s' Hr Hl2. unfold run_stmts in Hr.
      assert (CURRENT_SCHEMA ++ l2 = take 22 CURRENT_SCHEMA ++ SetUserVersion 10 :: SetApplicationId MAGIC_APPLICATION_ID :: l2) as Hs by reflexivity.
      rewrite Hs, app_assoc, rfold_app in Hr. destruct (rfold _ (l1 ++ _) s) as [s1|]; [|done]. cbn [rbind rfold exec] in Hr.
      assert (forall l s s', Forall (fun x => match x with SetUserVersion _ => False | _ => True end) l ->
        rfold (fun f s => exec s f) l s = Ok s' -> user_version s' = user_version s) as Hkeep.
      { clear -Hx. induction l as [|x l IH]; intros s s' Hl Hr; [by injection Hr as <-|].
        apply Forall_cons in Hl as [Hx1 Hl]. cbn in Hr. destruct (exec x s) as [s1|] eqn:E1; [|done]. cbn in Hr.
        rewrite (IH _ _ Hl Hr). apply Hx in E1. by destruct x. }
      by rewrite (Hkeep _ _ _ Hl2 Hr). }
    destruct (user_version (set_wal f) =? 0)%Z.
    - destruct (has_objects _); [done|]. destruct (run_stmts CURRENT_SCHEMA (set_wal f)) as [s|] eqn:Er; [|done]. injection Em as <- _.
      apply (Hrun [] [] _ _ Er). constructor.
    - destruct (user_version (set_wal f) =? CURRENT_SCHEMA_VERSION)%Z eqn:E10.
      + injection Em as <- _. by apply Z.eqb_eq in E10.
      + destruct (bool_decide _); [|done]. destruct (run_stmts _ _) as [s|] eqn:Er; [|done]. injection Em as <- _.
        eapply Hrun; [exact Er|]. apply Forall_concat, Forall_fmap, Forall_fmap, Forall_forall.
        intros m [_ Hm]%elem_of_list_filter. unfold migrations in Hm.
        repeat (apply elem_of_cons in Hm as [->|Hm]; [repeat constructor|]). by apply elem_of_nil in Hm. }
  destruct (if b then _ else _) as [f2 [[]|e2]] eqn:Eb.
  - case_bool_decide; [done|]. intros [= <- _]. right. destruct b; [|congruence].
    destruct (refresh_on_open _); injection Eb as <- _. done.
  - intros [= <- _]. right. destruct b; [|congruence]. destruct (refresh_on_open _); injection Eb as <- _. done.
Qed.
Print Assumptions C58_failure_rolls_back.

(** Refuted: an unrelated database (version 0, some object) is not refused with
    MigrationError, and its file is modified. *)
Theorem C58_unrelated_database_refuted : forall f,
  user_version f = 0%Z -> (tables f ≠ ∅ \/ objects f ≠ ∅) ->
  open_file f = (set_wal f, Err NameError) /\ (wal f = false -> (open_file f).1 ≠ f).
Proof.
  intros f H0 Hne. assert (open_file f = (set_wal f, Err NameError)) as E.
  { unfold open_file, migrate. change (user_version (set_wal f)) with (user_version f). rewrite H0. cbn [Z.eqb].
    unfold has_objects. rewrite bool_decide_false; [done|]. intros [A B]. by destruct Hne. }
  split; [done|]. rewrite E. cbn [fst]. intros Hw Hf. apply (f_equal wal) in Hf. cbn in Hf. congruence.
Qed.
Print Assumptions C58_unrelated_database_refuted.
(** ... nor is one of another application whose own version number is 10. *)
Theorem C58_foreign_version_refuted : exists f,
  application_id f ≠ 715973853%Z /\ user_version f = 10%Z /\ open_file f = (set_wal f, Ok (settings f)) /\
  (forall t, t ≠ "settings" -> tables f !! t = None).
Proof.
  exists (File 10 1 false {["settings" := ["key"; "value"]]} ∅ ∅ empty_db).
  split_and!; [done|done|by apply C58_current_version|]. intros t Ht. cbn [tables]. by rewrite lookup_singleton_ne.
Qed.
Print Assumptions C58_foreign_version_refuted.

Example C58_example :
  written_at 7 (old_file 7 sample_db) /\ quiet sample_db /\ features_unique (inverted_index sample_db) /\
  columns_of (old_file 7 sample_db) "cluster" = ["cluster_id"; "feature_count"; "docs_count"; "weight"; "doc_ids"] /\
  (open_file (old_file 7 sample_db)).2 = Ok {["position_window_size" := 0%Z]} /\
  columns_of (open_file (old_file 7 sample_db)).1 "cluster" = ["cluster_id"; "feature_count"; "docs_count"; "weight"; "doc_ids"; "pinned"] /\
  columns_of (open_file (old_file 7 sample_db)).1 "notes" = ["text"] /\
  (open_file (File 3 0 false {["x" := []]} ∅ ∅ empty_db)).2 = Err MigrationError /\
  (open_file (File 0 0 false {["x" := []]} ∅ ∅ empty_db)).2 = Err NameError.
Proof.
  split; [apply old_file_written; by auto|]. split; [apply sample_conn2_ready|]. split.
  - assert (forall m : gmap N feature_row, map_Forall (fun f rf => map_Forall (fun g rg => f_field rf = f_field rg -> f_value rf = f_value rg -> f = g) m) m -> features_unique m) as H.
    { intros m Hm f g rf rg Hf Hg. exact (Hm f rf Hf g rg Hg). }
    apply H. by_computation.
  - by_computation.
Qed.

(** ** C59, refuted: opening a version 4 index that has clusters raises, and the
    database left behind opens without its summaries. *)
Theorem C59_v4_summaries_refuted : forall f c,
  written_at 4 f -> references_ok (rows f) -> is_Some (cluster (rows f) !! c) ->
  exists f1, open_file f = (f1, Err AttributeError) /\ open_file f1 = (f1, Ok (settings f1)) /\
    forall x, is_Some (cluster (rows f) !! x) -> cluster_docs (rows f1) x = Ok None.
Proof.
  intros f c Hw Hr [row Hc]. exists (migrated 4 (set_wal f)). split_and!.
  - by apply (open_v4_clusters f c row).
  - rewrite C58_current_version; [done|done|apply migrated_settings].
  - intros x [r Hx]. unfold cluster_docs. change (rows (migrated 4 (set_wal f))) with (migrated_rows 4 (rows f)).
    cbn [cluster migrated_rows write_field_summary set_field_summary]. by rewrite lookup_fmap, Hx.
Qed.
Print Assumptions C59_v4_summaries_refuted.

(** What does hold: every cluster is marked, so that the first modifying call computes
    all summaries. *)
Theorem C59_v4_summaries_partial : forall f p,
  written_at 4 f -> references_ok (rows f) -> p 0 = None ->
  let d := rows (open_file f).1 in
  usable d /\ exists cn, pin_features [] true (open_index d p) = (cn, Ok tt) /\ quiet (disk cn) /\
    same_index d (disk cn) /\ (forall x, assigned (disk cn) x = assigned (rows f) x) /\
    forall x, members (rows f) x ≠ ∅ -> exists docs, cluster_docs (disk cn) x = Ok (Some docs) /\
      forall doc, doc ∈ docs <-> exists ft, ft ∈ members (rows f) x /\ doc ∈ feature_docs (rows f) ft.
Proof.
  intros f p Hw Hr Hp d.
  assert (d = migrated_rows 4 (rows f)) as Ed.
  { unfold d. destruct (decide (cluster (rows f) = ∅)) as [Hc|Hc].
    - by rewrite open_v4_empty.
    - apply map_choose in Hc as (c & row & Hc). by rewrite (open_v4_clusters f c row). }
  assert (usable d) as Hu.
  { rewrite Ed. split; [by apply migrated_references|]. intros c row Hc Hn. exfalso. apply Hn.
    cbn [changed_cluster cluster migrated_rows write_field_summary set_field_summary] in *.
    change ((4 <=? 4)%Z) with true. cbv iota. apply elem_of_union_l.
    rewrite lookup_fmap in Hc. apply elem_of_dom. destruct (cluster (rows f) !! c); [by eexists|done]. }
  split; [done|].
  destruct (pin_features_call [] true (open_index d p) ltac:(by constructor) Hu Hp)
    as (cn & H1 & _ & H3 & H4 & H5 & _). cbn [disk open_index] in *.
  assert (forall x, assigned (disk cn) x = assigned (rows f) x) as Ha.
  { intros x. destruct H5 as [H5 _]. rewrite H5. rewrite Ed. unfold assigned.
    cbn [feature_cluster migrated_rows write_field_summary set_field_summary].
    rewrite lookup_fmap. by destruct (feature_cluster (rows f) !! x). }
  exists cn. split_and!; [done..|].
  intros x Hx. assert (members (disk cn) x = members (rows f) x) as Em.
  { apply set_eq. intros ft. specialize (Ha ft). unfold assigned in Ha. unfold members. rewrite !elem_of_dom. unfold is_Some.
    setoid_rewrite map_filter_lookup_Some. cbn [snd].
    destruct (feature_cluster (disk cn) !! ft) as [r1|], (feature_cluster (rows f) !! ft) as [r2|]; cbn in Ha;
      [|done|done|naive_solver]. injection Ha as Ha. split; intros (? & [= <-] & <-); eexists; split; (done || congruence). }
  destruct H3 as [_ (S1 & S2 & _)]. rewrite <- Em in Hx. apply S2 in Hx as [row Hrow].
  destruct (S1 x row Hrow) as (_ & (docs & D1 & D2 & _) & _). exists docs. split.
  - unfold cluster_docs. by rewrite Hrow, D1.
  - intros doc. rewrite D2, Em. unfold feature_docs. destruct H4 as (_ & -> & _). by rewrite Ed.
Qed.
Print Assumptions C59_v4_summaries_partial.

Example C59_example :
  written_at 4 (old_file 4 sample_db) /\ references_ok sample_db /\ is_Some (cluster sample_db !! 0%Z) /\
  (open_file (old_file 4 sample_db)).2 = Err AttributeError /\
  cluster_docs (rows (open_file (open_file (old_file 4 sample_db)).1).1) 0 = Ok None.
Proof.
  split; [apply old_file_written; by auto|]. split; [apply sample_conn2_ready|]. by_computation.
Qed.

(** ** C72 *)
(** The claim: for every path an answer, True exactly for databases with the id. *)
Definition C72_claim : Prop := forall p, exists b, is_index_db p = Some b /\
  (b = true <-> exists f, p = Database f /\ application_id f = MAGIC_APPLICATION_ID).
(** A file that is not a database is not answered with False: DatabaseError. *)
Theorem C72_not_a_database_refuted : ~ C72_claim.
Proof. intros H. destruct (H NotADatabase) as (b & E & _). discriminate E. Qed.
Print Assumptions C72_not_a_database_refuted.

Theorem C72_is_index_db_partial :
  is_index_db NoFile = Some false /\
  (forall f, is_index_db (Database f) = Some true <-> application_id f = 715973853%Z) /\
  (forall f, is_index_db (Database f) ≠ None) /\
  (forall f f' s, open_file f = (f', Ok s) -> user_version f ≠ 10%Z -> is_index_db (Database f') = Some true).
Proof.
  split_and!; [done| |done|].
  - intros f. unfold is_index_db, MAGIC_APPLICATION_ID. split.
    + intros [= H%Z.eqb_eq]. done.
    + intros ->. done.
  - intros f f' s Ho Hv. unfold is_index_db. do 2 f_equal. apply Z.eqb_eq.
    unfold open_file in Ho. destruct (migrate (set_wal f)) as [f1 [b|]] eqn:Em; [|done].
    assert (application_id f1 = MAGIC_APPLICATION_ID) as H1.
    { assert (forall l1 l2 s s', run_stmts (l1 ++ CURRENT_SCHEMA ++ l2) s = Ok s' ->
        Forall (fun x => match x with SetApplicationId _ => False | _ => True end) l2 -> application_id s' = MAGIC_APPLICATION_ID) as Hrun.
      { assert (forall x s s', exec x s = Ok s' -> application_id s' = match x with SetApplicationId v => v | _ => application_id s end) as Hx.
        { intros x s0 s' Hx. destruct x; unfold exec, rbind in Hx; repeat case_match; simplify_eq; done. }
        intros l1 l2 s0 s' Hr Hl2. unfold run_stmts in Hr.
        assert (CURRENT_SCHEMA ++ l2 = take 23 CURRENT_SCHEMA ++ SetApplicationId MAGIC_APPLICATION_ID :: l2) as Hs by reflexivity.
        rewrite Hs, app_assoc, rfold_app in Hr. destruct (rfold _ (l1 ++ _) s0) as [s1|]; [|done]. cbn [rbind rfold exec] in Hr.
        assert (forall l s s', Forall (fun x => match x with SetApplicationId _ => False | _ => True end) l ->
          rfold (fun f s => exec s f) l s = Ok s' -> application_id s' = application_id s) as Hkeep.
        { clear -Hx. induction l as [|x l IH]; intros s s' Hl Hr; [by injection Hr as <-|].
          apply Forall_cons in Hl as [Hx1 Hl]. cbn in Hr. destruct (exec x s) as [s1|] eqn:E1; [|done]. cbn in Hr.
          rewrite (IH _ _ Hl Hr). apply Hx in E1. by destruct x. }
        by rewrite (Hkeep _ _ _ Hl2 Hr). }
      unfold migrate in Em. change (user_version (set_wal f)) with (user_version f) in Em.
      destruct (user_version f =? 0)%Z.
      - destruct (has_objects _); [done|]. destruct (run_stmts CURRENT_SCHEMA (set_wal f)) as [s1|] eqn:Er; [|done]. injection Em as <- _.
        apply (Hrun [] [] _ _ Er). constructor.
      - rewrite (proj2 (Z.eqb_neq _ CURRENT_SCHEMA_VERSION)) in Em by done.
        destruct (bool_decide _); [|done]. destruct (run_stmts _ _) as [s1|] eqn:Er; [|done]. injection Em as <- _.
        eapply Hrun; [exact Er|]. apply Forall_concat, Forall_fmap, Forall_fmap, Forall_forall.
        intros m [_ Hm]%elem_of_list_filter. unfold migrations in Hm.
        repeat (apply elem_of_cons in Hm as [->|Hm]; [repeat constructor|]). by apply elem_of_nil in Hm. }
    destruct (if b then _ else _) as [f2 [[]|e2]] eqn:Eb; [|done].
    case_bool_decide; [|done]. injection Ho as <- _. destruct b; [|by injection Eb as <-].
    destruct (refresh_on_open _); injection Eb as <- _. done.
Qed.
Print Assumptions C72_is_index_db_partial.
(** (A file that is no SQLite database makes the call raise: [is_index_db NotADatabase = None].) *)
Example C72_example :
  is_index_db (Database empty_file) = Some false /\ is_index_db (Database (open_file empty_file).1) = Some true /\
  is_index_db (Database (open_file (old_file 9 sample_db)).1) = Some true.
Proof. by_computation. Qed.
