(** MigrateProofs.v *)
From Verif Require Export SpecMigrate LookupProofs.

(** ** The schema script *)
Definition compatible (f : file) : Prop :=
  forall t cols old, index_tables !! t = Some cols -> tables f !! t = Some old -> old = cols.

Definition after_schema (f : file) : file :=
  File 10 715973853 (wal f) (delete "skipgram_count" (tables f) ∪ index_tables)
    ((objects f ∪ {["docs_counts"; "field_docs_counts"; "cluster_features"]}) ∖ retired_triggers ∪ index_triggers)
    (<["position_window_size" := 0%Z]> (settings f)) (rows f).

Lemma ensure_union {A} (m : gmap string A) t x :
  match m !! t with Some _ => m | None => <[t := x]> m end = m ∪ {[t := x]}.
Proof.
  apply map_eq. intros k. destruct (m !! t) eqn:E.
  - destruct (decide (k = t)) as [->|Hk].
    + rewrite (lookup_union_Some_l _ _ _ _ E). done.
    + rewrite lookup_union, lookup_singleton_ne by done. by destruct (m !! k).
  - destruct (decide (k = t)) as [->|Hk].
    + rewrite lookup_insert, lookup_union, E, lookup_singleton. done.
    + rewrite lookup_insert_ne, lookup_union, lookup_singleton_ne by done. by destruct (m !! k).
Qed.
Lemma exec_create t cols f : exec (CreateTable t cols) f = Ok (set_tables (tables f ∪ {[t := cols]}) f).
Proof.
  unfold exec. rewrite <- ensure_union. destruct (tables f !! t); [|done]. by destruct f.
Qed.
Lemma exec_index n t cols f : is_Some (tables f !! t) -> Forall (fun c => c ∈ columns_of f t) cols ->
  exec (CreateIndex n t cols) f = Ok (set_objects (objects f ∪ {[n]}) f).
Proof.
  intros H1 H2. unfold exec. case_bool_decide as Hn.
  - assert (objects f ∪ {[n]} = objects f) as -> by set_solver. by destruct f.
  - rewrite bool_decide_true by done. f_equal. f_equal. set_solver.
Qed.
Lemma exec_trigger n t f : is_Some (tables f !! t) ->
  exec (CreateTrigger n t) f = Ok (set_objects (objects f ∪ {[n]}) f).
Proof.
  intros H1. unfold exec. case_bool_decide as Hn.
  - assert (objects f ∪ {[n]} = objects f) as -> by set_solver. by destruct f.
  - rewrite bool_decide_true by done. f_equal. f_equal. set_solver.
Qed.

Lemma compatible_lookup f t cols (m : gmap string (list string)) : compatible f -> index_tables !! t = Some cols ->
  (tables f ∪ m) !! t = Some cols \/ (tables f !! t = None /\ (tables f ∪ m) !! t = m !! t).
Proof.
  intros Hc Ht. destruct (tables f !! t) as [old|] eqn:E.
  - left. rewrite (lookup_union_Some_l _ _ _ _ E). f_equal. by eapply Hc.
  - right. split; [done|]. rewrite lookup_union, E. by destruct (m !! t).
Qed.
Ltac red1 := cbv beta iota delta [rbind set_version set_application set_objects set_settings set_rows set_tables tables user_version application_id wal objects settings rows].
Lemma schema_run f : compatible f -> run_stmts CURRENT_SCHEMA f = Ok (after_schema f).
Proof.
  intros Hc. unfold run_stmts, CURRENT_SCHEMA. destruct f as [uv ap wl tb ob st rw].
  pose proof (fun t cols old => Hc t cols old) as Hc'. unfold compatible in Hc'. cbn [tables] in Hc'.
  assert (forall t cols n, index_tables !! t = Some cols -> n !! t = Some cols -> (tb ∪ n) !! t = Some cols) as Hl.
  { intros t cols n Ht Hn. destruct (tb !! t) as [old|] eqn:E.
    - rewrite (lookup_union_Some_l _ _ _ _ E). f_equal. by eapply Hc'.
    - by rewrite lookup_union, E, Hn. }
  Local Ltac step := match goal with |- rfold ?g (?x :: ?r) ?s = _ =>
    change (rfold g (x :: r) s) with (rbind (exec x s) (rfold g r)) end.
  step. rewrite exec_create. red1.
  step.
  assert (exec (ReplaceSetting "position_window_size" 0) (File uv ap wl (tb ∪ {["settings" := ["key"; "value"]]}) ob st rw)
    = Ok (File uv ap wl (tb ∪ {["settings" := ["key"; "value"]]}) ob (<["position_window_size" := 0%Z]> st) rw)) as ->.
  { unfold exec. rewrite bool_decide_true; [done|]. cbn [tables]. rewrite (Hl _ ["key"; "value"]); [done|reflexivity|reflexivity]. }
  red1.
  do 5 (step; rewrite exec_create; red1).
  step. cbn [exec]. red1.
  repeat rewrite <- (assoc_L (∪) tb). rewrite delete_union.
  match goal with |- context [delete "skipgram_count" tb ∪ ?m] => set (m1 := m) end.
  assert (forall t cols n, index_tables !! t = Some cols -> n !! t = Some cols -> (delete "skipgram_count" tb ∪ n) !! t = Some cols) as Hl2.
  { intros t cols n Ht Hn. assert (t ≠ "skipgram_count") as Hne by (intros ->; discriminate Ht).
    destruct (tb !! t) as [old|] eqn:E.
    - rewrite (lookup_union_Some_l _ _ _ old). + f_equal. by eapply Hc'. + by rewrite lookup_delete_ne.
    - by rewrite lookup_union, lookup_delete_ne, E, Hn. }
  set (tb' := delete "skipgram_count" tb) in *.
  Local Ltac idx Hl2 cols := rewrite exec_index; [| |];
    [|cbn [tables]; erewrite (Hl2 _ cols); [by eexists|reflexivity|reflexivity]
     |unfold columns_of; cbn [tables]; erewrite (Hl2 _ cols); [by_computation|reflexivity|reflexivity]];
    red1.
  step. idx Hl2 ["feature_id"; "field"; "value"; "docs_count"; "doc_ids"].
  step. idx Hl2 ["feature_id"; "field"; "value"; "docs_count"; "doc_ids"].
  do 2 (step; rewrite exec_create; red1).
  repeat rewrite <- (assoc_L (∪) tb').
  step. idx Hl2 ["feature_id"; "cluster_id"; "docs_count"; "pinned"].
  step; rewrite exec_create; red1.
  repeat rewrite <- (assoc_L (∪) tb').
  do 5 (step; cbn [exec]; red1).
  do 3 (step; rewrite exec_trigger; [|cbn [tables]; erewrite (Hl2 _ ["feature_id"; "cluster_id"; "docs_count"; "pinned"]); [by eexists|reflexivity|reflexivity]];
    red1).
  do 2 (step; cbn [exec]; red1).
  cbn [rfold]. unfold after_schema. cbn [rows settings objects tables wal]. do 2 f_equal.
  - apply (f_equal (fun m => tb' ∪ m)). by_computation.
  - apply set_eq. intros x. unfold retired_triggers, index_triggers. set_solver.
Qed.

(** ** The steps before and after it *)
Definition migrated_cluster (v : Z) (r : cluster_row) : cluster_row :=
  ClusterRow (c_feature_count r)
    (if (v <=? 4)%Z then 0%N else c_docs_count r) (if (v <=? 4)%Z then 0%N else c_weight r)
    (if (v <=? 4)%Z then None else c_doc_ids r) (if (v <=? 7)%Z then false else c_pinned r).
Definition migrated_fc (v : Z) (r : fc_row) : fc_row :=
  FcRow (fc_cluster r) (fc_docs_count r) (if (v <=? 7)%Z then false else fc_pinned r).
(** The rows after a migration from version [v]. *)
Definition migrated_rows (v : Z) (d : db) : db :=
  let d1 := Db (doc_key d) (inverted_index d) (position_doc_map d) (position_index d) ∅
    (migrated_cluster v <$> cluster d) (migrated_fc v <$> feature_cluster d)
    (if (v <=? 4)%Z then dom (cluster d) ∪ changed_cluster d else changed_cluster d) in
  write_field_summary d1.

Definition pre_tables (v : Z) (f : file) : gmap string (list string) :=
  map_imap (fun t old => Some (match index_tables !! t with Some cols => cols | None => old end)) (tables f).
Definition before_schema (v : Z) (f : file) : file :=
  File (user_version f) (application_id f) (wal f) (pre_tables v f) (objects f) (settings f)
    (Db (doc_key (rows f)) (inverted_index (rows f)) (position_doc_map (rows f)) (position_index (rows f))
        ((fun r => FsumRow (fs_distinct r) (fs_min r) (fs_max r) 0) <$> field_summary (rows f))
        (migrated_cluster v <$> cluster (rows f)) (migrated_fc v <$> feature_cluster (rows f))
        (changed_cluster (rows f))).

Lemma exec_add t c f cols : tables f !! t = Some cols -> c ∉ cols ->
  exec (AddColumn t c) f = Ok (set_rows (default_column t c (rows f)) (set_tables (<[t := cols ++ [c]]> (tables f)) f)).
Proof. intros H1 H2. unfold exec. rewrite H1. by rewrite bool_decide_false. Qed.

Lemma map_fmap_id_ext {K A} `{Countable K} (g : A -> A) (m : gmap K A) : (forall x, g x = x) -> g <$> m = m.
Proof. intros Hg. rewrite <- (map_fmap_id m) at 2. apply map_fmap_ext. intros. by rewrite Hg. Qed.

Lemma dc_docs d : default_column "cluster" "docs_count" d =
  set_cluster ((fun r => ClusterRow (c_feature_count r) 0 (c_weight r) (c_doc_ids r) (c_pinned r)) <$> cluster d) d.
Proof. reflexivity. Qed.
Lemma dc_weight d : default_column "cluster" "weight" d =
  set_cluster ((fun r => ClusterRow (c_feature_count r) (c_docs_count r) 0 (c_doc_ids r) (c_pinned r)) <$> cluster d) d.
Proof. reflexivity. Qed.
Lemma dc_ids d : default_column "cluster" "doc_ids" d =
  set_cluster ((fun r => ClusterRow (c_feature_count r) (c_docs_count r) (c_weight r) None (c_pinned r)) <$> cluster d) d.
Proof. reflexivity. Qed.
Lemma dc_cpin d : default_column "cluster" "pinned" d =
  set_cluster ((fun r => ClusterRow (c_feature_count r) (c_docs_count r) (c_weight r) (c_doc_ids r) false) <$> cluster d) d.
Proof. reflexivity. Qed.
Lemma dc_fpin d : default_column "feature_cluster" "pinned" d =
  set_feature_cluster ((fun r => FcRow (fc_cluster r) (fc_docs_count r) false) <$> feature_cluster d) d.
Proof. reflexivity. Qed.
Lemma dc_pos d : default_column "field_summary" "position_count" d =
  set_field_summary ((fun r => FsumRow (fs_distinct r) (fs_min r) (fs_max r) 0) <$> field_summary d) d.
Proof. reflexivity. Qed.

Lemma added_none t c : t ≠ "cluster" -> t ≠ "feature_cluster" -> t ≠ "field_summary" -> added_after t c = None.
Proof.
  intros H1 H2 H3. destruct (added_after t c) as [z|] eqn:E; [|done]. exfalso.
  unfold added_after in E. repeat (match type of E with context [match ?x with _ => _ end] => destruct x; try discriminate E end); congruence.
Qed.
Lemma old_columns v t (cols : list string) : (forall c, added_after t c = None) -> filter (had_column v t) cols = cols.
Proof.
  intros H. induction cols as [|c cols IH]; [done|]. rewrite filter_cons, decide_True; [by rewrite IH|].
  unfold had_column. by rewrite H.
Qed.

Definition cluster_columns : list string := ["cluster_id"; "feature_count"; "docs_count"; "weight"; "doc_ids"; "pinned"].
Definition fc_columns : list string := ["feature_id"; "cluster_id"; "docs_count"; "pinned"].

Lemma pre_run v f : (4 <= v <= 9)%Z -> written_at v f ->
  run_stmts (concat (fst <$> (filter (fun m : Z * (list stmt * list stmt) => (v <= m.1)%Z) migrations).*2)) f = Ok (before_schema v f).
Proof.
  intros Hv [H1 H2 H3 H4].
  assert (forall t old, t ≠ "cluster" -> t ≠ "feature_cluster" -> t ≠ "field_summary" -> tables f !! t = Some old ->
    Some old = Some (match index_tables !! t with Some cols => cols | None => old end)) as Hother.
  { intros t old N1 N2 N3 Ho. destruct (index_tables !! t) as [cols|] eqn:Ec; [|done].
    rewrite (H2 t cols old Ec Ho). f_equal. apply old_columns. intros c. by apply added_none. }
  pose proof (fun old => H2 "cluster" cluster_columns old eq_refl) as Cc.
  pose proof (fun old => H2 "feature_cluster" fc_columns old eq_refl) as Cf.
  pose proof (fun old => H2 "field_summary" field_summary_columns old eq_refl) as Cs.
  assert (is_Some (tables f !! "field_summary")) as [fs Hfs] by (by apply (H3 _ "position_count" 9%Z); [reflexivity|lia]).
  assert ((v <= 7)%Z -> is_Some (tables f !! "cluster")) as Hcl by (intros; by apply (H3 _ "pinned" 7%Z); [reflexivity|lia]).
  assert ((v <= 7)%Z -> is_Some (tables f !! "feature_cluster")) as Hfc by (intros; by apply (H3 _ "pinned" 7%Z); [reflexivity|lia]).
  pose proof (Cs _ Hfs) as ->.
  destruct f as [uv ap wl tb ob st [dk ii pm pi fsm cl fc ch]]. cbn [tables] in *.
  unfold before_schema. cbn [user_version application_id wal objects settings rows].
  assert (forall x, migrated_cluster 8 x = x /\ migrated_cluster 9 x = x) as Mc by (by intros []).
  assert (forall x, migrated_fc 8 x = x /\ migrated_fc 9 x = x) as Mf by (by intros []).
  assert (v = 4 \/ v = 5 \/ v = 6 \/ v = 7 \/ v = 8 \/ v = 9)%Z as Hcases by lia.
  destruct Hcases as [->|[->|[->|[->|[->| ->]]]]].
  Local Ltac tabs Hother Hfs := apply map_eq; intros t; unfold pre_tables; cbn [tables]; rewrite map_lookup_imap;
    destruct (decide (t = "field_summary")) as [->|]; [rewrite ?Hfs; rewrite lookup_insert; reflexivity|];
    destruct (decide (t = "feature_cluster")) as [->|];
    [|destruct (decide (t = "cluster")) as [->|];
      [|rewrite ?lookup_insert_ne by done; match goal with |- ?x !! t = _ => destruct (x !! t) as [old|] eqn:Eo; [|done] end;
        cbn; by apply Hother]].
  Local Ltac comp H := match type of H with _ = Some ?x => let y := eval vm_compute in x in change x with y in H end.
  Local Ltac addc H := step; erewrite exec_add; [|cbn [tables]; rewrite ?lookup_insert, ?lookup_insert_ne by done; first [exact H|reflexivity] |by_computation]; red1.
  Local Ltac fin Hother Hfs := cbn [rfold]; unfold before_schema; red1; do 2 f_equal; [tabs Hother Hfs|..].
  Local Ltac rws := rewrite ?dc_pos, ?dc_fpin, ?dc_cpin, ?dc_ids, ?dc_weight, ?dc_docs;
    cbv beta iota delta [set_cluster set_feature_cluster set_field_summary doc_key inverted_index position_doc_map position_index field_summary cluster feature_cluster changed_cluster];
    f_equal; rewrite <- ?map_fmap_compose; (apply map_fmap_ext || (symmetry; apply map_fmap_id_ext)); by intros.
  all: comp Hfs.
  1-4: destruct (Hcl ltac:(lia)) as [clc Hclc]; pose proof (Cc _ Hclc) as ->; destruct (Hfc ltac:(lia)) as [fcc Hfcc]; pose proof (Cf _ Hfcc) as ->;
    comp Hclc; comp Hfcc.
  - match goal with |- run_stmts ?l _ = _ => change l with [AddColumn "cluster" "docs_count"; AddColumn "cluster" "weight"; AddColumn "cluster" "doc_ids"; AddColumn "cluster" "pinned"; AddColumn "feature_cluster" "pinned"; AddColumn "field_summary" "position_count"] end.
    unfold run_stmts. do 4 addc Hclc. addc Hfcc. addc Hfs. fin Hother Hfs.
    + rewrite Hfcc, lookup_insert_ne, lookup_insert by done. reflexivity.
    + rewrite Hclc, 2!lookup_insert_ne, lookup_insert by done. reflexivity.
    + rws.
  - match goal with |- run_stmts ?l _ = _ => change l with [AddColumn "cluster" "pinned"; AddColumn "feature_cluster" "pinned"; AddColumn "field_summary" "position_count"] end.
    unfold run_stmts. addc Hclc. addc Hfcc. addc Hfs. fin Hother Hfs.
    + rewrite Hfcc, lookup_insert_ne, lookup_insert by done. reflexivity.
    + rewrite Hclc, 2!lookup_insert_ne, lookup_insert by done. reflexivity.
  - match goal with |- run_stmts ?l _ = _ => change l with [AddColumn "cluster" "pinned"; AddColumn "feature_cluster" "pinned"; AddColumn "field_summary" "position_count"] end.
    unfold run_stmts. addc Hclc. addc Hfcc. addc Hfs. fin Hother Hfs.
    + rewrite Hfcc, lookup_insert_ne, lookup_insert by done. reflexivity.
    + rewrite Hclc, 2!lookup_insert_ne, lookup_insert by done. reflexivity.
  - match goal with |- run_stmts ?l _ = _ => change l with [AddColumn "cluster" "pinned"; AddColumn "feature_cluster" "pinned"; AddColumn "field_summary" "position_count"] end.
    unfold run_stmts. addc Hclc. addc Hfcc. addc Hfs. fin Hother Hfs.
    + rewrite Hfcc, lookup_insert_ne, lookup_insert by done. reflexivity.
    + rewrite Hclc, 2!lookup_insert_ne, lookup_insert by done. reflexivity.
  - match goal with |- run_stmts ?l _ = _ => change l with [AddColumn "field_summary" "position_count"] end.
    unfold run_stmts. addc Hfs. fin Hother Hfs.
    + rewrite lookup_insert_ne by done. destruct (tb !! "feature_cluster") as [old|] eqn:E; [|done]. rewrite (Cf _ eq_refl). reflexivity.
    + rewrite lookup_insert_ne by done. destruct (tb !! "cluster") as [old|] eqn:E; [|done]. rewrite (Cc _ eq_refl). reflexivity.
    + rewrite dc_pos. unfold set_field_summary. cbn [doc_key inverted_index position_doc_map position_index field_summary cluster feature_cluster changed_cluster].
      by rewrite (map_fmap_id_ext (migrated_cluster 8)), (map_fmap_id_ext (migrated_fc 8)) by (intros; apply Mc || apply Mf).
  - match goal with |- run_stmts ?l _ = _ => change l with [AddColumn "field_summary" "position_count"] end.
    unfold run_stmts. addc Hfs. fin Hother Hfs.
    + rewrite lookup_insert_ne by done. destruct (tb !! "feature_cluster") as [old|] eqn:E; [|done]. rewrite (Cf _ eq_refl). reflexivity.
    + rewrite lookup_insert_ne by done. destruct (tb !! "cluster") as [old|] eqn:E; [|done]. rewrite (Cc _ eq_refl). reflexivity.
    + rewrite dc_pos. unfold set_field_summary. cbn [doc_key inverted_index position_doc_map position_index field_summary cluster feature_cluster changed_cluster].
      by rewrite (map_fmap_id_ext (migrated_cluster 9)), (map_fmap_id_ext (migrated_fc 9)) by (intros; apply Mc || apply Mf).
Qed.

Lemma before_compatible v f : compatible (before_schema v f).
Proof.
  intros t cols old Ht. unfold before_schema, pre_tables. cbn [tables]. rewrite map_lookup_imap.
  destruct (tables f !! t); [|done]. unfold mbind, option_bind. rewrite Ht. congruence.
Qed.

Definition migrated (v : Z) (f : file) : file :=
  set_rows (migrated_rows v (rows f)) (after_schema (before_schema v f)).

Lemma after_table f t cols : compatible f -> index_tables !! t = Some cols -> tables (after_schema f) !! t = Some cols.
Proof.
  intros Hc Ht. unfold after_schema. cbn [tables]. destruct (delete "skipgram_count" (tables f) !! t) as [old|] eqn:E.
  - rewrite (lookup_union_Some_l _ _ _ old E). f_equal. eapply Hc; [done|]. by apply lookup_delete_Some in E as [_ ?].
  - by rewrite lookup_union, E, Ht.
Qed.

Lemma clear_fill f cols : compatible f -> 
  tables f !! "field_summary" = Some cols ->
  run_stmts [ClearFieldSummary; FillFieldSummary] f = Ok (set_rows (write_field_summary (set_field_summary ∅ (rows f))) f).
Proof.
  intros Hc Ht. pose proof (Hc "field_summary" _ _ eq_refl Ht) as ->. unfold run_stmts. step.
  unfold exec at 1. rewrite bool_decide_true by (rewrite Ht; by eexists). cbn [rbind]. step.
  set (f2 := set_rows _ f). assert (tables f2 = tables f) as Et by reflexivity.
  assert (field_summary (rows f2) = ∅) as Ef by reflexivity.
  unfold exec at 1. rewrite bool_decide_true; [|unfold columns_of; rewrite Et, Ht; reflexivity].
  rewrite bool_decide_true by done. reflexivity.
Qed.

Lemma migrate_known v f : (4 <= v <= 9)%Z -> written_at v f -> migrate f = (migrated v f, Ok true).
Proof.
  intros Hv Hw. pose proof Hw as [H1 H2 H3 H4].
  assert (v = 4 \/ v = 5 \/ v = 6 \/ v = 7 \/ v = 8 \/ v = 9)%Z as Hcases by lia.
  unfold migrate. rewrite H1.
  rewrite (proj2 (Z.eqb_neq v 0)) by lia. rewrite (proj2 (Z.eqb_neq v CURRENT_SCHEMA_VERSION)) by (unfold CURRENT_SCHEMA_VERSION; lia).
  rewrite bool_decide_true.
  2:{ clear -Hcases. destruct Hcases as [->|[->|[->|[->|[->| ->]]]]]; by_computation. }
  set (post := concat (snd <$> _)).
  unfold run_stmts. rewrite rfold_app. fold (run_stmts (concat (fst <$> (filter (fun m : Z * (list stmt * list stmt) => (v <= m.1)%Z) migrations).*2)) f).
  rewrite (pre_run v f Hv Hw). cbn [rbind]. rewrite rfold_app. fold (run_stmts CURRENT_SCHEMA (before_schema v f)).
  rewrite (schema_run _ (before_compatible v f)). cbn [rbind].
  set (fm := after_schema (before_schema v f)).
  assert (forall t cols, index_tables !! t = Some cols -> tables fm !! t = Some cols) as Htb.
  { intros t cols Ht. apply after_table; [apply before_compatible|done]. }
  assert (compatible fm) as Hcm. { intros t cols old Ht Ho. rewrite (Htb t cols Ht) in Ho. congruence. }
  change (rfold (fun f s => exec s f) post fm) with (run_stmts post fm).
  destruct (decide (v = 4%Z)) as [->|Hne].
  - change post with (MarkAllClusters :: [ClearFieldSummary; FillFieldSummary]).
    unfold run_stmts. match goal with |- context [rfold ?g (?x :: ?r) ?s] => change (rfold g (x :: r) s) with (rbind (exec x s) (rfold g r)) end.
    unfold exec at 1. rewrite bool_decide_true.
    2:{ split; [rewrite (Htb "changed_cluster" _ eq_refl); by eexists|rewrite (Htb "cluster" _ eq_refl); by eexists]. }
    unfold mark_all_clusters.
    change (cluster (rows fm)) with (migrated_cluster 4 <$> cluster (rows f)). rewrite dom_fmap_L.
    change (changed_cluster (rows fm)) with (changed_cluster (rows f)).
    rewrite bool_decide_true by (by apply H4). cbn [rbind].
    set (fm2 := set_rows _ fm).
    change (rfold (fun f s => exec s f) ?l fm2) with (run_stmts l fm2).
    rewrite (clear_fill fm2 field_summary_columns); [reflexivity| |].
    + intros t cols old Ht Ho. change (tables fm2) with (tables fm) in Ho. by eapply Hcm.
    + apply (Htb "field_summary" _ eq_refl).
  - assert (post = [ClearFieldSummary; FillFieldSummary]) as ->.
    { clear -Hcases Hne. unfold post. destruct Hcases as [->|[->|[->|[->|[->| ->]]]]]; [done|reflexivity..]. }
    rewrite (clear_fill fm field_summary_columns Hcm (Htb "field_summary" _ eq_refl)).
    unfold migrated, migrated_rows. fold fm. do 2 f_equal.
    assert ((v <=? 4)%Z = false) as -> by lia. reflexivity.
Qed.

Lemma migrate_new f : user_version f = 0%Z -> tables f = ∅ -> objects f = ∅ ->
  migrate f = (after_schema f, Ok false).
Proof.
  intros H1 H2 H3. unfold migrate. rewrite H1. cbn [Z.eqb]. unfold has_objects. rewrite bool_decide_true by done. cbn [negb].
  rewrite schema_run; [done|]. intros t cols old _. rewrite H2, lookup_empty. done.
Qed.

(** ** The field summary written by the migration *)
Lemma known_iff d F v : known d F v <-> exists f row, inverted_index d !! f = Some row /\ f_field row = F /\ f_value row = v.
Proof.
  unfold known. split.
  - intros (f & (row & H1 & H2)%lookup_feature_ok). unfold row_key in H2. injection H2 as <- <-. eauto.
  - intros (f & row & H1 & <- & <-). exists f. apply lookup_feature_ok. eauto.
Qed.
Lemma positions_total (d : db) F :
  (forall k row, position_index d !! k = Some row -> p_count row = N.of_nat (size (p_positions row))) ->
  field_positions d F = N.of_nat (stored_positions d F).
Proof.
  intros Hc. unfold field_positions, stored_positions.
  assert (forall k row, (k, row) ∈ map_to_list (position_index d) -> p_count row = N.of_nat (size (p_positions row))) as H.
  { intros k row Hin%elem_of_map_to_list. by eapply Hc. }
  induction (map_to_list (position_index d)) as [|[k row] l IH]; [done|]. cbn [fmap list_fmap foldr].
  rewrite IH by (intros; eapply H; by right). rewrite filter_cons. cbn [fst snd].
  destruct (inverted_index d !! k.1) as [ir|]; cbn.
  - case_bool_decide as E; case_decide as E'.
    + cbn. rewrite (H k row) by left. lia.
    + exfalso. apply E'. by rewrite E.
    + exfalso. apply E. by injection E'.
    + lia.
  - case_decide; [done|]. lia.
Qed.
Lemma write_summary_correct d : features_unique (inverted_index d) ->
  (forall k row, position_index d !! k = Some row -> p_count row = N.of_nat (size (p_positions row))) ->
  field_summary_correct (write_field_summary d).
Proof.
  intros Hu Hpc F. rewrite summary_lookup.
  assert (forall v, known (write_field_summary d) F v <-> known d F v) as Hk by done.
  case_decide as HF.
  - set (vs := (fun kv : N * feature_row => f_value kv.2) <$> field_rows d F).
    assert (NoDup vs) as Hndv by (by apply field_values_nodup).
    assert (forall v, v ∈ vs <-> known d F v) as Hvs.
    { intros v. rewrite known_iff. unfold vs. rewrite elem_of_list_fmap. split.
      - intros ([f row] & -> & Hin). apply elem_of_field_rows in Hin as [H1 H2]. eauto.
      - intros (f & row & H1 & H2 & <-). exists (f, row). split; [done|]. by apply elem_of_field_rows. }
    assert (vs ≠ []) as Hne.
    { apply elem_of_fields_of in HF as (f & row & H1 & H2).
      assert (f_value row ∈ vs) as Hin; [|intros E; rewrite E in Hin; by apply elem_of_nil in Hin].
      apply Hvs, known_iff. eauto. }
    destruct (value_min_spec vs Hne) as [Mi1 Mi2]. destruct (value_max_spec vs Hne) as [Ma1 Ma2].
    exists (list_to_set vs). unfold summary_of_field. fold vs. cbn [fs_distinct fs_min fs_max fs_position_count].
    split_and!.
    + intros E. assert (value_min vs ∈ (list_to_set vs : gset value)) as H by (by apply elem_of_list_to_set).
      rewrite E in H. by apply elem_of_empty in H.
    + intros v. by rewrite elem_of_list_to_set, Hk.
    + rewrite size_list_to_set by done. done.
    + by apply elem_of_list_to_set.
    + intros v Hv%elem_of_list_to_set. by apply Mi2.
    + by apply elem_of_list_to_set.
    + intros v Hv%elem_of_list_to_set. by apply Ma2.
    + by rewrite positions_total.
  - intros v Hkv. apply HF. apply known_iff in Hkv as (f & row & H1 & H2 & _). apply elem_of_fields_of. eauto.
Qed.
