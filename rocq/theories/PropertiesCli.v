(** PropertiesCli.v: C64, C65: the argument working_dir and the command [hyperreal model].
    Vocabulary: Cli.v, SpecCluster.v, SpecConn.v. *)
From Verif Require Import SpecWeb SpecIndexing HistoryProofs IndexCalls WebProofs SampleDb PropertiesCluster PropertiesRefine PropertiesIndexing Cli.

(** ** C65 *)
(** A model exists: some feature is in a cluster. *)
Definition has_model (d : db) : Prop := exists f, is_Some (assigned d f).

Lemma has_model_iff c : idle c -> quiet (disk c) -> has_model (disk c) <-> cluster_ids (cur c) ≠ [].
Proof.
  intros Hi [Hr [_ [Hm _]]]. rewrite (idle_cur c Hi). split.
  - intros [f [x Hx]] Hn. unfold assigned in Hx. apply fmap_Some in Hx as (row & Hf & ->).
    destruct Hr as [Hr _]. destruct (Hr _ _ Hf) as [_ Hc]. apply elem_of_dom, elem_of_cluster_ids in Hc. rewrite Hn in Hc. by apply elem_of_nil in Hc.
  - intros Hn. destruct (cluster_ids (disk c)) as [|x l] eqn:E; [done|].
    assert (x ∈ cluster_ids (disk c)) as Hx by (rewrite E; left). apply elem_of_cluster_ids, elem_of_dom, Hm in Hx.
    apply set_choose_L in Hx as [f Hf]. exists f. unfold members in Hf. apply elem_of_dom in Hf as [row Hf].
    apply map_filter_lookup_Some in Hf as [Hf _]. unfold assigned. rewrite Hf. by eexists.
Qed.

(** With a model and without --restart, the model is only refined: the same features are
    clustered, and pins are respected, whatever the answer and the other options. *)
Theorem C65_existing_model_is_refined : forall o yes g1 g2 c c' e,
  idle c -> quiet (disk c) -> pool_works c -> has_model (disk c) -> m_restart o = false ->
  cli_model o yes g1 g2 c = (c', e) ->
  quiet (disk c') /\ same_index (disk c) (disk c') /\
  (forall f, is_Some (assigned (disk c') f) <-> is_Some (assigned (disk c) f)) /\
  (forall f, feature_pinned (disk c') f = feature_pinned (disk c) f) /\ cluster_pins_kept (disk c) (disk c') /\
  (forall f, feature_pinned (disk c) f = true -> assigned (disk c') f = assigned (disk c) f) /\
  (forall x, cluster_pinned (disk c) x = true -> members (disk c') x = members (disk c) x).
Proof.
  intros o yes g1 g2 c c' e Hi Hq Hp Hm Hres Hrun. apply (has_model_iff c Hi Hq) in Hm.
  unfold cli_model in Hrun. rewrite bool_decide_eq_true_2 in Hrun by done. rewrite Hres in Hrun. unfold run_refine in Hrun.
  pose proof (C30_refine_conserves_features (refine_options o (m_clusters o)) g2 c Hi (quiet_usable _ Hq) Hp) as H1.
  pose proof (C31_pinned_and_unselected_untouched (refine_options o (m_clusters o)) g2 c Hi (quiet_usable _ Hq) Hp) as H2.
  destruct H1 as [(e1 & c1 & H & _ & Hd & _)|H1].
  { rewrite H in Hrun. injection Hrun as <- <-. rewrite Hd. split; [done|]. split_and!; done. }
  apply succeeded in H1 as (c1 & H & Hq1 & Hs & A1 & A2 & A3 & A4).
  destruct H2 as [(e1 & c2 & H' & _)|H2]; [by rewrite H in H'|].
  apply succeeded in H2 as (c2 & H' & _ & _ & B1 & B2 & B3). rewrite H in H'. injection H' as <-.
  rewrite H in Hrun. injection Hrun as <- <-. split; [done|]. split; [done|]. split; [done|]. split; [done|]. split; [done|]. split; [done|]. done.
Qed.
Print Assumptions C65_existing_model_is_refined.

(** A restart that is not confirmed changes nothing. *)
Theorem C65_declined : forall o g1 g2 c,
  idle c -> quiet (disk c) -> has_model (disk c) -> m_restart o = true ->
  cli_model o false g1 g2 c = (c, Aborted).
Proof.
  intros o g1 g2 c Hi Hq Hm Hr. apply (has_model_iff c Hi Hq) in Hm. unfold cli_model. by rewrite bool_decide_eq_true_2, Hr.
Qed.
Print Assumptions C65_declined.

(** Without a model, or with --restart confirmed, the model is a new one on the features
    asked for, however the refinement that follows ends. *)
Theorem C65_new_model : forall o yes g1 g2 c c' e,
  idle c -> quiet (disk c) -> (forall n, pool c n = None) ->
  ~ has_model (disk c) \/ (m_restart o = true /\ yes = true) ->
  NoDup (m_include_fields o) -> (match m_clusters o with Some n => 0 <= n | None => True end)%Z ->
  cli_model o yes g1 g2 c = (c', e) ->
  e <> Aborted /\ quiet (disk c') /\ same_index (disk c) (disk c') /\
  (forall f, is_Some (assigned (disk c') f) <-> eligible (disk c) (m_min_docs o) (m_include_fields o) f) /\
  (forall f, feature_pinned (disk c') f = false) /\ (forall x, members (disk c') x ≠ ∅ -> cluster_pinned (disk c') x = false).
Proof.
  intros o yes g1 g2 c c' e Hi Hq Hp Hcase Hnd Hn Hrun.
  assert (run_initialise o g1 g2 c = (c', e)) as Hrun'.
  { unfold cli_model in Hrun. destruct Hcase as [Hm|[Hr ->]].
    - rewrite (has_model_iff c Hi Hq) in Hm. by rewrite bool_decide_eq_false_2 in Hrun.
    - rewrite Hr in Hrun. by case_bool_decide. }
  clear Hrun Hcase. unfold run_initialise in Hrun'.
  assert (1 <= clusters_or_default (m_clusters o))%Z as Hk.
  { unfold clusters_or_default. destruct (m_clusters o) as [n|]; [|lia]. destruct (n =? 0)%Z eqn:E; [lia|]. apply Z.eqb_neq in E. lia. }
  destruct (C22_initialise_clusters (Z.to_nat (clusters_or_default (m_clusters o))) (m_min_docs o) (m_include_fields o) g1 c Hi (quiet_usable _ Hq) (Hp _) ltac:(lia) Hnd)
    as (c1 & Hc1 & Hi1 & Hq1 & Hs & (B1 & _ & _ & B4 & B5) & _).
  pose proof (pool_run_write (Initialise (Z.to_nat (clusters_or_default (m_clusters o))) (m_min_docs o) (m_include_fields o) g1) c) as Hpool. cbn [run_write] in Hpool.
  rewrite Hc1 in Hpool, Hrun'. cbn in Hpool.
  assert (pool_works c1) as Hp1 by (unfold pool_works; rewrite Hpool; apply Hp).
  unfold run_refine in Hrun'.
  destruct (C30_refine_conserves_features (refine_options o (Some (clusters_or_default (m_clusters o)))) g2 c1 Hi1 (quiet_usable _ Hq1) Hp1)
    as [(e2 & c2 & H & _ & Hd & _)|H].
  - rewrite H in Hrun'. injection Hrun' as <- <-. rewrite Hd. split; [done|]. split; [done|]. split; [done|]. split; [done|]. split; [done|]. by intros.
  - apply succeeded in H as (c2 & H & Hq2 & Hs2' & A1 & _ & A3 & A4). rewrite H in Hrun'. injection Hrun' as <- <-.
    split; [done|]. split; [done|]. split; [by eapply same_index_trans|]. split_and!.
    + intros f. rewrite A1. apply B1.
    + intros f. rewrite A3. apply B4.
    + intros x Hx. rewrite (A4 x Hx). apply B5.
Qed.
Print Assumptions C65_new_model.

Definition options (restart : bool) : model_options := ModelOptions 1 (Some 2%Z) 2 [] restart (Qof 1 / Qof 20)%Qc 1 None 2.
Example C65_example :
  (idle sample_conn2 /\ quiet (disk sample_conn2) /\ pool_works sample_conn2) /\
  has_model (disk sample_conn2) /\ ~ has_model (disk sample_conn) /\
  (cli_model (options false) true rng0 rng0 sample_conn2).2 = Finished /\
  dom (feature_cluster (disk (cli_model (options false) true rng0 rng0 sample_conn2).1)) = {[1;2;3;4;5]}%N /\
  dom (feature_cluster (disk (cli_model (options true) true rng0 rng0 sample_conn2).1)) = {[1;2;3;5]}%N /\
  dom (feature_cluster (disk (cli_model (options false) false rng0 rng0 sample_conn).1)) = {[1;2;3;5]}%N.
Proof.
  split; [apply sample_conn2_ready|].
  split. { exists 1%N. by_computation. }
  split. { intros [f Hf]. unfold assigned in Hf. change (feature_cluster (disk sample_conn)) with (∅ : gmap N fc_row) in Hf. rewrite lookup_empty in Hf. by destruct Hf. }
  split; [by_computation|]. split; [by_computation|]. split; by_computation.
Qed.

(** ** C64 *)
(** Indexing with a directory given does what indexing does without. *)
Definition C64_claim : Prop := forall wd bsz pos c s cn,
  index_ready cn -> complete s (length (batches bsz c)) ->
  (run_index_in wd bsz pos c s cn).2 = (run_index bsz pos c s cn).2 /\
  disk (run_index_in wd bsz pos c s cn).1 = disk (run_index bsz pos c s cn).1.

Lemma attribute_error_call cn : idle cn -> exists cn', index_attribute_error cn = (cn', Err AttributeError) /\ idle cn' /\ disk cn' = disk cn.
Proof.
  intros Hi. rewrite (idle_eq cn Hi). unfold index_attribute_error. cbn. eexists. split; [reflexivity|]. split; [by constructor|done].
Qed.

(** The path of a directory given as a text: nothing is indexed at all. *)
Theorem C64_text_path_refuted : forall path bsz pos c s cn, path <> "" -> idle cn ->
  exists cn', run_index_in (TextDir path) bsz pos c s cn = (cn', Err AttributeError) /\ idle cn' /\ disk cn' = disk cn.
Proof.
  intros path bsz pos c s cn Hp Hi. unfold run_index_in. rewrite bool_decide_eq_false_2 by done. by apply attribute_error_call.
Qed.
Print Assumptions C64_text_path_refuted.
(** A [pathlib.Path]: the call never ends normally, and if the last component of the path
    is not a directory name in the current directory nothing is indexed. *)
Theorem C64_path_object_refuted : forall u bsz pos c s cn,
  (run_index_in (PathDir u) bsz pos c s cn).2 <> Ok tt /\
  (idle cn -> disk (run_index_in (PathDir false) bsz pos c s cn).1 = disk cn).
Proof.
  intros u bsz pos c s cn. split.
  - destruct u; unfold run_index_in.
    + destruct (run_index bsz pos c s cn) as [cn' [u|e]]; [discriminate|]. destruct e; try discriminate; cbn; destruct (in_txn cn); discriminate.
    + unfold index_attribute_error. destruct (sql_foreign_keys false cn) as [c0 []]; destruct (sql_begin c0) as [c1 []]; [|done| |done];
        destruct (sql_rollback c1) as [c2 ?]; by destruct (sql_foreign_keys true c2) as [c3 ?].
  - intros Hi. unfold run_index_in. destruct (attribute_error_call cn Hi) as (cn' & -> & _ & H). exact H.
Qed.
Print Assumptions C64_path_object_refuted.
(** In an unfinished transaction: IndexingError and nothing happens, whatever the directory. *)
Theorem C64_in_transaction : forall wd bsz pos c s cn, in_txn cn = true ->
  run_index_in wd bsz pos c s cn = (cn, Err IndexingError).
Proof.
  intros wd bsz pos c s cn Ht.
  assert (run_index bsz pos c s cn = (cn, Err IndexingError)) as Hr by (by apply index_in_txn).
  assert (index_attribute_error cn = (cn, Err IndexingError)) as Ha.
  { unfold index_attribute_error, sql_foreign_keys, sql_begin. by rewrite !Ht. }
  destruct wd as [|t|[]|]; cbn [run_index_in]; [done| | | |done].
  - destruct (bool_decide _); done.
  - by rewrite Hr, Ht.
  - done.
Qed.
Print Assumptions C64_in_transaction.
Theorem C64_working_dir_refuted : ~ C64_claim.
Proof.
  intros H. destruct (H (TextDir "work") 2 false corpus1 (in_order 2) conn0) as [H1 _]; [apply conn0_ready|apply complete_in_order|].
  revert H1. by_computation.
Qed.
Print Assumptions C64_working_dir_refuted.
(** What remains: no directory given, or an object like a TemporaryDirectory, works; a
    Path whose last component is a directory to hand does the indexing but reports a failure. *)
Theorem C64_working_dir_partial : forall bsz pos c s cn,
  run_index_in DefaultDir bsz pos c s cn = run_index bsz pos c s cn /\
  run_index_in TempDir bsz pos c s cn = run_index bsz pos c s cn /\
  (index_ready cn -> complete s (length (batches bsz c)) ->
   disk (run_index_in (PathDir true) bsz pos c s cn).1 = disk (run_index bsz pos c s cn).1 /\
   idle (run_index_in (PathDir true) bsz pos c s cn).1).
Proof.
  intros bsz pos c s cn. split; [done|]. split; [done|]. intros (Hid & Hu & Hf) Hc. unfold run_index_in.
  assert (idle (run_index bsz pos c s cn).1) as Hi.
  { destruct (index_cases bsz pos c s cn Hid Hu Hf Hc) as [(e & d0 & _ & H)|(bs & segs & _ & _ & _ & _ & _ & Hcase)].
    - by rewrite H.
    - destruct Hcase as [(k & _ & H)|(_ & d2 & _ & H)]; rewrite H; by constructor. }
  destruct (run_index bsz pos c s cn) as [cn' [|[]]]; done.
Qed.
Print Assumptions C64_working_dir_partial.
Example C64_example :
  index_ready conn0 /\ complete (in_order 2) (length (batches 2 corpus1)) /\
  (run_index_in TempDir 2 false corpus1 (in_order 2) conn0).2 = Ok tt /\
  (run_index_in (PathDir true) 2 false corpus1 (in_order 2) conn0).2 = Err AttributeError /\
  size (doc_key (disk (run_index_in (PathDir true) 2 false corpus1 (in_order 2) conn0).1)) = 3 /\
  size (doc_key (disk (run_index_in (TextDir "d") 2 false corpus1 (in_order 2) conn0).1)) = 0.
Proof. split; [apply conn0_ready|]. split; [apply complete_in_order|]. by_computation. Qed.
