(** KillProofs.v: lemmas for PropertiesKills.v. *)
From stdpp Require Import pretty.
From Verif Require Import SampleDb LookupProofs WebProofs CorpusCalls HistoryProofs IndexCalls PropertiesIndexing PropertiesMigrate PropertiesCli PropertiesCorpus.
From Verif Require Export SpecCommands Kills CommandProofs.

(** ** The log of commits *)
Definition logs (c c' : conn) : Prop :=
  exists new, commits c' = new ++ commits c /\ disk c' = match new with [] => disk c | d :: _ => d end.
Lemma logs_same c c' : commits c' = commits c -> disk c' = disk c -> logs c c'.
Proof. intros H1 H2. by exists []. Qed.
Lemma logs_trans c1 c2 c3 : logs c1 c2 -> logs c2 c3 -> logs c1 c3.
Proof.
  intros (n1 & E1 & D1) (n2 & E2 & D2). exists (n2 ++ n1). split; [by rewrite E2, E1, app_assoc|].
  rewrite D2. destruct n2; [|done]. by rewrite D1.
Qed.
Lemma logs_states c1 c2 c3 d : logs c1 c2 -> logs c2 c3 -> crash_states c1 c3 d -> crash_states c1 c2 d \/ crash_states c2 c3 d.
Proof.
  intros (n1 & E1 & D1) (n2 & E2 & D2) [->|(new & old & Hn & -> & Hin)]; [left; by left|].
  rewrite E2, E1, app_assoc in Hn. apply app_inv_tail in Hn as <-. apply elem_of_app in Hin as [Hin|Hin].
  - right. right. exists n2, (commits c2). done.
  - left. right. exists n1, (commits c1). done.
Qed.
Lemma logs_end c c' : logs c c' -> crash_states c c' (disk c').
Proof.
  intros (new & E & D). rewrite D. destruct new as [|d new]; [by left|]. right. exists (d :: new), (commits c).
  split; [done|]. split; [done|]. left.
Qed.

Definition logged {A} (m : M A) : Prop := forall c, logs c (m c).1.
Lemma logs_autocommit c c' : commits c' = commits c -> disk c' = disk c -> logs c (autocommit c').
Proof.
  intros H1 H2. unfold autocommit. destruct (in_txn c'); [by apply logs_same|]. exists [cur c']. cbn. by rewrite H1.
Qed.
Lemma logged_on_db {A} (m : dbm A) : logged (on_db m).
Proof. intros c. unfold on_db. destruct (m (cur c)). by apply logs_autocommit. Qed.
Lemma logged_bind {A B} (m : M A) (k : A -> M B) : logged m -> (forall a, logged (k a)) -> logged (pbind m k).
Proof.
  intros Hm Hk c. unfold pbind. specialize (Hm c). destruct (m c) as [c1 [a|e]]; [|done].
  eapply logs_trans; [exact Hm|]. apply Hk.
Qed.
Lemma logged_ignore {A} (m : M A) : logged (ignore m) -> logged m.
Proof. intros H c. specialize (H c). unfold ignore, pbind in H. by destruct (m c) as [c1 [a|e]]. Qed.
Lemma logged_ret {A} (a : A) : logged (pret a).
Proof. intros c. by apply logs_same. Qed.
Lemma logged_lift {A} (r : res A) : logged (lift r).
Proof. intros c. by apply logs_same. Qed.
Lemma logged_housekeeping : logged update_changed_clusters.
Proof.
  intros c. unfold update_changed_clusters. destruct (pool c (pool_pos c)).
  - by apply logs_autocommit.
  - eapply logs_trans; [|apply logged_on_db]. by apply logs_autocommit.
Qed.
Lemma logged_release name : logged (sql_release name).
Proof.
  intros c. unfold sql_release. destruct (find_savepoint name (stack c)) as [[d r]|]; [by apply logs_autocommit|by apply logs_same].
Qed.
Lemma logged_rollback_to name : logged (sql_rollback_to name).
Proof. intros c. unfold sql_rollback_to. destruct (find_savepoint name (stack c)) as [[d r]|]; by apply logs_same. Qed.
Lemma logged_finally {A} name (r : res A) : logged (atomic_finally name r).
Proof.
  intros c. unfold atomic_finally. set (c1 := set_level _ c). apply (logs_trans _ c1); [by apply logs_same|].
  destruct ((level c1 =? 0) && changed c1).
  - pose proof (logged_housekeeping c1) as H. destruct (update_changed_clusters c1) as [c2 [u|e]]; [|exact H].
    cbn in H. pose proof (logged_release name (set_changed false c2)) as H2.
    assert (logs c1 (set_changed false c2)) as H3 by exact H.
    destruct (sql_release name (set_changed false c2)) as [c3 [u'|e]]; exact (logs_trans _ _ _ H3 H2).
  - pose proof (logged_release name c1) as H2. destruct (sql_release name c1) as [c3 [u'|e]]; exact H2.
Qed.
Lemma logged_atomic {A} name w (body : M A) : logged body -> logged (atomic name w body).
Proof.
  intros Hb c. unfold atomic, pbind, sql_savepoint.
  match goal with |- context [body ?X] => pose proof (Hb X) as H; assert (logs c X) as H0 by (by apply logs_same); destruct (body X) as [c2 [a|e]] end; cbn in H.
  all: pose proof (logs_trans _ _ _ H0 H) as H1; clear H0 H.
  - eapply logs_trans; [|apply logged_finally]. by destruct w.
  - pose proof (logged_rollback_to name c2) as H2. destruct (sql_rollback_to name c2) as [c3 [u|e']];
      (eapply logs_trans; [|apply logged_finally]); exact (logs_trans _ _ _ H1 H2).
Qed.
Lemma logged_run_write w : logged (run_write w).
Proof.
  assert (forall A (m : M A), logged m -> logged (ignore m)) as Hi.
  { intros A m Hm. apply logged_bind; [done|]. intros. apply logged_ret. }
  destruct w; cbn [run_write]; try apply Hi; apply logged_atomic; intros c; try apply logged_on_db.
  destruct (refine_plan a g (disk c) (cur c)); [|by apply logs_same]. unfold update_cluster_feature. apply logged_atomic.
  intros c'. apply logged_on_db.
Qed.
Lemma logged_run_index bsz pos cp s : logged (run_index bsz pos cp s).
Proof.
  intros c. unfold run_index.
  assert (forall b, logged (sql_foreign_keys b)) as Hfk.
  { intros b c'. unfold sql_foreign_keys. cbn. destruct (in_txn c'); by apply logs_same. }
  assert (logged sql_begin) as Hb. { intros c'. unfold sql_begin. destruct (in_txn c'); by apply logs_same. }
  assert (logged sql_commit) as Hc. { intros c'. unfold sql_commit. destruct (in_txn c'); [|by apply logs_same]. by exists [cur c']. }
  assert (logged sql_rollback) as Hr. { intros c'. unfold sql_rollback. destruct (in_txn c'); by apply logs_same. }
  pose proof (Hfk false c) as H0. destruct (sql_foreign_keys false c) as [cn0 u0]. cbn in H0.
  pose proof (Hb cn0) as H1. destruct (sql_begin cn0) as [cn1 [u1|e1]]; cbn in H1; [|cbn; by eapply logs_trans].
  match goal with |- context [pbind ?m ?k cn1] => assert (logged (pbind m k)) as H2;
    [|specialize (H2 cn1); destruct (pbind m k cn1) as [cn2 [u2|e2]]] end.
  { apply logged_bind; [apply logged_on_db|intros _]. apply logged_bind; [done|intros _]. apply logged_bind; [done|intros _].
    apply logged_bind; [apply logged_housekeeping|done]. }
  - pose proof (Hfk true cn2) as H3. destruct (sql_foreign_keys true cn2). cbn in *.
    eapply logs_trans; [exact H0|]. eapply logs_trans; [exact H1|]. eapply logs_trans; [exact H2|exact H3].
  - pose proof (Hr cn2) as H4. destruct (sql_rollback cn2) as [cn3 [u3|e3]].
    all: pose proof (Hfk true cn3) as H3; destruct (sql_foreign_keys true cn3); cbn in *.
    all: eapply logs_trans; [exact H0|]; eapply logs_trans; [exact H1|]; eapply logs_trans; [exact H2|]; eapply logs_trans; [exact H4|exact H3].
Qed.

(** ** Calls that keep the index at every instant *)
Definition good (d0 d : db) : Prop := usable d /\ same_index d0 d.
Record safe {A} (m : M A) (c : conn) : Prop := Safe {
  safe_log : logs c (m c).1;
  safe_states : forall d, crash_states c (m c).1 d -> good (disk c) d;
  safe_after : forall a, (m c).2 = Ok a -> idle (m c).1 /\ good (disk c) (disk (m c).1) }.
Lemma good_trans d1 d2 d3 : good d1 d2 -> good d2 d3 -> good d1 d3.
Proof. intros [_ H1] [H2 H3]. split; [done|]. by eapply same_index_trans. Qed.
Lemma safe_bind {A B} (m : M A) (k : A -> M B) c : safe m c ->
  (forall a c1, idle c1 -> usable (disk c1) -> safe (k a) c1) -> safe (pbind m k) c.
Proof.
  intros [H1 H2 H3] Hk. unfold pbind. destruct (m c) as [c1 [a|e]] eqn:E; cbn [fst snd] in *.
  - destruct (H3 a eq_refl) as [Hi Hg]. destruct (Hk a c1 Hi (proj1 Hg)) as [K1 K2 K3].
    split; unfold pbind; rewrite E.
    + by eapply logs_trans.
    + intros d Hd. destruct (logs_states c c1 _ d H1 K1 Hd) as [Hd'|Hd']; [by apply H2|]. eapply good_trans; [exact Hg|by apply K2].
    + intros b Hb. destruct (K3 b Hb) as [? ?]. split; [done|]. by eapply good_trans.
  - split; unfold pbind; rewrite E; [done|done|done].
Qed.
Lemma safe_const {A} (r : res A) c : idle c -> usable (disk c) -> safe (fun c => (c, r)) c.
Proof.
  intros Hi Hu. split; cbn [fst].
  - by apply logs_same.
  - intros d Hd. rewrite (crash_same c c d eq_refl Hd). done.
  - done.
Qed.
Lemma safe_write w c : idle c -> usable (disk c) -> safe (run_write w) c.
Proof.
  intros Hi Hu. split.
  - apply logged_run_write.
  - intros d Hd. destruct (pool c (pool_pos c)) as [k|] eqn:Ep.
    + destruct (write_pool_fails w c k Hi Ep) as [(e & c' & H & _ & _ & Hcr)|(c' & H & _ & Hdd & Hcm)]; rewrite H in Hd; cbn in Hd.
      * rewrite (Hcr d Hd). done.
      * rewrite (crash_same c c' d Hcm Hd). done.
    + destruct (run_write_outcome w c Hi Hu Ep) as [(e & c' & H & _ & _ & Hcr)|(c' & H & _ & Hq & Hs & _ & Hcr)]; rewrite H in Hd; cbn in Hd.
      * rewrite (Hcr d Hd). done.
      * destruct (Hcr d Hd) as [->| ->]; [done|]. split; [by apply quiet_usable|done].
  - intros a Ha. destruct (step_write w c Hi Hu) as [(e & c' & H & _)|(a' & c' & H & H1 & H2 & H3)]; rewrite H in *; cbn in *; [done|].
    split; [done|]. split; [by apply quiet_usable|done].
Qed.
Lemma safe_ignored {A} (m : M A) c : safe (ignore m) c -> safe m c.
Proof.
  intros [H1 H2 H3]. assert ((ignore m c).1 = (m c).1) as E by (unfold ignore, pbind; by destruct (m c) as [? [?|?]]).
  rewrite E in *. split; [done|done|]. intros a Ha. apply (H3 tt). unfold ignore, pbind. destruct (m c) as [? [?|?]]; [done|done].
Qed.
Lemma safe_handle parse g1 g2 r ps c : idle c -> usable (disk c) -> safe (handle parse g1 g2 r ps) c.
Proof.
  intros Hi Hu.
  assert (forall (t : target) c1, idle c1 -> usable (disk c1) -> safe (pret t) c1) as Hret by (intros; by apply safe_const).
  assert (forall c1, idle c1 -> usable (disk c1) -> safe (return_to ps) c1) as Hrt.
  { intros c1 H1 H2. unfold return_to. destruct (ints ps "cluster_id"); by apply safe_const. }
  assert (forall A B (x : res A) (k : A -> M B) c1, idle c1 -> usable (disk c1) ->
    (forall a c2, idle c2 -> usable (disk c2) -> safe (k a) c2) -> safe (pbind (lift x) k) c1) as Hl.
  { intros. apply safe_bind; [by apply safe_const|done]. }
  destruct r; cbn [handle].
  - apply safe_bind; [by apply (safe_write (DeleteClusters _))|intros; by apply Hret].
  - apply safe_bind; [apply safe_ignored; by apply (safe_write (CreateCluster _))|intros; by apply Hret].
  - apply safe_bind; [apply safe_ignored; by apply (safe_write (MergeClusters _))|intros; by apply Hret].
  - do 3 (apply Hl; [done..|intros]; clear dependent c; rename c2 into c).
    apply safe_bind; [by apply (safe_write (RefineClusters _ _))|intros; by apply Hrt].
  - do 1 (apply Hl; [done..|intros]; clear dependent c; rename c2 into c).
    apply safe_bind; [by apply (safe_write (PinClusters _ _))|intros; by apply Hrt].
  - apply safe_bind; [by apply (safe_write (DeleteFeatures _))|intros; by apply Hret].
  - do 1 (apply Hl; [done..|intros]; clear dependent c; rename c2 into c).
    apply safe_bind; [by apply (safe_write (PinFeatures _ _))|intros; by apply Hret].
  - do 2 (apply Hl; [done..|intros]; clear dependent c; rename c2 into c).
    apply safe_bind; [by apply (safe_write (Initialise _ _ _ _))|intros _ c1 ? ?]. clear dependent c. rename c1 into c.
    do 2 (apply Hl; [done..|intros]; clear dependent c; rename c2 into c).
    apply safe_bind; [by apply (safe_write (RefineClusters _ _))|intros; by apply Hret].
  - do 3 (apply Hl; [done..|intros]; clear dependent c; rename c2 into c).
    apply safe_bind; [by apply (safe_write (RefineClusters _ _))|intros; by apply Hret].
Qed.

Lemma model_states o yes g1 g2 c : idle c -> usable (disk c) ->
  logs c (cli_model o yes g1 g2 c).1 /\ forall d, crash_states c (cli_model o yes g1 g2 c).1 d -> good (disk c) d.
Proof.
  intros Hi Hu.
  assert (forall cl c, (run_refine o cl g2 c).1 = (refine_clusters (refine_options o cl) g2 c).1) as Hr.
  { intros cl c1. unfold run_refine. by destruct (refine_clusters _ _ c1) as [? [?|?]]. }
  assert ((run_initialise o g1 g2 c).1 = (pbind (initialise_clusters (Z.to_nat (clusters_or_default (m_clusters o))) (m_min_docs o) (m_include_fields o) g1)
    (fun _ => refine_clusters (refine_options o (Some (clusters_or_default (m_clusters o)))) g2) c).1) as Hn.
  { unfold run_initialise, pbind. destruct (initialise_clusters _ _ _ _ c) as [c1 [u|e]]; [apply Hr|done]. }
  assert (forall cl c, idle c -> usable (disk c) -> safe (refine_clusters (refine_options o cl) g2) c) as Hsr.
  { intros. by apply (safe_write (RefineClusters _ _)). }
  assert (logs c (run_initialise o g1 g2 c).1 /\ forall d, crash_states c (run_initialise o g1 g2 c).1 d -> good (disk c) d) as HI.
  { rewrite Hn. match goal with |- context [pbind ?m ?k c] => assert (safe (pbind m k) c) as [H1 H2 _]; [|done] end.
    apply safe_bind; [by apply (safe_write (Initialise _ _ _ _))|intros; by apply Hsr]. }
  unfold cli_model. destruct (bool_decide _); [|exact HI]. destruct (m_restart o).
  - destruct yes; [exact HI|]. cbn [fst]. destruct (safe_const (Ok tt) c Hi Hu) as [H1 H2 _]. split; [exact H1|exact H2].
  - rewrite Hr. destruct (Hsr (m_clusters o) c Hi Hu) as [H1 H2 _]. split; [exact H1|exact H2].
Qed.
Lemma same_index_sym d d' : same_index d d' -> same_index d' d.
Proof. unfold same_index. intros H. repeat match goal with H : _ /\ _ |- _ => destruct H end. split_and!; done. Qed.

Lemma index_states tok bsz pos m s d p cn r x :
  sound_index d -> complete s (length (batches bsz (pt_corpus tok m))) ->
  run_index bsz pos (pt_corpus tok m) s (open_index d p) = (cn, r) -> crash_states (open_index d p) cn x ->
  x = d \/ (sound_index x /\ is_index_of tok x m).
Proof.
  intros [Hu Hf] Hc Hrun Hx.
  destruct (rebuild bsz pos (pt_corpus tok m) s d) as [d0 [[]|e]] eqn:Er.
  2:{ rewrite (index_fails bsz pos (pt_corpus tok m) s (open_index d p) d0 e (idle_open _ _) Er) in Hrun.
      injection Hrun as <- <-. left. by apply (crash_same _ _ _ eq_refl Hx). }
  destruct Hx as [Hx|(new & old & Hcm & -> & Hin)]; [by left|]. right.
  destruct (index_cases bsz pos (pt_corpus tok m) s (open_index d p) (idle_open _ _) Hu Hf Hc)
    as [(e & d' & H & _)|(bs & segs & Hp & HF & Hrb & Hcond & Hu1 & Hcase)].
  { change (disk (open_index d p)) with d in H. congruence. }
  destruct (index_cases bsz pos (pt_corpus tok m) s (open_index d pool_ok) (idle_open _ _) Hu Hf Hc)
    as [(e & d' & H & _)|(bs' & segs' & _ & _ & Hrb' & _ & _ & Hcase')].
  { change (disk (open_index d pool_ok)) with d in H. congruence. }
  rewrite Hrb in Hrb'. injection Hrb' as <-.
  change (disk (open_index d p)) with d in *. change (disk (open_index d pool_ok)) with d in *.
  cbv zeta in Hcase, Hcase', Hu1. set (d1 := rebuilt _ segs d) in *.
  assert (sound_index d1) as Hs1.
  { split; [exact Hu1|]. exact (ie_unique _ _ _ (merge_exact _ _ _ _ _ _ Hf Hp HF)). }
  assert (is_index_of tok d1 m) as Hi1.
  { destruct Hcase' as [(k & Hk & _)|(_ & d2 & (_ & _ & Hsm & _) & Hok)]; [done|].
    apply (is_index_of_same tok d2); [by apply same_index_sym|].
    refine (indexed_is_index bsz pos tok m s _ _ _ Hc Hok). split; [apply idle_open|]. split; [exact Hu|exact Hf]. }
  assert (forall d2, refreshed d1 d2 -> sound_index d2 /\ is_index_of tok d2 m) as H2.
  { intros d2 (R1 & R2 & R3 & _). split; [|by eapply is_index_of_same]. eapply quiet_sound; [|exact R3|apply Hs1]. by split. }
  destruct Hcase as [(k & _ & H)|(_ & d2 & Hd2 & H)]; rewrite H in Hrun; injection Hrun as <- <-; cbn [commits] in Hcm.
  - change (?a :: ?l) with ([a] ++ l) in Hcm. apply app_inv_tail in Hcm. subst new.
    apply elem_of_list_singleton in Hin as ->. done.
  - change (?a :: ?b :: ?l) with ([a; b] ++ l) in Hcm. apply app_inv_tail in Hcm. subst new.
    apply elem_of_cons in Hin as [->|Hin]; [by apply H2|]. apply elem_of_list_singleton in Hin as ->. done.
Qed.

Lemma logged_handle parse g1 g2 r ps : logged (handle parse g1 g2 r ps).
Proof.
  assert (logged (return_to ps)) as Hrt.
  { intros c. unfold return_to. destruct (ints ps "cluster_id"); by apply logs_same. }
  assert (forall x, logged (delete_clusters x)) by (intros; apply (logged_run_write (DeleteClusters _))).
  assert (forall x, logged (delete_features x)) by (intros; apply (logged_run_write (DeleteFeatures _))).
  assert (forall x, logged (create_cluster_from_features x)) by (intros; apply logged_ignore, (logged_run_write (CreateCluster _))).
  assert (forall x, logged (merge_clusters x)) by (intros; apply logged_ignore, (logged_run_write (MergeClusters _))).
  assert (forall x g, logged (refine_clusters x g)) by (intros; apply (logged_run_write (RefineClusters _ _))).
  assert (forall x b, logged (pin_clusters x b)) by (intros; apply (logged_run_write (PinClusters _ _))).
  assert (forall x b, logged (pin_features x b)) by (intros; apply (logged_run_write (PinFeatures _ _))).
  assert (forall n m x g, logged (initialise_clusters n m x g)) by (intros; apply (logged_run_write (Initialise _ _ _ _))).
  destruct r; cbn [handle]; repeat (first [apply logged_lift|apply logged_ret|apply Hrt|apply logged_bind; [|intros]|solve [auto]]).
Qed.
Lemma logged_model o yes g1 g2 c : logs c (cli_model o yes g1 g2 c).1.
Proof.
  assert (forall cl c, logs c (run_refine o cl g2 c).1) as Hr.
  { intros cl c1. unfold run_refine. pose proof (logged_run_write (RefineClusters (refine_options o cl) g2) c1) as H. cbn [run_write] in H.
    by destruct (refine_clusters _ _ c1) as [? [?|?]]. }
  assert (logs c (run_initialise o g1 g2 c).1) as Hi.
  { unfold run_initialise.
    pose proof (logged_run_write (Initialise (Z.to_nat (clusters_or_default (m_clusters o))) (m_min_docs o) (m_include_fields o) g1) c) as H. cbn [run_write] in H.
    destruct (initialise_clusters _ _ _ _ c) as [c1 [u|e]]; [|exact H]. eapply logs_trans; [exact H|apply Hr]. }
  unfold cli_model. destruct (bool_decide _); [|exact Hi]. destruct (m_restart o); [|apply Hr]. destruct yes; [exact Hi|by apply logs_same].
Qed.
Lemma logged_without_docs : logged index_without_docs.
Proof.
  intros c. unfold index_without_docs, sql_foreign_keys, sql_begin.
  apply logs_same; destruct (in_txn c) eqn:E; cbn; rewrite ?E; try done.
  all: unfold in_txn in *; cbn; rewrite ?E; try done; repeat (case_match; cbn; try done).
Qed.

(** ** What is known at a path *)
Definition known (fs : filesystem) (q : string) : db :=
  match fs !! q with Some (DbFile f _) => rows f | _ => empty_db end.
Definition indexed (fs : filesystem) (q : string) : Prop := exists f docs, fs !! q = Some (DbFile f docs) /\ is_current f.
Lemma index_at_known fs q d : index_at fs q d <-> indexed fs q /\ known fs q = d.
Proof.
  unfold index_at, indexed, known. split.
  - intros (f & docs & E & Hc & <-). rewrite E. eauto.
  - intros [(f & docs & E & Hc) <-]. rewrite E. eauto 10.
Qed.
Lemma healthy_sound fs q : healthy fs q -> sound_index (known fs q).
Proof.
  intros H. unfold known. destruct (fs !! q) as [[|f docs]|] eqn:E; try apply empty_sound.
  destruct (H f docs E) as [[_ ?]|[_ ->]]; [done|apply empty_sound].
Qed.
Lemma database_known fs q f docs : as_database (fs !! q) = Some (f, docs) -> rows f = known fs q.
Proof. unfold known. destruct (fs !! q) as [[[|]|]|]; cbn; intros [= <- <-]; done. Qed.

Lemma open_path_known q fs fs1 f docs : healthy fs q -> open_path q fs = (fs1, inl (f, docs)) ->
  fs1 = <[q := DbFile f docs]> fs /\ is_current f /\ rows f = known fs q /\
  (forall cols, tables f !! "doc" = Some cols -> exists f0, fs !! q = Some (DbFile f0 docs) /\ tables f0 !! "doc" = Some cols).
Proof.
  intros Hh Ho. pose proof (open_path_healthy q fs fs1 _ Hh Ho) as (H1 & H2 & H3 & H4 & H5).
  split; [done|]. split; [done|]. split; [|done].
  unfold open_path in Ho. destruct (as_database (fs !! q)) as [[f0 docs0]|] eqn:Ea; [|done].
  destruct (healthy_database _ _ _ _ Hh Ea) as [[[Hc Hs]|[H0 Hr]] _].
  - apply H5, index_at_known. split; [|done]. destruct (fs !! q) as [[[|]|f' docs']|] eqn:E; cbn in Ea; try done; injection Ea as <- <-.
    + destruct Hc as [Hv _]. done.
    + exists f', docs'. done.
    + destruct Hc as [Hv _]. done.
  - rewrite <- (database_known _ _ _ _ Ea). destruct (version0_open f0 H0 Hr) as [(f1 & Ho' & Hc & Hr1 & Ht)|Ho'];
      rewrite Ho' in Ho; cbv zeta iota beta in Ho; [|done].
    destruct (has_tables f1); [|done]. injection Ho as _ -> _. congruence.
Qed.
Lemma open_checked_path q fs fs1 f docs : open_checked q fs = (fs1, inl (f, docs)) ->
  open_path q fs = (fs1, inl (f, docs)) /\ is_index_db (on_disk_of (fs !! q)) = Some true.
Proof. unfold open_checked. destruct (is_index_db _) as [[]|]; [done|done|done]. Qed.

Lemma current_states f f' : is_current f -> f' ∈ [set_wal f; (migrate (set_wal f)).1; (open_file f).1] -> f' = set_wal f.
Proof.
  intros Hc Hf. pose proof Hc as (Hv & _). assert (migrate (set_wal f) = (set_wal f, Ok false)) as Hm.
  { unfold migrate. change (user_version (set_wal f)) with (user_version f). rewrite Hv. done. }
  rewrite Hm, (current_open f Hc) in Hf. cbn [fst] in Hf. repeat (apply elem_of_cons in Hf as [->|Hf]; [done|]). by apply elem_of_nil in Hf.
Qed.
Lemma version0_migrate f : user_version f = 0%Z -> (migrate (set_wal f)).1 = (open_file f).1.
Proof.
  intros H0. unfold open_file. assert (forall b, (migrate (set_wal f)).2 = Ok b -> b = false) as Hb.
  { intros b. unfold migrate. change (user_version (set_wal f)) with (user_version f). rewrite H0. cbn [Z.eqb].
    destruct (has_objects _); [done|]. cbv zeta. destruct (run_stmts _ _); [|done]. cbn. by intros [= <-]. }
  destruct (migrate (set_wal f)) as [f1 [b|e]]; [|done]. rewrite (Hb b eq_refl). cbv zeta iota beta.
  by destruct (bool_decide _).
Qed.
Lemma version0_states f f' : user_version f = 0%Z -> rows f = empty_db ->
  f' ∈ [set_wal f; (migrate (set_wal f)).1; (open_file f).1] ->
  rows f' = empty_db /\ (f' = set_wal f \/ is_current f').
Proof.
  intros H0 Hr Hf. rewrite version0_migrate in Hf by done.
  assert (f' = set_wal f \/ f' = (open_file f).1) as [->| ->].
  { repeat (apply elem_of_cons in Hf as [->|Hf]; [auto|]). by apply elem_of_nil in Hf. }
  - split; [exact Hr|by left].
  - destruct (version0_open f H0 Hr) as [(f1 & -> & Hc & Hr1 & _)| ->]; cbn [fst]; [split; [exact Hr1|right; exact Hc]|split; [exact Hr|by left]].
Qed.

Lemma opening_known q fs fs' : healthy fs q -> while_opening q fs fs' ->
  healthy fs' q /\ known fs' q = known fs q /\ (indexed fs q -> indexed fs' q).
Proof.
  intros Hh [|Hn|f docs f' Ha Hf].
  - done.
  - split; [apply healthy_plain|]. unfold known. rewrite lookup_insert, Hn. split; [done|]. intros (f & docs & E & _). congruence.
  - destruct (healthy_database _ _ _ _ Hh Ha) as [[[Hc Hs]|[H0 Hr]] _].
    + rewrite (current_states f f' Hc Hf). split; [by apply healthy_index|]. unfold known at 1. rewrite lookup_insert.
      split; [exact (database_known _ _ _ _ Ha)|]. intros _. eexists _, _. rewrite lookup_insert. split; [reflexivity|exact Hc].
    + destruct (version0_states f f' H0 Hr Hf) as [Hr' Hcase]. split; [|split].
      * destruct Hcase as [->|Hc]; [by apply healthy_zero|]. apply healthy_index; [done|]. rewrite Hr'. apply empty_sound.
      * unfold known at 1. rewrite lookup_insert, Hr', <- (database_known _ _ _ _ Ha). done.
      * intros (f0 & docs0 & E & (Hv & _)). rewrite E in Ha. cbn in Ha. injection Ha as -> ->. congruence.
Qed.

(** ** Every instant of every command *)
Lemma doc_not_index cols : index_tables !! "doc" ≠ Some cols.
Proof. assert (index_tables !! "doc" = None) as -> by by_computation. done. Qed.
Lemma with_doc_table_file f docs t : exists f1 docs1, with_doc_table f docs t = DbFile f1 docs1 /\
  rows f1 = rows f /\ user_version f1 = user_version f /\ (is_current f -> is_current f1).
Proof.
  unfold with_doc_table. destruct t as [m|]; eexists _, _; (split; [reflexivity|]); (split; [done|]); (split; [done|]); [|done].
  intros (H1 & H2 & H3 & H4). split; [done|]. split; [done|]. split; [|done]. intros t cols Ht. cbn [tables set_tables].
  rewrite lookup_insert_ne; [by apply H3|]. intros <-. by apply doc_not_index in Ht.
Qed.

Section During.
  Variables (limit : nat) (tok : string -> list string) (parse : string -> option Z) (linesep : list char).

  Lemma opening_frame q path fs fs' : while_opening path fs fs' -> q ≠ path -> fs' !! q = fs !! q.
  Proof. intros [|Hn|f docs f' Ha Hf] Hq; [done|by rewrite lookup_insert_ne..]. Qed.
  Lemma index_of_database c index : index_of c = Some index -> database_of c = index.
  Proof. destruct c; cbn; congruence. Qed.
  Lemma during_frame c fs fs' q : during limit tok parse c fs fs' ->
    q ≠ database_of c -> output_of c ≠ Some q -> fs' !! q = fs !! q.
  Proof.
    intros H Hq Ho. destruct H; cbn [database_of] in *; try done.
    - rewrite (index_of_database _ _ H) in Hq. by eapply opening_frame.
    - by rewrite lookup_insert_ne.
    - by rewrite lookup_insert_ne.
    - unfold store. rewrite lookup_insert_ne by done. by eapply open_path_frame.
    - unfold store. rewrite lookup_insert_ne by done. by eapply open_path_frame.
    - unfold store. rewrite lookup_insert_ne by done. by eapply open_checked_frame.
    - rewrite (index_of_database _ _ H) in Hq. rewrite lookup_insert_ne; [by eapply open_checked_frame|].
      intros ->. apply Ho. destruct c; cbn in *; try done; by subst.
  Qed.

  Definition from_corpus (c : command) (q : string) (fs fs' : filesystem) : Prop :=
    exists corpus bsz pos sched p m, c = BuildIndex corpus q bsz pos sched p /\ documents_at fs corpus m /\ is_index_of tok (known fs' q) m.
  Lemma during_step c fs fs' q : healthy fs q -> during limit tok parse c fs fs' ->
    (forall corpus index bsz pos sched p, c = BuildIndex corpus index bsz pos sched p -> forall n, complete (sched n) n) ->
    output_of c ≠ Some q ->
    healthy fs' q /\ (indexed fs q -> indexed fs' q) /\
    (same_index (known fs q) (known fs' q) \/ from_corpus c q fs fs').
  Proof.
    intros Hh H Hw Ho. destruct (decide (q = database_of c)) as [Hq|Hq].
    2:{ pose proof (during_frame c fs fs' q H Hq Ho) as E. split; [by eapply healthy_other|]. unfold indexed, known. rewrite E. split; [done|by left]. }
    assert (forall f docs d fs0, is_current f -> sound_index d ->
      healthy (store q f docs d fs0) q /\ indexed (store q f docs d fs0) q /\ known (store q f docs d fs0) q = d) as Hput.
    { intros f docs d fs0 Hc Hd. unfold store. split; [by apply healthy_index|]. unfold indexed, known. rewrite lookup_insert.
      split; [|done]. eexists _, _. split; [reflexivity|]. by apply set_rows_current. }
    assert (forall d, good (known fs q) d -> sound_index d) as Hgood.
    { intros d [Hu (_ & E & _)]. split; [done|]. rewrite E. by apply healthy_sound. }
    destruct H; cbn [database_of] in Hq.
    - split; [done|]. split; [done|by left].
    - rewrite (index_of_database _ _ H) in Hq. subst index. destruct (opening_known _ _ _ Hh H1) as (A & B & C).
      split; [done|]. split; [done|]. left. by rewrite B.
    - subst corpus. split; [apply healthy_plain|]. unfold indexed, known. rewrite lookup_insert, H.
      split; [|by left]. by intros (? & ? & ? & _).
    - subst corpus. destruct (with_doc_table_file (set_wal f) docs (replace_crash xs (PtDb (doc_table_of f docs) None) n)) as (f1 & docs1 & -> & Hr & Hv & Hc).
      assert (known (<[q := DbFile f1 docs1]> fs) q = known fs q) as Hk.
      { unfold known at 1. rewrite lookup_insert, Hr. by apply (database_known fs q f docs). }
      destruct (healthy_database _ _ _ _ Hh H0) as [[[Hc0 Hs]|[H00 Hr0]] _].
      + split; [apply healthy_index; [by apply Hc|]; rewrite Hr; exact Hs|]. split; [|left; by rewrite Hk].
        intros _. eexists _, _. rewrite lookup_insert. split; [reflexivity|]. by apply Hc.
      + split; [apply healthy_zero; [by rewrite Hv|by rewrite Hr]|]. split; [|left; by rewrite Hk].
        intros (f0 & d0 & E & (Hv0 & _)). rewrite E in H0. cbn in H0. injection H0 as -> ->. congruence.
    - subst index. destruct (open_path_known _ _ _ _ _ Hh H) as (-> & Hc & Hr & Hdoc).
      pose proof (healthy_sound _ _ Hh) as Hs. rewrite <- Hr in Hs.
      assert (d = rows f \/ sound_index d /\ exists m, documents_at fs corpus m /\ is_index_of tok d m) as Hd.
      { unfold index_call, doc_table_of in H2. destruct (bool_decide (tables cf !! "doc" = Some doc_columns)) eqn:Hcols.
        2:{ left. destruct (without_docs_call (open_index (rows f) p) (idle_open _ _)) as (cn1 & E & Ed).
            pose proof (logged_without_docs (open_index (rows f) p)) as HL. rewrite E in H2, HL. injection H2 as <- <-. cbn [fst] in HL.
            clear -H3 E. unfold index_without_docs in E. cbn in E. injection E as <-. by apply (crash_same (open_index (rows f) p)) in H3. }
        apply bool_decide_eq_true in Hcols. cbv zeta in H2.
        destruct (index_states tok bsz pos cdocs _ (rows f) p cn r d Hs (Hw _ _ _ _ _ _ eq_refl _) H2 H3) as [->|[H4 H5]]; [by left|].
        right. split; [done|]. exists cdocs. split; [|done].
        destruct (decide (corpus = q)) as [->|Hne].
        - rewrite lookup_insert in H0. cbn in H0. injection H0 as -> ->. destruct (Hdoc _ Hcols) as (f0 & ? & ?). exists f0. done.
        - rewrite lookup_insert_ne in H0 by done. unfold documents_at. destruct (fs !! corpus) as [[[|]|cf' cd']|] eqn:Ec; cbn in H0; try done.
          + injection H0 as <- <-. done.
          + injection H0 as -> ->. eauto. }
      destruct Hd as [->|(H4 & m & H5 & H6)].
      + destruct (Hput f docs (rows f) (<[q := DbFile f docs]> fs) Hc Hs) as (A & B & C). split; [done|]. split; [done|]. left. by rewrite C, Hr.
      + destruct (Hput f docs d (<[q := DbFile f docs]> fs) Hc H4) as (A & B & C). split; [done|]. split; [done|]. right.
        exists corpus, bsz, pos, sched, p, m. rewrite C. done.
    - subst index. destruct (open_path_known _ _ _ _ _ Hh H) as (-> & Hc & Hr & _).
      pose proof (healthy_sound _ _ Hh) as Hs. rewrite <- Hr in Hs.
      destruct (model_states o yes g1 g2 (open_index (rows f) p) (idle_open _ _) (proj1 Hs)) as [_ Hm]. rewrite H0 in Hm.
      specialize (Hm d H1). change (disk (open_index (rows f) p)) with (rows f) in Hm. rewrite Hr in Hm.
      destruct (Hput f docs d (<[q := DbFile f docs]> fs) Hc (Hgood d Hm)) as (A & B & C). split; [done|]. split; [done|]. left. rewrite C. apply Hm.
    - subst index. apply open_checked_path in H as [H _]. destruct (open_path_known _ _ _ _ _ Hh H) as (-> & Hc & Hr & _).
      pose proof (healthy_sound _ _ Hh) as Hs. rewrite <- Hr in Hs.
      pose proof (safe_handle parse (v_g1 v) (v_g2 v) (q_route (v_request v)) ps (open_index (rows f) (v_pool v)) (idle_open _ _) (proj1 Hs)) as [_ Hm _].
      rewrite H1 in Hm. specialize (Hm d H2). change (disk (open_index (rows f) (v_pool v))) with (rows f) in Hm. rewrite Hr in Hm.
      destruct (Hput f docs d (<[q := DbFile f docs]> fs) Hc (Hgood d Hm)) as (A & B & C). split; [done|]. split; [done|]. left. rewrite C. apply Hm.
    - rewrite (index_of_database _ _ H) in Hq. subst index. apply open_checked_path in H1 as [H1 _].
      destruct (open_path_known _ _ _ _ _ Hh H1) as (-> & Hc & Hr & _).
      assert (output ≠ q) as Hne. { intros ->. apply Ho. destruct c; cbn in *; try done; by subst. }
      pose proof (healthy_sound _ _ Hh) as Hs. rewrite <- Hr in Hs.
      assert (<[output := PlainFile l]> (<[q := DbFile f docs]> fs) !! q = Some (DbFile f docs)) as E.
      { rewrite lookup_insert_ne by done. by rewrite lookup_insert. }
      split; [intros f' docs' E'; rewrite E in E'; injection E' as <- <-; by left|].
      unfold indexed, known. rewrite E. split; [eauto|]. left. unfold known in Hr. by rewrite Hr.
  Qed.

  (** The end of a command is one of its instants. *)
  Lemma run_during c fs fs' o : run_command limit tok parse linesep c fs = (fs', o) -> during limit tok parse c fs fs'.
  Proof.
    assert (forall path c fs1 r, index_of c = Some path -> (checks c = true -> is_index_db (on_disk_of (fs !! path)) = Some true) ->
      open_path path fs = (fs1, r) -> during limit tok parse c fs fs1) as Hop.
    { intros path c1 fs1 r Hi Hck. unfold open_path. destruct (as_database (fs !! path)) as [[f docs]|] eqn:Ea; [|intros [= <- _]; constructor].
      destruct (open_file f) as [f1 r1] eqn:Ef. cbv zeta. intros H.
      assert (fs1 = <[path := DbFile f1 docs]> fs) as -> by (by destruct r1; [destruct (has_tables f1)|]; injection H).
      eapply during_open; [exact Hi|exact Hck|]. eapply opening_some; [exact Ea|]. rewrite Ef. right; right; left. }
    assert (forall path c fs1 r, index_of c = Some path ->
      open_checked path fs = (fs1, r) -> during limit tok parse c fs fs1) as Hoc.
    { intros path c1 fs1 r Hi. unfold open_checked. destruct (is_index_db _) as [[]|] eqn:Eck; [|intros [= <- _]; constructor..].
      apply Hop; [done|]. done. }
    destruct c as [text corpus garbage|corpus index bsz pos sched p|index om yes g1 g2 p|corpus index output per g rest|index output k|index v];
      cbn [run_command]; intros H.
    - unfold run_create in H. destruct (fs !! text) as [src|] eqn:Et; [|injection H as <- _; constructor].
      destruct (as_database (fs !! corpus)) as [[f docs]|] eqn:Ea; [|injection H as <- _; constructor]. cbv zeta in H.
      injection H as <- _.
      pose proof (during_create limit tok parse text corpus garbage fs src f docs
        (length (replace_statements match src with PlainFile l => file_docs limit l | DbFile _ _ => garbage end)) Et Ea) as Hd.
      cbv zeta in Hd. unfold replace_crash in Hd. rewrite take_ge in Hd by done. exact Hd.
    - unfold run_index_command in H. destruct (fs !! corpus) as [src|] eqn:Et; [|injection H as <- _; constructor].
      destruct (open_path index fs) as [fs1 r] eqn:Eo.
      assert (during limit tok parse (BuildIndex corpus index bsz pos sched p) fs fs1) as H1 by (by eapply Hop).
      destruct r as [[f docs]|o1]; [|by injection H as <- _].
      destruct (as_database (fs1 !! corpus)) as [[cf cd]|] eqn:Ea; [|by injection H as <- _]. cbv zeta in H.
      change (match doc_table_of cf cd with None => index_without_docs | Some m => _ end) with (index_call tok bsz pos sched (doc_table_of cf cd)) in H.
      destruct (index_call tok bsz pos sched (doc_table_of cf cd) (open_index (rows f) p)) as [cn r] eqn:Er.
      injection H as <- _. eapply during_index; [exact Eo|exact Ea|congruence|exact Er|].
      assert (logged (index_call tok bsz pos sched (doc_table_of cf cd))) as HL.
      { unfold index_call. destruct (doc_table_of cf cd); [apply logged_run_index|apply logged_without_docs]. }
      specialize (HL (open_index (rows f) p)). rewrite Er in HL. by apply logs_end.
    - unfold run_model in H. destruct (fs !! index) as [src|] eqn:Et; [|injection H as <- _; constructor].
      destruct (open_path index fs) as [fs1 r] eqn:Eo.
      assert (during limit tok parse (Model index om yes g1 g2 p) fs fs1) as H1 by (by eapply Hop).
      destruct r as [[f docs]|o1]; [|by injection H as <- _].
      pose proof (logged_model om yes g1 g2 (open_index (rows f) p)) as HL.
      destruct (cli_model _ _ _ _ _) as [cn e] eqn:Er. injection H as <- _. eapply during_model; [exact Eo|exact Er|]. by apply logs_end.
    - unfold run_sample in H. destruct (fs !! corpus) as [src|]; [|injection H as <- _; constructor].
      destruct (fs !! index) as [src2|]; [|injection H as <- _; constructor].
      destruct (open_checked index fs) as [fs1 r] eqn:Eo.
      assert (during limit tok parse (SampleDocs corpus index output per g rest) fs fs1) as H1 by (by eapply Hoc).
      destruct r as [[f docs]|o1]; [|by injection H as <- _]. cbv zeta in H.
      assert (forall l, during limit tok parse (SampleDocs corpus index output per g rest) fs (<[output := PlainFile l]> fs1)) as H2.
      { intros l. by eapply during_output. }
      destruct (as_database (fs1 !! corpus)) as [[cf cd]|]; [destruct (rbind _ _) as [tb|e]|];
        injection H as <- _; try destruct rest; auto.
    - unfold run_export in H. destruct (fs !! index) as [src|]; [|injection H as <- _; constructor].
      destruct (open_checked index fs) as [fs1 r] eqn:Eo.
      assert (during limit tok parse (ExportClusters index output k) fs fs1) as H1 by (by eapply Hoc).
      destruct r as [[f docs]|o1]; [|by injection H as <- _]. injection H as <- _. by eapply during_output.
    - unfold run_request in H. destruct (fs !! index) as [src|]; [|injection H as <- _; constructor].
      destruct (open_checked index fs) as [fs1 r] eqn:Eo.
      assert (during limit tok parse (ServeRequest index v) fs fs1) as H1 by (by eapply Hoc).
      destruct r as [[f docs]|o1]; [|by injection H as <- _].
      assert (during limit tok parse (ServeRequest index v) fs (store index f docs (rows f) fs1)) as Hsame.
      { unfold store. assert (set_rows (rows f) f = f) as -> by (by destruct f).
        assert (<[index := DbFile f docs]> fs1 = fs1) as ->; [|done]. apply insert_id.
        apply open_checked_path in Eo as [Eo _]. unfold open_path in Eo. destruct (as_database _) as [[f0 d0]|]; [|done].
        destruct (open_file f0) as [f1 [u|e]]; [|done]. cbv zeta in Eo. destruct (has_tables f1); [|done]. injection Eo as <- <- <-.
        by rewrite lookup_insert. }
      unfold Web.serve in H. destruct (negb (q_post _)); [injection H as <- _; exact Hsame|].
      destruct (parse (q_index _)) as [i|]; [|injection H as <- _; exact Hsame].
      destruct (negb (i =? 0)%Z); [injection H as <- _; exact Hsame|].
      destruct (ensure_list _ _) as [ps|e] eqn:Ee; [|injection H as <- _; exact Hsame].
      destruct (negb (takes_all _ _)); [injection H as <- _; exact Hsame|].
      destruct (handle _ _ _ _ _ _) as [cn r] eqn:Er. injection H as <- _.
      eapply during_request; [exact Eo|exact Ee|exact Er|]. apply logs_end.
      pose proof (logged_handle parse (v_g1 v) (v_g2 v) (q_route (v_request v)) ps (open_index (rows f) (v_pool v))) as HL. by rewrite Er in HL.
  Qed.
End During.
