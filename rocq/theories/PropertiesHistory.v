(** PropertiesHistory.v: C16-C21. Vocabulary: History.v (calls, events, histories and
    nested programs), SpecHistory.v (the meaning of a nested program), SpecConn.v,
    SpecCluster.v. *)
From Verif Require Import HistoryProofs SampleDb PropertiesIndexing.

(** ** C16 *)
Theorem C16_every_write_all_or_nothing : forall w c,
  idle c -> usable (disk c) -> pool_works c ->
  (exists e, call_raises (run_write w) c e) \/ call_succeeds (run_write w) c tt (fun _ _ => True).
Proof. intros. by apply run_write_outcome. Qed.
Print Assumptions C16_every_write_all_or_nothing.

Example C16_example :
  (idle sample_conn2 /\ usable (disk sample_conn2) /\ pool_works sample_conn2) /\
  (run_write (CreateCluster [1; 99]%N) sample_conn2).2 = Err IntegrityError /\
  (run_write (CreateCluster [1; 4]%N) sample_conn2).2 = Ok tt /\
  cluster_ids (disk (run_write (CreateCluster [1; 99]%N) sample_conn2).1) = [0; 1]%Z /\
  cluster_ids (disk (run_write (CreateCluster [1; 4]%N) sample_conn2).1) = [0; 1; 2]%Z.
Proof.
  destruct sample_conn2_ready as (H1 & H2 & H3).
  split; [split_and!; [exact H1|by apply quiet_usable|exact H3]|]. split_and!; by_computation.
Qed.

(** ** C17 *)
(** Inside a transaction: the program acts on this connection as its meaning says, and
    other connections see nothing. *)
Theorem C17_nested_inside : forall p c, in_txn c = true -> 1 <= level c ->
  let '(d, r) := meaning p (cur c) in
  exists c', exec p c = (c', r) /\ cur c' = d /\
    disk c' = disk c /\ commits c' = commits c /\ stack c' = stack c /\ begun c' = begun c /\ level c' = level c.
Proof.
  intros p c Ht Hl. pose proof (exec_meaning p c Ht Hl) as H. destruct (meaning p (cur c)) as [d r]. cbn [fst snd] in H.
  eexists. split; [exact H|]. done.
Qed.
Print Assumptions C17_nested_inside.

(** Called from outside any transaction: one commit, of what the meaning says, after
    refreshing the summaries if some method declared as writing returned. *)
Theorem C17_nested_outermost : forall name w p c,
  idle c -> pool_works c ->
  let '(d, r) := meaning (Atomic name w p) (disk c) in
  usable d -> inverted_index d = inverted_index (disk c) ->
  exists c', exec (Atomic name w p) c = (c', r) /\ idle c' /\
    (if wrote (Atomic name w p) (disk c) then refreshed d (disk c') else disk c' = d) /\
    commits c' = disk c' :: commits c.
Proof.
  intros name w p c Hid Hp. cbn [meaning wrote exec].
  pose proof (exec_meaning p (pushed name c) (in_txn_pushed name c) ltac:(cbn; lia)) as H.
  change (cur (pushed name c)) with (cur c) in H. change (changed (pushed name c)) with (changed c) in H.
  rewrite (idle_cur c Hid), (idle_changed c Hid), orb_false_l in H.
  destruct (meaning p (disk c)) as [d1 [u|e]]; cbn [fst snd] in H; intros Hu Hi.
  - destruct (wrote p (disk c) || w) eqn:Ew.
    + destruct (atomic_outer_ok name w (exec p) c _ u Hid (contained_exec p) H) as (d & Hr & Hat); [done|done|done|done|].
      eexists. split; [exact Hat|]. split; [apply idle_committed|]. done.
    + apply orb_false_iff in Ew as [Ew ->]. rewrite Ew in H.
      eexists. split; [|split; [apply (idle_committed d1 (pool_pos c) c)|done]].
      pose proof (same_txn_eq _ _ (contained_exec p _ (in_txn_pushed name c) ltac:(cbn; lia))) as Ec.
      unfold atomic, pbind, sql_savepoint. rewrite (idle_eq c Hid) in H |- *.
      unfold pushed in H. cbn in H |- *. rewrite H.
      unfold atomic_finally. cbn. unfold sql_release. cbn. by destruct u; rewrite bool_decide_true by done.
  - destruct (wrote p (disk c)) eqn:Ew.
    + destruct (atomic_outer_err_changed name w (exec p) c _ e Hid (contained_exec p) H) as (d & Hr & Hat); [done|done|done|].
      eexists. split; [exact Hat|]. split; [apply idle_committed|]. done.
    + pose proof (atomic_outer_err name w (exec p) c _ e Hid (contained_exec p) H eq_refl) as Hat.
      eexists. split; [exact Hat|]. split; [apply idle_committed|]. done.
Qed.
Print Assumptions C17_nested_outermost.

(** An outer method that deletes cluster 0, calls a method that deletes cluster 1 and
    then fails, and survives: only cluster 0 goes. *)
Definition survivor : prog :=
  Atomic "outer" true
    (Then (Atomic "delete_clusters" true (Stmts (delete_clusters_body [0%Z])))
          (Try (Atomic "inner" true
                  (Then (Atomic "delete_clusters" true (Stmts (delete_clusters_body [1%Z]))) (Raise UserError)))
               (Stmts (dret tt)))).
Definition meaning_of_survivor : db := (meaning survivor sample_db).1.
Lemma survivor_usable : usable meaning_of_survivor /\ inverted_index meaning_of_survivor = inverted_index sample_db.
Proof.
  destruct sample_conn2_ready as (_ & Hq & _). apply quiet_usable in Hq. fold sample_db in Hq.
  destruct (delete_clusters_body_spec [0%Z] sample_db Hq) as (d1 & H1 & S1).
  destruct (delete_clusters_body_spec [1%Z] d1 (step_winv _ _ _ S1)) as (d2 & H2 & S2).
  assert (meaning_of_survivor = d1) as ->.
  { unfold meaning_of_survivor, survivor. cbn [meaning]. by rewrite H1, H2. }
  split; [apply S1|]. apply S1.
Qed.
Example C17_example :
  (idle sample_conn2 /\ pool_works sample_conn2 /\ usable meaning_of_survivor) /\
  (exec survivor sample_conn2).2 = Ok tt /\
  cluster_ids (disk (exec survivor sample_conn2).1) = [1]%Z /\ cluster_ids sample_db = [0; 1]%Z.
Proof.
  destruct sample_conn2_ready as (H1 & H2 & H3).
  split; [split_and!; [exact H1|exact H3|apply survivor_usable]|]. split_and!; by_computation.
Qed.

(** ** C18 *)
(** What holds: the call raises and nothing is committed; closing and opening the index
    again gives a free connection on the database from before the call. *)
Theorem C18_pool_failure_partial : forall w c k,
  idle c -> pool c (pool_pos c) = Some k ->
  exists e c', run_write w c = (c', Err e) /\ disk c' = disk c /\
    (forall d, crash_states c c' d -> d = disk c) /\ idle (reopen c') /\ disk (reopen c') = disk c.
Proof.
  intros w c k Hid Hp. destruct (write_pool_fails w c k Hid Hp) as [(e & c' & H & Hi & Hd & Hcr)|(c' & H & Hst & Hd & Hco)].
  - exists e, c'. split_and!; [done..| |done]. by constructor.
  - exists PoolError, c'. split_and!; [done..| | |done]; [|by constructor]. intros d Hx. by apply (crash_same _ _ _ Hco Hx).
Qed.
Print Assumptions C18_pool_failure_partial.

(** What does not: unless the call fails for another reason first, a transaction stays
    open, and whatever is called later on this object, nothing is ever committed. *)
Theorem C18_later_calls_lost : forall w c k es c' c'',
  idle c -> pool c (pool_pos c) = Some k -> run_write w c = (c', Err PoolError) -> ~ idle c' ->
  calls_only es -> history es c' c'' -> in_txn c' = true /\ disk c'' = disk c /\ commits c'' = commits c.
Proof.
  intros w c k es c' c'' Hid Hp Hrun Hni Hes Hh.
  destruct (write_pool_fails w c k Hid Hp) as [(e & c1 & H & Hi & Hd & Hcr)|(c1 & H & Hst & Hd & Hco)];
    rewrite H in Hrun; injection Hrun as <-; [done|].
  destruct (stuck_history es c1 c'' Hes Hst Hh) as (_ & H1 & H2). split; [apply Hst|]. by rewrite H1, H2.
Qed.
Print Assumptions C18_later_calls_lost.

Definition pool_fails_once : nat -> option nat := fun n => match n with 0 => Some 1 | _ => None end.
Definition sample_conn3 : conn := open_index sample_db pool_fails_once.
Theorem C18_failure_contained_refuted :
  ~ (forall w c k, idle c -> quiet (disk c) -> pool c (pool_pos c) = Some k ->
       in_txn (run_write w c).1 = false).
Proof.
  intros H. destruct sample_conn2_ready as (_ & Hq & _).
  pose proof (H (DeleteClusters [0%Z]) sample_conn3 1 (idle_open _ _) Hq eq_refl) as H1. clear H.
  assert (in_txn (run_write (DeleteClusters [0%Z]) sample_conn3).1 = true) as H2 by by_computation.
  rewrite H2 in H1. discriminate H1.
Qed.
Print Assumptions C18_failure_contained_refuted.

Example C18_example :
  let c1 := (run_write (DeleteClusters [0%Z]) sample_conn3).1 in
  let c2 := (run_write (DeleteClusters [1%Z]) c1).1 in
  (run_write (DeleteClusters [0%Z]) sample_conn3).2 = Err PoolError /\
  (run_write (DeleteClusters [1%Z]) c1).2 = Ok tt /\ in_txn c1 = true /\
  cluster_ids (cur c2) = [] /\ cluster_ids (disk c2) = [0; 1]%Z.
Proof. by_computation. Qed.

(** ** C19 *)
(** The opposite holds for every block: whatever is called in it, closing leaves the
    database of the beginning. *)
Theorem C19_context_manager_loses_everything : forall c c1 es c2,
  idle c -> enter c = (c1, Ok tt) -> calls_only es -> history es c1 c2 -> exit_and_close c2 = disk c.
Proof.
  intros c c1 es c2 Hid He Hes Hh. destruct (begin_stuck c c1 Hid He) as (Hs & Hd & _).
  destruct (stuck_history es c1 c2 Hes Hs Hh) as (_ & H & _). unfold exit_and_close. by rewrite H.
Qed.
Print Assumptions C19_context_manager_loses_everything.

Theorem C19_context_manager_keeps_refuted :
  ~ (forall w c c1 c2, idle c -> quiet (disk c) -> pool_works c ->
       enter c = (c1, Ok tt) -> run_write w c1 = (c2, Ok tt) -> exit_and_close c2 = cur c2).
Proof.
  intros H. destruct sample_conn2_ready as (H1 & H2 & H3).
  assert ((enter sample_conn2).2 = Ok tt) as E1 by by_computation.
  assert ((run_write (DeleteClusters [0%Z]) (enter sample_conn2).1).2 = Ok tt) as E2 by by_computation.
  specialize (H (DeleteClusters [0%Z]) sample_conn2 _ _ H1 H2 H3 (run_eq _ _ E1) (run_eq _ _ E2)).
  assert (cluster_ids (exit_and_close (run_write (DeleteClusters [0%Z]) (enter sample_conn2).1).1) = [0; 1]%Z) as Ha by by_computation.
  assert (cluster_ids (cur (run_write (DeleteClusters [0%Z]) (enter sample_conn2).1).1) = [1]%Z) as Hb by by_computation.
  apply (f_equal cluster_ids) in H. rewrite Ha in H. rewrite Hb in H. discriminate H.
Qed.
Print Assumptions C19_context_manager_keeps_refuted.

Example C19_example :
  (idle sample_conn2 /\ (enter sample_conn2).2 = Ok tt /\ calls_only [Write (DeleteClusters [0%Z])]) /\
  (run_write (DeleteClusters [0%Z]) (enter sample_conn2).1).2 = Ok tt.
Proof.
  split; [split_and!; [apply sample_conn2_ready|by_computation|]|by_computation].
  intros e He. apply elem_of_list_singleton in He as ->. exact I.
Qed.

(** ** C20 *)
(** [steady]: a free connection, summaries up to date, one row per feature, a pool that
    works; in particular a new index. *)
Lemma new_index_steady p : (forall n, p n = None) -> steady (open_index empty_db p).
Proof.
  intros Hp. split; [apply idle_open| | |done].
  - apply quiet_unclustered; by_computation.
  - intros f g rf rg H. change (inverted_index (disk (open_index empty_db p))) with (∅ : gmap N feature_row) in H.
    by rewrite lookup_empty in H.
Qed.

Theorem C20_summaries_after_any_history : forall es c c',
  steady c -> no_index_crash es -> history es c c' ->
  let d := disk c' in
  cur c' = d /\ changed_cluster d = ∅ /\
  (forall x, x ∈ cluster_ids d <-> members d x ≠ ∅) /\
  (forall x row, cluster d !! x = Some row -> summary_correct d x row) /\
  (forall f row, feature_cluster d !! f = Some row -> fc_docs_count row = N.of_nat (size (feature_docs d f))).
Proof.
  intros es c c' Hs Hno Hh d. subst d. destruct (steady_history es c c' Hno Hs Hh) as [Hid [(R1 & R2 & R3) (S1 & S2 & S3)] _ _].
  split_and!; [apply Hid|done| |done|].
  - intros x. rewrite <- S2. unfold cluster_ids, z_list. rewrite merge_sort_Permutation, elem_of_elements. apply elem_of_dom.
  - intros f row Hf. destruct (R1 f row Hf) as [(ii & Hii & ->) _]. rewrite (R2 f ii Hii). unfold feature_docs. by rewrite Hii.
Qed.
Print Assumptions C20_summaries_after_any_history.

(** Whatever goes wrong (the process stops during [index], the pool fails): the committed
    database is one from which the next successful modifying call on a fresh connection
    makes all summaries right. *)
Theorem C20_summaries_recover : forall es c c' w c'',
  robust c -> history es c c' -> (forall n, pool c' n = None) ->
  run_write w (open_index (disk c') (pool c')) = (c'', Ok tt) -> quiet (disk c'').
Proof.
  intros es c c' w c'' Hr Hh Hp Hrun. pose proof (robust_history es c c' Hr Hh) as [Hu _ _].
  destruct (run_write_outcome w (open_index (disk c') (pool c')) (idle_open _ _) Hu (Hp _))
    as [(e & c1 & H & _)|(c1 & H & _ & Hq & _)]; congruence.
Qed.
Print Assumptions C20_summaries_recover.

(** A history: index, cluster, merge with an error, index another corpus, crash. *)
Definition story : list event := [
  IndexCorpus 2 true corpus1 (backwards 2);
  Write (Initialise 2 0 [] rng0);
  Write (MergeClusters []);
  Write (CreateCluster [1]%N);
  IndexCorpus 1 true corpus2 (in_order 1);
  CrashDuring (DeleteClusters [0]%Z)].
Definition story_end : conn := Eval cbv delta [story] in
  open_index (disk (run_index 1 true corpus2 (in_order 1)
    (run_write (CreateCluster [1]%N) (run_write (MergeClusters []) (run_write (Initialise 2 0 [] rng0) conn1).1).1).1).1) pool_ok.
Lemma story_happens : history story conn0 story_end.
Proof.
  eapply history_cons; [apply happens_index, complete_backwards|]. fold conn1.
  eapply history_cons; [apply happens_write|].
  eapply history_cons; [apply happens_write|].
  eapply history_cons; [apply happens_write|].
  eapply history_cons; [apply happens_index, complete_in_order|].
  eapply history_cons; [|apply history_nil].
  unfold story_end.
  match goal with |- happens _ ?c (open_index ?d _) =>
    assert (pool_ok = pool c) as E by reflexivity; rewrite E; apply happens_crash; left; reflexivity end.
Qed.
Example C20_example :
  (steady conn0 /\ no_index_crash story /\ history story conn0 story_end) /\
  size (inverted_index (disk story_end)) = 6 /\ cluster_ids (disk story_end) = [0; 1; 2]%Z.
Proof.
  split; [split_and!; [by apply new_index_steady| |apply story_happens]|].
  - intros bsz pos cp s Hin. unfold story in Hin. rewrite !elem_of_cons in Hin. by destruct Hin as [H|[H|[H|[H|[H|[H|H]]]]]]; [..|apply elem_of_nil in H].
  - split_and!; by_computation.
Qed.

(** ** C21 *)
Theorem C21_model_is_a_partition : forall es c c',
  steady c -> no_index_crash es -> history es c c' ->
  let d := disk c' in
  (forall f x, assigned d f = Some x -> x ∈ cluster_ids d /\ is_Some (inverted_index d !! f)) /\
  (forall f x, f ∈ members d x <-> assigned d f = Some x) /\
  (forall f x y, f ∈ members d x -> f ∈ members d y -> x = y) /\
  (forall x, x ∈ cluster_ids d <-> members d x ≠ ∅) /\ NoDup (cluster_ids d).
Proof.
  intros es c c' Hs Hno Hh d. subst d. destruct (steady_history es c c' Hno Hs Hh) as [Hid [(R1 & R2 & R3) (S1 & S2 & S3)] _ _].
  set (d := disk c') in *.
  assert (forall x, x ∈ cluster_ids d <-> is_Some (cluster d !! x)) as Hc.
  { intros x. unfold cluster_ids, z_list. rewrite merge_sort_Permutation, elem_of_elements. apply elem_of_dom. }
  assert (forall f x, f ∈ members d x <-> assigned d f = Some x) as Hm by (intros; apply members_assigned).
  split_and!; [|done| | |].
  - intros f x. unfold assigned. intros (row & H & ->)%fmap_Some. destruct (R1 f row H) as [(ii & Hii & _) Hx].
    split; [by apply Hc|by exists ii].
  - intros f x y Hx%Hm Hy%Hm. congruence.
  - intros x. by rewrite Hc, S2.
  - unfold cluster_ids, z_list. rewrite merge_sort_Permutation. apply NoDup_elements.
Qed.
Print Assumptions C21_model_is_a_partition.

Example C21_example :
  (steady conn0 /\ no_index_crash story /\ history story conn0 story_end) /\
  members (disk story_end) 2 = {[1]}%N /\ ~ (1 ∈ members (disk story_end) 1)%N.
Proof. split; [apply C20_example|]. split; by_computation. Qed.
