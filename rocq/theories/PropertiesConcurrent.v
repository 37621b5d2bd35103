(** PropertiesConcurrent.v: C84-C89: several clients at the same time. Vocabulary:
    Concurrent.v (clients, transactions, executions), Clients.v (which transactions the
    calls are), SpecConcurrent.v (one at a time), SpecClients.v, SpecIndexing.v. *)
From Verif Require Import ClientProofs PropertiesIndexing.
From Verif Require Import PropertiesWeb.

(** ** C84 *)
(** Whatever transactions clients run and however they are interleaved, refused or given up:
    those that ended had the outcomes and the effect they have one at a time in some order
    that respects time, except reading ones whose workers read different databases. *)
Theorem C84_serialisable : forall A (d : db) (tr : list (action A)) w,
  execution tr (start d) w ->
  exists order, order ≡ₚ filter coherent (w_log w) /\ in_time_order order /\ one_at_a_time d order (w_disk w) /\
    forall e, e ∈ w_log w -> e_locked e = true \/ t_workers (e_txn e) = false -> coherent e.
Proof.
  intros A d tr w H. destruct (serialisable d tr w H) as (order & G). exists order.
  split_and!; [apply G..|]. intros e He Hor. pose proof (g_coherent _ _ _ G) as Hc. rewrite Forall_forall in Hc.
  by rewrite (Hc e He Hor).
Qed.
Print Assumptions C84_serialisable.

(** The database changes only when a transaction that holds the lock ends; one that is
    refused or given up changes nothing. *)
Theorem C84_only_commits_change : forall A (a : action A) w w',
  Concurrent.step a w w' -> w_disk w' ≠ w_disk w ->
  exists i s e, a = End i /\ w_sessions w !! i = Some s /\ s_locked s = true /\
    w_log w' = w_log w ++ [e] /\ e_txn e = s_txn s.
Proof.
  intros A a w w' H Hd. inversion H as [| | | | | |i w1 s r d v Hi Hl Hr Hv]; subst; try done.
  exists i, s. eexists. split_and!; [done|done|done|reflexivity|done].
Qed.
Print Assumptions C84_only_commits_change.

(** At most one transaction holds the lock. *)
Theorem C84_one_writer : forall A (d : db) (tr : list (action A)) w i j si sj,
  execution tr (start d) w -> w_sessions w !! i = Some si -> w_sessions w !! j = Some sj ->
  s_locked si = true -> s_locked sj = true -> i = j.
Proof. intros A d tr w i j si sj H. destruct (serialisable d tr w H) as (order & G). apply (g_exclusive _ _ _ G). Qed.
Print Assumptions C84_one_writer.

(** Nobody waits for ever: whoever holds the lock can end, and if nobody does, a
    transaction that sees the newest database can take it; so can every new one. *)
Theorem C84_no_deadlock : forall A (d : db) (tr : list (action A)) w i s,
  execution tr (start d) w -> w_sessions w !! i = Some s ->
  (exists j sj w', w_sessions w !! j = Some sj /\ s_locked sj = true /\ Concurrent.step (End j) w w') \/
  (unlocked w /\ (s_version s = w_version w -> exists w', Concurrent.step (TakeLock i) w w') /\
   forall j t, w_sessions w !! j = None -> exists w1 w2, Concurrent.step (Begin j t) w w1 /\ Concurrent.step (TakeLock j) w1 w2).
Proof.
  intros A d tr w i s H Hi. destruct (lock_free w) eqn:Ef.
  - right. apply lock_free_iff in Ef. split; [done|]. split.
    + intros Hv. eexists. by apply step_lock.
    + intros j t Hj. eexists _, _. split; [by apply step_begin|]. eapply step_lock; cbn; [by rewrite lookup_insert| |done].
      intros k sk. cbn. destruct (decide (j = k)) as [<-|Hne]; [rewrite lookup_insert; by intros [= <-]|].
      rewrite lookup_insert_ne by done. apply Ef.
  - left. destruct (lock_held w Ef) as (j & sj & Hin & Hl).
    destruct (t_run (s_txn sj) (s_sees sj) (s_seen sj)) as [dd r] eqn:Er.
    exists j, sj. eexists. split_and!; [done|done|]. eapply step_end_write; [done|done|done|by left].
Qed.
Print Assumptions C84_no_deadlock.

(** Two clients delete different clusters at the same time while a third looks something up:
    the second one to write is refused since its view is outdated, and succeeds when it
    tries again. *)
Definition delete0 : txn outcome := write_txn (DeleteClusters [0%Z]) pool_ok (fun d _ => (d, Ok Finished)).
Definition delete1 : txn outcome := write_txn (DeleteClusters [1%Z]) pool_ok (fun d _ => (d, Ok Finished)).
Definition look_up : txn outcome := lookup_txn (KId 2) (fun d _ => (d, Ok Finished)).
Definition busy_trace : list (action outcome) :=
  [Begin 0 delete0; Begin 1 delete1; Begin 2 look_up; TakeLock 0; WorkerRead 0; End 0; Refused 1; End 2;
   Begin 1 delete1; TakeLock 1; WorkerRead 1; End 1].
Definition observe (w : world outcome) : list Z * list (nat * res outcome * bool) :=
  (cluster_ids (w_disk w), (fun e => (e_client e, e_result e, e_locked e)) <$> w_log w).
Example C84_example : exists w, execution busy_trace (start sample_db) w /\
  observe w = ([], [(0, Ok Finished, true); (2, Ok (Found (Some {[1; 3]}%N)), false); (1, Ok Finished, true)]) /\
  cluster_ids sample_db = [0; 1]%Z.
Proof.
  destruct (play busy_trace (start sample_db)) as [w|] eqn:E.
  - exists w. split; [by apply play_execution|]. assert (observe <$> play busy_trace (start sample_db) = Some (observe w)) as H by by rewrite E.
    split; [|by_computation]. apply (inj Some). rewrite <- H. by_computation.
  - exfalso. assert (is_Some (observe <$> play busy_trace (start sample_db))) as H by by_computation. rewrite E in H. by destruct H.
Qed.

(** ** C85 *)
(** The requests served and their answers, in an order respecting time, are those of serving
    them one at a time. *)
Theorem C85_requests_one_at_a_time_partial : forall parse d (tr : list (action outcome)) w,
  execution tr (start d) w ->
  only (fun t => exists v torn, t = request_txn parse v torn /\ q_route (v_request v) ≠ RRecreate) tr ->
  exists order vs answers, order ≡ₚ filter coherent (w_log w) /\ in_time_order order /\
    Forall2 (fun e v => exists torn, e_txn e = request_txn parse v torn) order vs /\
    e_result <$> order = (fun a => Ok (Answered a)) <$> answers /\
    serve_all parse vs d = (w_disk w, answers).
Proof.
  intros parse d tr w H Ho. pose proof (log_started _ _ _ _ H Ho) as Hl.
  destruct (serialisable d tr w H) as (order & G). exists order.
  assert (Forall (fun e => exists v torn, e_txn e = request_txn parse v torn /\ q_route (v_request v) ≠ RRecreate) order) as Hf.
  { rewrite (g_log _ _ _ G). apply Forall_forall. intros e He. apply elem_of_list_filter in He as [_ He]. rewrite Forall_forall in Hl. by apply Hl. }
  enough (exists vs answers, Forall2 (fun e v => exists torn, e_txn e = request_txn parse v torn) order vs /\
    e_result <$> order = (fun a => Ok (Answered a)) <$> answers /\ serve_all parse vs d = (w_disk w, answers)) as (vs & answers & ?).
  { exists vs, answers. split; [apply G|]. split; [apply G|done]. }
  pose proof (g_run _ _ _ G) as Hr. clear -Hr Hf. induction Hr as [d|d e d1 es d2 He _ IH].
  - exists [], []. split_and!; [constructor|done|done].
  - apply Forall_cons in Hf as [(v & torn & Et & _) Hf]. destruct (IH Hf) as (vs & answers & H1 & H2 & H3).
    rewrite Et in He. cbn in He. destruct (serve parse (v_pool v) (v_g1 v) (v_g2 v) (v_request v) d) as [d' a] eqn:Es.
    injection He as -> He. exists (v :: vs), (a :: answers). split_and!.
    + constructor; [by exists torn|done].
    + cbn. by rewrite H2, He.
    + cbn. by rewrite Es, H3.
Qed.
Print Assumptions C85_requests_one_at_a_time_partial.

(** [recreate_model] is two calls. Between them another request may come, and the result is
    that of no order of the two requests. *)
Definition recreate : visit :=
  Visit (post_request RRecreate (<["clusters" := One (Text "2")]> {["min_docs" := One (Text "1")]})) pool_ok rng0 rng0.
Definition drop0 : visit := Visit (post_request RDelete {["cluster_id" := One (Text "0")]}) pool_ok rng0 rng0.
Definition as_written : behaviour := fun d _ => (d, Ok Finished).
Definition recreate_first : txn outcome := write_txn (Initialise 2 1 [] rng0) pool_ok as_written.
Definition recreate_second : txn outcome := write_txn (RefineClusters (refine_with 10 None 1 None) rng0) pool_ok as_written.
Definition between_trace : list (action outcome) :=
  [Begin 0 recreate_first; TakeLock 0; WorkerRead 0; End 0;
   Begin 1 (request_txn digits drop0 as_written); TakeLock 1; WorkerRead 1; End 1;
   Begin 0 recreate_second; WorkerRead 0; TakeLock 0; WorkerRead 0; End 0].
Definition clustering (d : db) : list (N * Z) :=
  (fun kv : N * fc_row => (kv.1, fc_cluster kv.2)) <$> map_to_list (feature_cluster d).
Definition between_outcome : option (list (N * Z) * list (res outcome)) :=
  (fun w => (clustering (w_disk w), e_result <$> w_log w)) <$> play between_trace (start sample_db).
Theorem C85_requests_one_at_a_time_refuted :
  (* alone, the request is these two calls *)
  clustering (serve_all digits [recreate] sample_db).1
    = clustering (t_alone recreate_second (t_alone recreate_first sample_db).1).1 /\
  (serve_all digits [recreate] sample_db).2 = [Redirect ToIndex] /\
  (* both requests succeed, and the result is that of neither order *)
  exists w, execution between_trace (start sample_db) w /\
    e_result <$> w_log w = [Ok Finished; Ok (Answered (Redirect ToIndex)); Ok Finished] /\
    forall vs, vs ≡ₚ [recreate; drop0] -> (serve_all digits vs sample_db).1 ≠ w_disk w.
Proof.
  split; [by_computation|]. split; [by_computation|].
  destruct (play between_trace (start sample_db)) as [w|] eqn:E.
  - exists w. split; [by apply play_execution|].
    assert (between_outcome = Some (clustering (w_disk w), e_result <$> w_log w)) as H by (unfold between_outcome; by rewrite E).
    assert (between_outcome = Some ([(1%N, 1%Z); (3%N, 1%Z)], [Ok Finished; Ok (Answered (Redirect ToIndex)); Ok Finished])) as H' by by_computation.
    rewrite H in H'. injection H' as H1 H2. split; [done|]. intros vs Hp Heq.
    apply (f_equal clustering) in Heq. rewrite H1 in Heq. clear -Hp Heq. symmetry in Hp.
    apply Permutation_length_2_inv in Hp as [-> | ->]; revert Heq.
    + assert (clustering (serve_all digits [recreate; drop0] sample_db).1 = [(3%N, 1%Z); (2%N, 1%Z)]) as -> by by_computation. done.
    + assert (clustering (serve_all digits [drop0; recreate] sample_db).1 = [(1%N, 0%Z); (3%N, 1%Z); (5%N, 0%Z); (2%N, 1%Z); (4%N, 0%Z)]) as -> by by_computation. done.
  - exfalso. assert (is_Some between_outcome) as H by by_computation. unfold between_outcome in H. rewrite E in H. by destruct H.
Qed.
Print Assumptions C85_requests_one_at_a_time_refuted.

Example C85_example :
  let rename : visit := Visit (post_request RCreate {["feature_id" := Several [Text "1"; Text "2"]]}) pool_ok rng0 rng0 in
  let tr := [Begin 0 (request_txn digits drop0 as_written); Begin 1 (request_txn digits rename as_written); TakeLock 1; WorkerRead 1;
             End 1; Refused 0; Begin 0 (request_txn digits drop0 as_written); TakeLock 0; End 0] in
  only (fun t => exists v torn, t = request_txn digits v torn /\ q_route (v_request v) ≠ RRecreate) tr /\
  (fun w => observe w) <$> play tr (start sample_db)
    = Some ([1; 2]%Z, [(1, Ok (Answered (Redirect (ToCluster (One (Int 2))))), true); (0, Ok (Answered (Redirect ToIndex)), true)]).
Proof.
  cbv zeta. split; [|by_computation]. intros i x Hx. repeat (apply elem_of_cons in Hx as [Hx|Hx]; [try discriminate Hx; injection Hx as -> ->; by eexists _, _|]).
  by apply elem_of_nil in Hx.
Qed.

(** ** C86 *)
(** At every moment of every execution the database is sound; it holds exactly the corpus of
    the last re-indexing; and once a change to the clustering or the second part of a
    re-indexing has succeeded after it, all summaries are right. *)
Theorem C86_sound_under_concurrency : forall parse d (tr : list (action outcome)) w,
  usable d -> features_unique (inverted_index d) -> execution tr (start d) w -> only (client_txn parse) tr ->
  usable (w_disk w) /\ features_unique (inverted_index (w_disk w)) /\
  exists order, order ≡ₚ filter coherent (w_log w) /\ in_time_order order /\
    forall pre e post, order = pre ++ e :: post -> (forall x cp, x ∈ post -> ~ installed x cp) ->
      (forall cp, installed e cp -> index_of (w_disk w) cp) /\
      (updated e -> quiet (w_disk w)).
Proof.
  intros parse d tr w Hu Hf H Ho. pose proof (log_started _ _ _ _ H Ho) as Hl.
  destruct (serialisable d tr w H) as (order & G).
  assert (Forall (fun e => client_txn parse (e_txn e)) order) as Hc.
  { rewrite (g_log _ _ _ G). apply Forall_forall. intros e He. apply elem_of_list_filter in He as [_ He]. rewrite Forall_forall in Hl. by apply Hl. }
  pose proof (g_run _ _ _ G) as Hr. assert (sound d) as Hs by done.
  destruct (client_run _ _ _ _ Hr Hc Hs) as [H1 H2]. split_and!; [done|done|]. exists order.
  split; [apply G|]. split; [apply G|]. intros pre e post E Hn. split.
  - intros cp Hm. by eapply client_run_contents.
  - intros Hup. by eapply client_run_updated.
Qed.
Print Assumptions C86_sound_under_concurrency.

(** [index] alone is its two transactions, the second one only if the first returns. *)
Theorem C86_index_is_two_transactions : forall bsz pos cp s d p torn torn',
  usable d -> features_unique (inverted_index d) -> complete s (length (batches bsz cp)) ->
  let '(c, r) := run_index bsz pos cp s (open_index d p) in
  match t_alone (merge_txn bsz pos cp s torn) d with
  | (d1, Ok _) => t_alone (refresh_txn p torn') d1 = (disk c, rmap (fun _ => Finished) r)
  | (d1, Err e) => disk c = d1 /\ r = Err e
  end.
Proof. intros. by apply run_index_two. Qed.
Print Assumptions C86_index_is_two_transactions.

(** Re-indexing while clusters are deleted: the delete comes between the two parts of the
    re-indexing. *)
Definition conn1c : conn := (initialise_clusters 2 1 [] rng0 conn1).1.
Definition merge2 : txn outcome := merge_txn 1 true corpus2 (in_order 1) as_written.
Definition reindex_trace : list (action outcome) :=
  [Begin 0 merge2; TakeLock 0; Begin 1 delete1; End 0; Refused 1; Begin 1 delete1; Begin 0 (refresh_txn pool_ok as_written);
   TakeLock 1; WorkerRead 1; End 1; Refused 0; Begin 0 (refresh_txn pool_ok as_written); TakeLock 0; WorkerRead 0; End 0].
Example C86_example : only (client_txn digits) reindex_trace /\
  (fun w => (cluster_ids (w_disk w), changed_cluster (w_disk w), getitem (w_disk w) (KFeature ("text", t "d")), e_result <$> w_log w))
    <$> play reindex_trace (start (disk conn1c))
  = Some ([0%Z], ∅, Some {[0%N]}, [Ok Finished; Ok Finished; Ok Finished]) /\
  getitem (disk conn1c) (KFeature ("text", t "d")) = Some ∅ /\ cluster_ids (disk conn1c) = [0; 1]%Z.
Proof.
  split; [|by_computation]. intros i x Hx.
  repeat (apply elem_of_cons in Hx as [Hx|Hx]; [try discriminate Hx; injection Hx as -> ->; first [apply uses_write|apply uses_refresh|apply uses_merge; apply complete_in_order]|]).
  by apply elem_of_nil in Hx.
Qed.

(** ** C87 *)
(** A lookup during any number of re-indexings and other calls gives what the index held
    before them, or exactly what one of the new corpora says; never a mixture. *)
Theorem C87_lookup_sees_one_index : forall parse d (tr : list (action outcome)) w e field v torn r,
  usable d -> features_unique (inverted_index d) -> execution tr (start d) w -> only (client_txn parse) tr ->
  e ∈ w_log w -> e_txn e = lookup_txn (KFeature (field, v)) torn -> e_result e = r ->
  exists docs, r = Ok (Found (Some docs)) /\
    (getitem d (KFeature (field, v)) = Some docs \/
     exists m cp, m ∈ w_log w /\ installed m cp /\ forall doc, doc ∈ docs <-> doc_matches cp field v doc).
Proof.
  intros parse d tr w e field v torn r Hu Hf H Ho He Et <-. pose proof (log_started _ _ _ _ H Ho) as Hl.
  destruct (serialisable d tr w H) as (order & G).
  assert (Forall (fun e => client_txn parse (e_txn e)) order) as Hc.
  { rewrite (g_log _ _ _ G). apply Forall_forall. intros x Hx. apply elem_of_list_filter in Hx as [_ Hx]. rewrite Forall_forall in Hl. by apply Hl. }
  assert (e ∈ order) as Hin.
  { rewrite (g_log _ _ _ G). apply elem_of_list_filter. split; [|done]. pose proof (g_coherent _ _ _ G) as Hco. rewrite Forall_forall in Hco.
    rewrite (Hco e He); [done|]. right. by rewrite Et. }
  apply elem_of_list_split in Hin as (pre & post & E). pose proof (g_run _ _ _ G) as Hr. rewrite E in Hr, Hc.
  apply one_app in Hr as (d1 & H1 & H2). apply Forall_app in Hc as [Hc1 _]. inversion H2 as [|? ? d2 ? ? Hal _]; subst.
  rewrite Et in Hal. cbn [t_alone lookup_txn] in Hal. apply (f_equal snd) in Hal. cbn [snd] in Hal. rewrite <- Hal.
  assert (exists docs, getitem d1 (KFeature (field, v)) = Some docs) as [docs Hd] by (by eexists).
  exists docs. split; [by rewrite Hd|].
  destruct (client_run_which _ _ _ _ H1 Hc1 (conj Hu Hf)) as [Ei|(m & cp & Hm & Hi & Hx)].
  - left. by rewrite <- (getitem_index _ _ _ Ei).
  - right. exists m, cp. split_and!; [|done|].
    + assert (m ∈ filter coherent (w_log w)) as Hmf; [|by apply elem_of_list_filter in Hmf as [_ Hmf]].
      rewrite <- (g_log _ _ _ G), elem_of_app. by left.
    + destruct (Hx field v) as (docs' & Hd' & Hiff). rewrite Hd in Hd'. by injection Hd' as <-.
Qed.
Print Assumptions C87_lookup_sees_one_index.

Definition look_b : txn outcome := lookup_txn (KFeature ("text", t "b")) as_written.
Definition reading_trace : list (action outcome) :=
  [Begin 0 merge2; TakeLock 0; Begin 1 look_b; End 1; Begin 1 look_b; End 0; End 1; Begin 1 look_b; End 1].
Example C87_example : only (client_txn digits) reading_trace /\
  (fun w => e_result <$> w_log w) <$> play reading_trace (start (disk conn1))
  = Some [Ok (Found (Some {[0; 2]}%N)); Ok Finished; Ok (Found (Some {[0; 2]}%N)); Ok (Found (Some ∅))].
Proof.
  split; [|by_computation]. intros i x Hx.
  repeat (apply elem_of_cons in Hx as [Hx|Hx]; [try discriminate Hx; injection Hx as -> ->; first [apply uses_lookup|apply uses_merge; apply complete_in_order]|]).
  by apply elem_of_nil in Hx.
Qed.

(** ** C88 *)
(** A search for passages uses worker processes. If nothing is committed while it runs, its
    result is that of the database it sees ... *)
Lemma score_torn_same sorter arrival d seen clauses w : Forall (fun x => d = x) seen ->
  score_passages_torn sorter arrival d seen clauses w = score_passages_dnf sorter arrival d clauses w.
Proof.
  intros H. unfold score_passages_torn, score_passages_dnf. destruct (resolve_clauses d clauses) as [rcl|]; [|done]. cbn.
  f_equal. generalize arrival. intros l. assert (forall k, default d (seen !! k) = d) as Hd.
  { intros k. destruct (seen !! k) as [x|] eqn:E; [|done]. rewrite Forall_lookup in H. cbn. symmetry. by eapply H. }
  assert (forall (f : nat -> nat), rtraverse (fun '(k, i) => match passage_jobs d rcl !! i with
    | Some (field, first) => score_partition sorter (default d (seen !! k)) field first (field_query field rcl) w
    | None => Err IndexError end) (imap (fun k i => (f k, i)) l) = rtraverse (fun i => match passage_jobs d rcl !! i with
    | Some (field, first) => score_partition sorter d field first (field_query field rcl) w
    | None => Err IndexError end) l) as Hg; [|apply (Hg id)].
  induction l as [|i l IH]; intros f; [done|]. cbn. rewrite Hd.
  specialize (IH (f ∘ S)). unfold compose in IH. unfold compose. by rewrite IH.
Qed.
Lemma filter_contained {A} (l : list (entry A)) : filter coherent l ⊆+ l.
Proof.
  induction l as [|e l IH]; [done|]. destruct (decide (coherent e)).
  - rewrite filter_cons_True by done. by apply submseteq_skip.
  - rewrite filter_cons_False by done. by apply submseteq_cons.
Qed.
Theorem C88_undisturbed_partial : forall d (tr : list (action outcome)) w sorter arrival clauses window e,
  execution tr (start d) w -> e ∈ w_log w -> e_txn e = passages_txn sorter arrival clauses window ->
  (forall x, x ∈ e_reads e -> x = e_sees e) ->
  exists before d', one_at_a_time d before d' /\ e :: before ⊆+ w_log w /\
    e_result e = rmap Scored (score_passages_dnf sorter arrival d' clauses window).
Proof.
  intros d tr w sorter arrival clauses window e H He Et Hx. destruct (serialisable d tr w H) as (order & G).
  assert (forall b, b ∈ order <-> b ∈ filter coherent (w_log w)) as Hin by (intros b; by rewrite (g_log _ _ _ G)).
  assert (e ∈ order) as Ho.
  { apply Hin, elem_of_list_filter. split; [|done]. unfold coherent. apply bool_decide_pack, Forall_forall. intros x Hr. symmetry. by apply Hx. }
  apply elem_of_list_split in Ho as (pre & post & E). pose proof (g_run _ _ _ G) as Hr. rewrite E in Hr.
  apply one_app in Hr as (d1 & H1 & H2). inversion H2 as [|? ? d2 ? ? Hal _]; subst.
  exists pre, d1. split_and!; [done| |].
  - transitivity (filter coherent (w_log w)); [|apply filter_contained].
    rewrite <- (g_log _ _ _ G), <- Permutation_middle. apply submseteq_skip, submseteq_inserts_r. done.
  - rewrite Et in Hal. cbn [t_alone passages_txn] in Hal. apply (f_equal snd) in Hal. cbn [snd] in Hal. done.
Qed.
Print Assumptions C88_undisturbed_partial.

(** ... otherwise it can be the result of no database that ever existed: *)
Definition corpus_x : corpus := [(t "k0", Ok [("text", Seq [Some (t "x"); Some (t "x")])]); (t "k1", Ok [("text", Seq [Some (t "x"); Some (t "x")])])].
Definition corpus_y : corpus := [(t "k0", Ok [("text", Seq [Some (t "y"); Some (t "y")])]); (t "k1", Ok [("text", Seq [Some (t "y"); Some (t "y")])])].
Definition conn_x : conn := (run_index 1 true corpus_x (in_order 2) conn0).1.
Definition search_x : txn outcome := passages_txn (fun l => l) [0; 1] [[ByKey "text" (t "x")]] 5.
Definition merge_y : txn outcome := merge_txn 1 true corpus_y (in_order 2) as_written.
Definition torn_trace : list (action outcome) :=
  [Begin 0 search_x; WorkerRead 0; Begin 1 merge_y; TakeLock 1; End 1; WorkerRead 0; End 0].
Definition torn_outcome : option (list (res outcome) * res outcome * res outcome * bool) :=
  (fun w => (e_result <$> w_log w, (t_alone search_x (disk conn_x)).2, (t_alone search_x (w_disk w)).2,
             bool_decide (w_disk w = (t_alone merge_y (disk conn_x)).1))) <$> play torn_trace (start (disk conn_x)).
Definition one_x : list passage := [("text", 0%N, 1%N, 2)].
Lemma torn_outcome_is : torn_outcome =
  Some ([Ok Finished; Ok (Scored {[1%N := one_x]})], Ok (Scored (<[1%N := one_x]> {[0%N := one_x]})), Ok (Scored ∅), true).
Proof. by_computation. Qed.
Lemma torn_client : only (client_txn digits) torn_trace.
Proof.
  intros i x Hx.
  repeat (apply elem_of_cons in Hx as [Hx|Hx]; [try discriminate Hx; injection Hx as -> ->; first [apply uses_passages|apply uses_merge; apply complete_in_order]|]).
  by apply elem_of_nil in Hx.
Qed.
Lemma torn_log D (t1 t2 : txn outcome) w : t_workers t1 = true ->
  play [Begin 0 t1; WorkerRead 0; Begin 1 t2; TakeLock 1; End 1; WorkerRead 0; End 0] (start D) = Some w ->
  exists m e, w_log w = [m; e] /\ e_txn m = t2 /\ e_txn e = t1.
Proof.
  intros Hw H. cbn -[lock_free t_run] in H. rewrite lookup_empty in H. cbn -[lock_free t_run] in H.
  rewrite lookup_insert in H. cbn -[lock_free t_run] in H. rewrite Hw in H. cbn -[lock_free t_run] in H.
  rewrite insert_insert in H. rewrite lookup_insert_ne, lookup_empty in H by done. cbn -[lock_free t_run] in H.
  rewrite lookup_insert in H. destruct (lock_free _); [|discriminate H]. cbn -[lock_free t_run] in H.
  rewrite insert_insert, lookup_insert in H. cbn -[lock_free t_run] in H.
  destruct (t_run t2 D []) as [d1 r1]. cbn -[lock_free t_run] in H.
  rewrite delete_insert in H by (by rewrite lookup_insert_ne by done).
  rewrite lookup_insert in H. cbn -[lock_free t_run] in H. rewrite Hw in H. cbn -[lock_free t_run] in H.
  rewrite insert_insert, lookup_insert in H. cbn -[lock_free t_run] in H.
  destruct (t_run t1 D [D; d1]) as [d2 r2]. destruct (bool_decide (d2 = D)); [|discriminate H]. injection H as <-.
  cbn. eexists _, _. split_and!; [reflexivity|done|done].
Qed.
Theorem C88_passages_see_one_index_refuted :
  ~ (forall d (tr : list (action outcome)) w sorter arrival clauses window e,
       execution tr (start d) w -> only (client_txn digits) tr -> e ∈ w_log w ->
       e_txn e = passages_txn sorter arrival clauses window ->
       exists before d', one_at_a_time d before d' /\ e :: before ⊆+ w_log w /\
         e_result e = rmap Scored (score_passages_dnf sorter arrival d' clauses window)).
Proof.
  intros H. pose proof torn_outcome_is as Ht. unfold torn_outcome in Ht.
  generalize dependent (disk conn_x). intros D Ht.
  destruct (play torn_trace (start D)) as [w|] eqn:E; [|discriminate Ht]. cbn [fmap option_fmap option_map] in Ht.
  pose proof (play_execution _ _ _ E) as Hex.
  assert (exists d' r m e, w_log w = [m; e] /\ e_txn m = merge_y /\ e_txn e = search_x /\ t_alone merge_y D = (d', r)) as (d' & r & m & e & Hl & Hm & He & Ha).
  { destruct (torn_log D search_x merge_y w eq_refl E) as (m & e & ? & ? & ?).
    destruct (t_alone merge_y D) as [d' r]. exists d', r, m, e. split; [assumption|]. split; [assumption|]. split; [assumption|reflexivity]. }
  rewrite Hl in Ht. cbn [fmap list_fmap] in Ht. rewrite Ha in Ht. cbn [fst] in Ht.
  remember ((t_alone search_x D).2) as ro eqn:Ero. remember ((t_alone search_x (w_disk w)).2) as rn eqn:Ern.
  injection Ht as R1 R2 R3 R4 R5. apply bool_decide_eq_true in R5.
  destruct (H D torn_trace w (fun l => l) [0; 1] [[ByKey "text" (t "x")]] 5%N e Hex torn_client) as (before & d2 & H1 & H2 & H3).
  { rewrite Hl. right. by left. }
  { exact He. }
  assert (before ⊆+ [m]) as Hsub.
  { rewrite Hl in H2. rewrite (Permutation_swap e m []) in H2. by apply (submseteq_app_inv_l _ _ [e]) in H2. }
  change (e_result e = (t_alone search_x d2).2) in H3.
  destruct before as [|b before].
  - inversion H1; subst d2. rewrite <- Ero, R2, R3 in H3. clear -H3. assert (bool_decide ((Ok (Scored {[1%N := one_x]}) : res outcome) = Ok (Scored (<[1%N := one_x]> {[0%N := one_x]}))) = false) as Hf by by_computation.
    rewrite bool_decide_true in Hf by done. discriminate Hf.
  - pose proof (submseteq_length _ _ Hsub) as Hlen. destruct before; [|cbn in Hlen; lia].
    assert (b = m) as ->. { apply elem_of_list_singleton. eapply elem_of_submseteq; [|exact Hsub]. by left. }
    inversion H1 as [|? ? d3 ? ? Hal Hr]; subst. inversion Hr; subst. rewrite Hm, Ha in Hal. injection Hal as <- _.
    rewrite <- ?Ern, ?R4 in H3. rewrite R2 in H3. clear -H3.
    assert (bool_decide ((Ok (Scored {[1%N := one_x]}) : res outcome) = Ok (Scored ∅)) = false) as Hf by by_computation.
    rewrite bool_decide_true in Hf by done. discriminate Hf.
Qed.
Print Assumptions C88_passages_see_one_index_refuted.

(** ** C89 *)
(** The page of a cluster is put together from several reads. If no commit that changes
    anything falls between them, it is the page of one database, ... *)
Theorem C89_page_undisturbed_partial : forall rnd workers arrival g d (tr : list (action outcome)) w i corp c feature fc sample kind d1,
  execution tr (start d) w -> (forall t, Begin i t ∈ tr -> exists torn, t = read_txn torn) ->
  9 <= length (reads_of i w) -> (forall x, x ∈ reads_of i w -> x = d1) ->
  cluster_page_at rnd workers arrival g (fun k => default d (reads_of i w !! k)) corp c feature fc sample kind
    = cluster_page_of rnd workers arrival g d1 corp c feature fc sample kind /\
  exists before, one_at_a_time d before d1 /\ before ⊆+ w_log w.
Proof.
  intros rnd workers arrival g d tr w i corp c feature fc sample kind d1 H Hi Hlen Hx. split.
  - assert (forall k, k < 9 -> default d (reads_of i w !! k) = d1) as Hk.
    { intros k Hk. destruct (reads_of i w !! k) as [x|] eqn:E; [apply Hx; by eapply elem_of_list_lookup_2|].
      apply lookup_ge_None in E. lia. }
    unfold cluster_page_at, cluster_page_of. rewrite !Hk by lia. reflexivity.
  - destruct (reads_of i w) as [|x l] eqn:E; [cbn in Hlen; lia|].
    assert (x ∈ reads_of i w) as Hin by (rewrite E; by left). rewrite (Hx x) in Hin by (by left).
    apply elem_of_list_omap in Hin as (e & He & Hr). destruct (e_result e) as [[]|] eqn:Er; try discriminate Hr.
    case_decide as Hc; [|discriminate Hr]. injection Hr as ->.
    pose proof (log_started_by _ _ _ H) as Hs. rewrite Forall_forall in Hs. pose proof (Hs e He) as Hb. rewrite Hc in Hb.
    destruct (Hi _ Hb) as [torn Et]. destruct (serialisable d tr w H) as (order & G).
    assert (e ∈ order) as Ho.
    { rewrite (g_log _ _ _ G). apply elem_of_list_filter. split; [|done]. pose proof (g_coherent _ _ _ G) as Hco. rewrite Forall_forall in Hco.
      rewrite (Hco e He); [done|]. right. by rewrite Et. }
    apply elem_of_list_split in Ho as (pre & post & Eo). pose proof (g_run _ _ _ G) as Hrun. rewrite Eo in Hrun.
    apply one_app in Hrun as (d2 & H1 & H2). inversion H2 as [|? ? d3 ? ? Hal _]; subst.
    rewrite Et, Er in Hal. cbn in Hal. injection Hal as -> ->. exists pre. split; [done|].
    transitivity (filter coherent (w_log w)); [|apply filter_contained].
    rewrite <- (g_log _ _ _ G). by apply submseteq_inserts_r.
Qed.
Print Assumptions C89_page_undisturbed_partial.

(** ... otherwise it need not be: it can fail although the page of every database there was
    is shown or answered with 404. *)
Definition see : txn outcome := read_txn as_written.
Definition page_trace : list (action outcome) :=
  [Begin 0 see; End 0; Begin 1 delete1; TakeLock 1; WorkerRead 1; End 1] ++ concat (replicate 8 [Begin 0 see; End 0]).
Lemma page_client : only (client_txn digits) page_trace /\ forall t, Begin 0 t ∈ page_trace -> exists torn, t = read_txn torn.
Proof.
  assert (Forall (fun a => match a with Begin 0 t => t = see | Begin _ t => t = delete1 | _ => True end) page_trace) as H.
  { repeat (constructor; [first [reflexivity|exact I]|]). constructor. }
  rewrite Forall_forall in H. split.
  - intros [|i] t0 Hin; specialize (H _ Hin); cbn in H; rewrite H; [apply uses_read|apply uses_write].
  - intros t0 Hin. specialize (H _ Hin). cbn in H. rewrite H. by exists as_written.
Qed.
Lemma runs_within {A} (P : db -> Prop) (Q : entry A -> Prop) : (forall d e, P d -> Q e -> P (t_alone (e_txn e) d).1) ->
  forall d es d', one_at_a_time d es d' -> P d -> Forall Q es -> P d'.
Proof.
  intros Hp d es d' H. induction H as [d|d e d1 es d2 He _ IH]; intros Hd Hq; [done|]. apply Forall_cons in Hq as [Hq Hqs].
  apply IH; [|done]. specialize (Hp d e Hd Hq). by rewrite He in Hp.
Qed.
Definition crash (p : page_answer cluster_page) : option exn := match p with PageCrashed e => Some e | _ => None end.
Definition plain_page (d : db) : page_answer cluster_page := cluster_page_of id 2 [0; 1; 2; 3] rng0 d None 1 None None 3 None.
Lemma page_of_no_moment D D1 : (t_alone delete1 D).1 = D1 -> (t_alone delete1 D1).1 = D1 ->
  crash (plain_page D) = None -> crash (plain_page D1) = None ->
  (fun w => (length (reads_of 0 w), crash (cluster_page_at id 2 [0; 1; 2; 3] rng0 (fun k => default D (reads_of 0 w !! k)) None 1 None None 3 None)))
    <$> play page_trace (start D) = Some (9, Some IndexError) ->
  ~ (forall rnd workers arrival g d (tr : list (action outcome)) w i corp c feature fc sample kind,
       execution tr (start d) w -> only (client_txn digits) tr -> (forall t, Begin i t ∈ tr -> exists torn, t = read_txn torn) ->
       length (reads_of i w) = 9 ->
       exists before d1, one_at_a_time d before d1 /\ before ⊆+ w_log w /\
         cluster_page_at rnd workers arrival g (fun k => default d (reads_of i w !! k)) corp c feature fc sample kind
         = cluster_page_of rnd workers arrival g d1 corp c feature fc sample kind).
Proof.
  intros ED Hdd P0 P1 Hp H. unfold plain_page in P0, P1.
  destruct (play page_trace (start D)) as [w|] eqn:E; [|discriminate Hp]. cbn [fmap option_fmap option_map] in Hp.
  injection Hp as R1 R2. pose proof (play_execution _ _ _ E) as Hex. destruct page_client as [Hc Hr].
  destruct (H id 2 [0; 1; 2; 3] rng0 D page_trace w 0 None 1%Z None None 3%Z None Hex Hc Hr R1) as (before & d1 & H1 & H2 & H3).
  rewrite H3 in R2.
  assert (d1 = D \/ d1 = D1) as Hd.
  { refine (runs_within (fun d => d = D \/ d = D1) (fun e => e_txn e = see \/ e_txn e = delete1) _ _ _ _ H1 (or_introl eq_refl) _).
    - intros d e [-> | ->] [-> | ->]; [left; reflexivity|right; exact ED|right; reflexivity|right; exact Hdd].
    - apply Forall_forall. intros e He. assert (e ∈ w_log w) as Hin by (eapply elem_of_submseteq; [exact He|exact H2]).
      pose proof (log_started_by _ _ _ Hex) as Hs. rewrite Forall_forall in Hs. specialize (Hs e Hin).
      clear -Hs. generalize dependent (e_client e). generalize (e_txn e). intros t0 j Hs.
      repeat (apply elem_of_cons in Hs as [Hs|Hs]; [try discriminate Hs; injection Hs as -> ->; first [left; reflexivity|right; reflexivity]|]).
      by apply elem_of_nil in Hs. }
  destruct Hd as [-> | ->].
  - rewrite P0 in R2. discriminate R2.
  - rewrite P1 in R2. discriminate R2.
Qed.
Theorem C89_page_of_one_moment_refuted :
  ~ (forall rnd workers arrival g d (tr : list (action outcome)) w i corp c feature fc sample kind,
       execution tr (start d) w -> only (client_txn digits) tr -> (forall t, Begin i t ∈ tr -> exists torn, t = read_txn torn) ->
       length (reads_of i w) = 9 ->
       exists before d1, one_at_a_time d before d1 /\ before ⊆+ w_log w /\
         cluster_page_at rnd workers arrival g (fun k => default d (reads_of i w !! k)) corp c feature fc sample kind
         = cluster_page_of rnd workers arrival g d1 corp c feature fc sample kind).
Proof.
  apply (page_of_no_moment sample_db (t_alone delete1 sample_db).1 eq_refl); by_computation.
Qed.
Print Assumptions C89_page_of_one_moment_refuted.

Example C89_example :
  let tr := [Begin 1 delete1; TakeLock 1; WorkerRead 1; End 1] ++ concat (replicate 9 [Begin 0 see; End 0]) in
  (fun w => (length (reads_of 0 w), forallb (fun x => bool_decide (x = (t_alone delete1 sample_db).1)) (reads_of 0 w))) <$> play tr (start sample_db)
    = Some (9, true) /\
  plain_page (t_alone delete1 sample_db).1 = PageError 404 /\ crash (plain_page sample_db) = None.
Proof. split; [by_computation|]. split; [|by_computation]. vm_compute. reflexivity. Qed.
