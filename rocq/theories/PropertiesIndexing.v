(** PropertiesIndexing.v: C06-C15, C53, C54. Vocabulary: SpecIndexing.v, SpecConn.v,
    SpecCluster.v. [complete s n]: the pool finished all [n] batches, in any order. *)
From Verif Require Import LookupProofs SampleDb.

(** ** A corpus for the examples *)
Definition t (s : string) : value := VText s.
Definition corpus1 : corpus := [
  (t "k0", Ok [("text", Seq [Some (t "a"); Some (t "b"); Some (t "a")]); ("lang", Coll [Some (t "en"); None])]);
  (t "k1", Ok [("text", Seq []); ("lang", Coll [Some (t "de")])]);
  (t "k2", Ok [("text", Seq [Some (t "b"); Some (t "c")])])].
Definition corpus2 : corpus := [
  (t "k9", Ok [("text", Seq [Some (t "c"); Some (t "d")])])].
Definition corpus_bad : corpus := [
  (t "k0", Ok [("text", Seq [Some (t "a")])]); (t "k1", Err UserError)].
Definition in_order (n : nat) : schedule := Schedule (seq 0 n) (fun _ => None).
Definition backwards (n : nat) : schedule := Schedule (rev (seq 0 n)) (fun _ => None).
Lemma complete_in_order n : complete (in_order n) n.
Proof. unfold complete. reflexivity. Qed.
Lemma complete_backwards n : complete (backwards n) n.
Proof. unfold complete, backwards. symmetry. apply Permutation_rev. Qed.
Definition conn0 : conn := open_index empty_db pool_ok.
Definition conn1 : conn := (run_index 2 true corpus1 (backwards 2) conn0).1.

Lemma conn0_ready : index_ready conn0 /\ quiet (disk conn0) /\ pool_works conn0.
Proof.
  assert (quiet (disk conn0)) as Hq by (apply quiet_unclustered; by_computation).
  split_and!; [|done|done]. split_and!; [by constructor|by apply quiet_usable|]. intros f g rf rg H. change (inverted_index (disk conn0)) with (∅ : gmap N feature_row) in H. by rewrite lookup_empty in H.
Qed.

(** ** C06 *)
Lemma ready_after bsz pos c s cn cn' :
  index_ready cn -> complete s (length (batches bsz c)) -> run_index bsz pos c s cn = (cn', Ok tt) ->
  exists bs segs, bs ≡ₚ batches bsz c /\ Forall2 (fun b seg => index_docs pos b = Ok seg) bs segs /\
    rebuild_conditions (fst <$> c) segs (disk cn) /\
    refreshed (rebuilt (fst <$> c) segs (disk cn)) (disk cn') /\ idle cn' /\ quiet (disk cn') /\
    index_exact c (inverted_index (disk cn)) (inverted_index (disk cn')).
Proof.
  intros (Hid & Hu & Hf) Hc Hr.
  destruct (index_cases bsz pos c s cn Hid Hu Hf Hc) as [(e & d & _ & H)|(bs & segs & Hp & HF & _ & Hcond & Hu1 & Hcase)].
  { congruence. }
  destruct Hcase as [(k & _ & H)|(_ & d2 & Hd2 & H)]; [congruence|].
  rewrite H in Hr. injection Hr as <-. exists bs, segs. cbn [disk].
  pose proof Hd2 as (R1 & R2 & R3 & _). split_and!; [done..|by constructor|done|].
  destruct R3 as (_ & -> & _). by eapply merge_exact.
Qed.

Theorem C06_boolean_index_exact : forall bsz pos c s cn cn',
  index_ready cn -> complete s (length (batches bsz c)) -> run_index bsz pos c s cn = (cn', Ok tt) ->
  forall field v, exists docs, getitem (disk cn') (KFeature (field, v)) = Some docs /\
    (forall doc, doc ∈ docs <-> doc_matches c field v doc) /\
    (forall f row, lookup_feature_id (disk cn') (field, v) = Ok f -> inverted_index (disk cn') !! f = Some row ->
       f_docs_count row = N.of_nat (size docs)).
Proof.
  intros bsz pos c s cn cn' Hr Hc Hrun field v.
  destruct (ready_after _ _ _ _ _ _ Hr Hc Hrun) as (bs & segs & _ & _ & _ & _ & _ & _ & Hex).
  destruct (getitem_exact c _ (disk cn') field v Hex) as (docs & Hd & Hiff). exists docs. split_and!; [done|done|].
  intros f row Hf Hrow. rewrite (ie_count _ _ _ Hex f row Hrow). do 2 f_equal. apply set_eq. intros x.
  rewrite Hiff. rewrite (ie_docs _ _ _ Hex f row x Hrow).
  apply lookup_feature_id_ok, lookup_feature_ok in Hf as (row' & H1 & H2); [|apply Hex].
  rewrite Hrow in H1. injection H1 as <-. unfold row_key in H2. by injection H2 as -> ->.
Qed.
Print Assumptions C06_boolean_index_exact.

(** ... and the call does succeed, whatever the batch size and order, when nothing
    fails; the connection is ready for the next call. *)
Theorem C06_indexing_succeeds : forall bsz pos c s cn,
  index_ready cn -> quiet (disk cn) -> pool_works cn -> well_formed pos c ->
  complete s (length (batches bsz c)) -> (forall i, fault s i = None) ->
  exists cn', run_index bsz pos c s cn = (cn', Ok tt) /\ index_ready cn' /\ quiet (disk cn').
Proof.
  intros bsz pos c s cn Hr Hq Hp (Hne & Hnd & Hwf) Hc Hf.
  destruct (rebuild_total bsz pos c s (disk cn) Hc Hf Hnd Hne (quiet_unmarked _ Hq) Hwf) as [d1 Hd1].
  destruct Hr as (Hid & Hu & Hfu).
  assert (exists cn', run_index bsz pos c s cn = (cn', Ok tt)) as [cn' Hrun].
  { destruct (index_cases bsz pos c s cn Hid Hu Hfu Hc) as [(e & d & H & _)|(bs & segs & _ & _ & _ & _ & _ & Hcase)].
    { congruence. }
    destruct Hcase as [(k & Hk & _)|(_ & d2 & _ & H)]; [|eauto]. unfold pool_works in Hp. congruence. }
  exists cn'. split; [done|].
  destruct (ready_after _ _ _ _ _ _ ltac:(split_and!; done) Hc Hrun) as (bs & segs & _ & _ & _ & _ & Hi & Hq' & Hex).
  split; [|done]. split_and!; [done|by apply quiet_usable|apply Hex].
Qed.
Print Assumptions C06_indexing_succeeds.

Lemma conn1_ready : index_ready conn1 /\ quiet (disk conn1) /\ pool_works conn1.
Proof.
  destruct conn0_ready as (H1 & H2 & H3).
  destruct (C06_indexing_succeeds 2 true corpus1 (backwards 2) conn0 H1 H2 H3) as (cn' & Hrun & Hr & Hq).
  - by apply wf_check_ok.
  - apply complete_backwards.
  - done.
  - unfold conn1. rewrite Hrun. split_and!; [done..|]. assert (pool_works conn1) as Hp by reflexivity.
    unfold conn1 in Hp. by rewrite Hrun in Hp.
Qed.

Example C06_example :
  (index_ready conn0 /\ complete (backwards 2) (length (batches 2 corpus1)) /\ well_formed true corpus1 /\
   (run_index 2 true corpus1 (backwards 2) conn0).2 = Ok tt) /\
  getitem (disk conn1) (KFeature ("text", t "b")) = Some {[0; 2]}%N /\
  getitem (disk conn1) (KFeature ("lang", t "en")) = Some {[0]}%N /\
  getitem (disk conn1) (KFeature ("text", t "zz")) = Some ∅.
Proof.
  split.
  - split_and!; [apply conn0_ready|apply complete_backwards|by apply wf_check_ok|by_computation].
  - by_computation.
Qed.

(** ** C07 *)
Lemma run_index_ext bsz pos c s1 s2 cn : idle cn ->
  rebuild bsz pos c s1 (disk cn) = rebuild bsz pos c s2 (disk cn) ->
  run_index bsz pos c s1 cn = run_index bsz pos c s2 cn.
Proof.
  intros Hid He. rewrite !index_idle by done. unfold pbind at 1 5. rewrite !on_db_run by done.
  change (cur (begun_conn cn)) with (disk cn). by rewrite He.
Qed.
Theorem C07_schedule_independence : forall bsz pos c s1 s2 cn,
  idle cn -> complete s1 (length (batches bsz c)) -> complete s2 (length (batches bsz c)) ->
  (forall i, fault s1 i = None) -> (forall i, fault s2 i = None) ->
  (run_index bsz pos c s1 cn).1 = (run_index bsz pos c s2 cn).1 /\
  is_ok (run_index bsz pos c s1 cn).2 = is_ok (run_index bsz pos c s2 cn).2.
Proof.
  intros bsz pos c s1 s2 cn Hid H1 H2 F1 F2.
  destruct (rebuild bsz pos c s1 (disk cn)) as [d1 [[]|e1]] eqn:E1.
  - pose proof (rebuild_schedule _ _ _ _ _ _ _ H1 H2 E1 F2) as E2. rewrite (run_index_ext bsz pos c s1 s2); [done|done|congruence].
  - destruct (rebuild bsz pos c s2 (disk cn)) as [d2 [[]|e2]] eqn:E2.
    + pose proof (rebuild_schedule _ _ _ _ _ _ _ H2 H1 E2 F1). congruence.
    + by rewrite (index_fails _ _ _ _ _ _ _ Hid E1), (index_fails _ _ _ _ _ _ _ Hid E2).
Qed.
Print Assumptions C07_schedule_independence.

(** ... and, if some workers fail, for every pair of calls that return normally. *)
Theorem C07_schedule_independence_faults : forall bsz pos c s1 s2 cn cn1 cn2,
  idle cn -> complete s1 (length (batches bsz c)) -> complete s2 (length (batches bsz c)) ->
  run_index bsz pos c s1 cn = (cn1, Ok tt) -> run_index bsz pos c s2 cn = (cn2, Ok tt) -> cn1 = cn2.
Proof.
  intros bsz pos c s1 s2 cn cn1 cn2 Hid H1 H2 R1 R2.
  assert (forall s, complete s (length (batches bsz c)) -> forall cn', run_index bsz pos c s cn = (cn', Ok tt) ->
    run_index bsz pos c (Schedule (finish_order s) (fun _ => None)) cn = (cn', Ok tt)) as Hs.
  { intros s Hs cn' Hr. rewrite <- Hr. apply run_index_ext; [done|].
    destruct (rebuild bsz pos c s (disk cn)) as [d [[]|e]] eqn:E.
    - by apply (rebuild_schedule bsz pos c s (Schedule (finish_order s) (fun _ => None)) _ _ Hs Hs E).
    - rewrite (index_fails _ _ _ _ _ _ _ Hid E) in Hr. done. }
  apply Hs in R1; [|done]. apply Hs in R2; [|done].
  pose proof (C07_schedule_independence bsz pos c _ _ cn Hid (H1 : complete (Schedule (finish_order s1) (fun _ => None)) _)
    (H2 : complete (Schedule (finish_order s2) (fun _ => None)) _) (fun _ => eq_refl) (fun _ => eq_refl)) as [H _].
  rewrite R1, R2 in H. done.
Qed.
Print Assumptions C07_schedule_independence_faults.

(** Nor do the feature ids, document sets and keys depend on the batch size or on
    whether positions are indexed. *)
Theorem C07_batch_size_independence : forall bsz bsz' pos pos' c s s' cn cn1 cn2,
  index_ready cn -> complete s (length (batches bsz c)) -> complete s' (length (batches bsz' c)) ->
  run_index bsz pos c s cn = (cn1, Ok tt) -> run_index bsz' pos' c s' cn = (cn2, Ok tt) ->
  inverted_index (disk cn1) = inverted_index (disk cn2) /\ doc_key (disk cn1) = doc_key (disk cn2) /\
  (forall f, assigned (disk cn1) f = assigned (disk cn2) f).
Proof.
  intros bsz bsz' pos pos' c s s' cn cn1 cn2 Hr H1 H2 R1 R2.
  destruct (ready_after _ _ _ _ _ _ Hr H1 R1) as (bs & segs & Hp & HF & _ & Hd & _).
  destruct (ready_after _ _ _ _ _ _ Hr H2 R2) as (bs' & segs' & Hp' & HF' & _ & Hd' & _).
  pose proof Hd as (_ & _ & (E1 & E2 & _) & E3 & _). pose proof Hd' as (_ & _ & (E1' & E2' & _) & E3' & _).
  split_and!.
  - rewrite E2, E2'. exact (merge_batch_size bsz bsz' pos pos' c bs bs' segs segs' _ Hp HF Hp' HF').
  - by rewrite E1, E1'.
  - intros f. unfold assigned. rewrite E3, E3'. cbn. rewrite !map_lookup_imap. by destruct (feature_cluster (disk cn) !! f).
Qed.
Print Assumptions C07_batch_size_independence.

Example C07_example :
  finish_order (in_order 2) <> finish_order (backwards 2) /\
  (run_index 2 true corpus1 (in_order 2) conn0).2 = Ok tt /\
  disk (run_index 2 true corpus1 (in_order 2) conn0).1 = disk conn1 /\
  inverted_index (disk (run_index 1 false corpus1 (backwards 3) conn0).1) = inverted_index (disk conn1).
Proof. by_computation. Qed.

(** ** C08 *)
Theorem C08_feature_ids_stable : forall bsz pos c s cn cn' r,
  index_ready cn -> complete s (length (batches bsz c)) -> run_index bsz pos c s cn = (cn', r) ->
  (forall f k, lookup_feature (disk cn) f = Ok k -> lookup_feature (disk cn') f = Ok k) /\
  (forall f g k, lookup_feature (disk cn') f = Ok k -> lookup_feature (disk cn') g = Ok k -> f = g) /\
  (r = Ok tt -> forall f k, lookup_feature (disk cn') f = Ok k ->
     getitem (disk cn') (KId f) = getitem (disk cn') (KFeature k) /\
     (~ occurs c k.1 k.2 -> getitem (disk cn') (KId f) = Some ∅)).
Proof.
  intros bsz pos c s cn cn' r (Hid & Hu & Hf) Hc Hr.
  assert (features_unique (inverted_index (disk cn')) ->
    forall f g k, lookup_feature (disk cn') f = Ok k -> lookup_feature (disk cn') g = Ok k -> f = g) as Huniq.
  { intros Hfu f g k (r1 & H1 & <-)%lookup_feature_ok (r2 & H2 & H3)%lookup_feature_ok.
    unfold row_key in H3. injection H3 as E1 E2. symmetry. by eapply Hfu. }
  destruct (index_cases bsz pos c s cn Hid Hu Hf Hc) as [(e & d & _ & H)|(bs & segs & Hp & HF & _ & Hcond & Hu1 & Hcase)].
  { rewrite H in Hr. injection Hr as <- <-. split_and!; [done|by apply Huniq|done]. }
  pose proof (merge_exact bsz pos c bs segs _ Hf Hp HF) as Hex.
  assert (inverted_index (disk cn') = merge_features (concat segs.*1) (zeroed (inverted_index (disk cn)))) as Hii.
  { destruct Hcase as [(k & _ & H)|(_ & d2 & Hd2 & H)]; rewrite H in Hr; injection Hr as <- <-; [done|].
    cbn [disk]. destruct Hd2 as (_ & _ & (_ & -> & _) & _). done. }
  split_and!.
  - intros f k (row & H1 & <-)%lookup_feature_ok. apply lookup_feature_ok. rewrite Hii.
    apply (ie_old _ _ _ Hex f row H1).
  - apply Huniq. rewrite Hii. apply Hex.
  - intros -> f k Hk. split.
    + unfold getitem. rewrite <- Hii in Hex. apply lookup_feature_ok in Hk as (row & H1 & H2).
      assert (find_feature (inverted_index (disk cn')) k = Some f) as ->; [|done].
      apply find_feature_iff; [apply Hex|]. eauto.
    + intros Hn. apply lookup_feature_ok in Hk as (row & H1 & <-). unfold getitem. rewrite H1. f_equal.
      rewrite Hii in H1. apply set_eq. intros x. rewrite (ie_docs _ _ _ Hex f row x H1).
      split; [intros Hm; exfalso; apply Hn; by exists x|by intros ?%elem_of_empty].
Qed.
Print Assumptions C08_feature_ids_stable.

Example C08_example :
  let d := disk (run_index 5 true corpus2 (in_order 1) conn1).1 in
  index_ready conn1 /\
  lookup_feature (disk conn1) 3 = Ok ("text", t "a") /\ lookup_feature d 3 = Ok ("text", t "a") /\
  getitem d (KId 3) = Some ∅ /\ lookup_feature (disk conn1) 5 = Ok ("text", t "c") /\
  getitem d (KId 5) = Some {[0]}%N /\ lookup_feature_id d ("text", t "d") = Ok 6%N.
Proof. split; [apply conn1_ready|]. by_computation. Qed.

(** ** C09 *)
Theorem C09_failed_indexing_changes_nothing : forall bsz pos c s cn cn' e,
  index_ready cn -> pool_works cn -> complete s (length (batches bsz c)) ->
  run_index bsz pos c s cn = (cn', Err e) -> cn' = cn.
Proof.
  intros bsz pos c s cn cn' e (Hid & Hu & Hf) Hpw Hc Hr.
  destruct (index_cases bsz pos c s cn Hid Hu Hf Hc) as [(e' & d & _ & H)|(bs & segs & _ & _ & _ & _ & _ & Hcase)].
  { congruence. }
  destruct Hcase as [(k & Hk & H)|(_ & d2 & _ & H)]; [|congruence]. unfold pool_works in Hpw. congruence.
Qed.
Print Assumptions C09_failed_indexing_changes_nothing.

(** Documents that cannot be indexed (an exception in [corpus.index], a None in a sequence
    when positions are kept), duplicated keys, no documents at all, or a failing worker: the
    call raises. *)
Lemma rebuild_ok_well_formed bsz pos c s d d1 : complete s (length (batches bsz c)) ->
  rebuild bsz pos c s d = (d1, Ok tt) -> well_formed pos c /\ forall i e, i < length (batches bsz c) -> fault s i ≠ Some e.
Proof.
  intros Hc E. assert (c ≠ []) as Hne.
  { intros ->. unfold complete in Hc. cbn in Hc. apply Permutation_nil_r in Hc. destruct s as [fo ft]. cbn in Hc. subst fo. discriminate E. }
  apply rebuild_inv in E as (segs & Hrun & Hcond & _). split.
  - split; [done|]. split; [apply (rc_keys _ _ _ Hcond)|]. intros k r Hin.
    destruct (run_batches_ok _ _ _ _ Hc Hrun) as (bs & Hp & HF).
    apply elem_of_list_lookup in Hin as [i Hi].
    assert ((N.of_nat i, r) ∈ concat bs) as Hin.
    { apply (batch_docs bsz c _ _ _ Hp). exists k. by rewrite Nat2N.id. }
    apply elem_of_concat in Hin as (b & Hin & Hb). apply elem_of_list_lookup in Hb as [j Hj].
    destruct (Forall2_lookup_l _ _ _ _ _ HF Hj) as (seg & _ & Hok).
    assert (b ≠ []) as Hbne by (intros ->; by apply elem_of_nil in Hin).
    exact (proj2 (index_docs_total pos b Hbne) (ex_intro _ _ Hok) _ Hin).
  - intros i e Hi He. apply rtraverse_ok_iff in Hrun. assert (i ∈ finish_order s) as Hin.
    { unfold complete in Hc. rewrite Hc. apply elem_of_seq. lia. }
    apply elem_of_list_lookup in Hin as [j Hj]. destruct (Forall2_lookup_l _ _ _ _ _ Hrun Hj) as (seg & _ & H).
    cbn in H. by rewrite He in H.
Qed.
Theorem C09_failures_are_reported : forall bsz pos c s cn,
  idle cn -> complete s (length (batches bsz c)) ->
  (~ well_formed pos c \/ (exists i e, i < length (batches bsz c) /\ fault s i = Some e)) ->
  exists e, run_index bsz pos c s cn = (cn, Err e).
Proof.
  intros bsz pos c s cn Hid Hc Hbad.
  destruct (rebuild bsz pos c s (disk cn)) as [d1 [[]|e]] eqn:E; [|exists e; by eapply index_fails].
  exfalso. destruct (rebuild_ok_well_formed _ _ _ _ _ _ Hc E) as [Hwf Hnf].
  destruct Hbad as [Hn|(i & e & Hi & He)]; [done|by apply (Hnf i e)].
Qed.
Print Assumptions C09_failures_are_reported.

(** Inside a transaction the call is refused. *)
Theorem C09_nested_call_refused : forall bsz pos c s cn,
  in_txn cn = true -> run_index bsz pos c s cn = (cn, Err IndexingError).
Proof. intros. by apply index_in_txn. Qed.
Print Assumptions C09_nested_call_refused.

(** A crash during the call leaves the old database, unless its merge was complete. *)
Theorem C09_crash_before_merge : forall bsz pos c s cn cn' r d,
  index_ready cn -> complete s (length (batches bsz c)) -> run_index bsz pos c s cn = (cn', r) ->
  crash_states cn cn' d -> d = disk cn \/
    (features_unique (inverted_index d) /\ forall field v, exists docs,
       getitem d (KFeature (field, v)) = Some docs /\ forall doc, doc ∈ docs <-> doc_matches c field v doc).
Proof.
  intros bsz pos c s cn cn' r d (Hid & Hu & Hf) Hc Hr [->|(new & old & Hcm & -> & Hin)]; [by left|].
  destruct (index_cases bsz pos c s cn Hid Hu Hf Hc) as [(e & d0 & _ & H)|(bs & segs & Hp & HF & _ & Hcond & Hu1 & Hcase)].
  { rewrite H in Hr. injection Hr as <- <-. assert (new = []) as ->; [|by apply elem_of_nil in Hin].
    apply (f_equal length) in Hcm. rewrite app_length in Hcm. destruct new; [done|]. cbn in Hcm. lia. }
  right. assert (inverted_index d = merge_features (concat segs.*1) (zeroed (inverted_index (disk cn)))) as Hii.
  { destruct Hcase as [(k & _ & H)|(_ & d2 & Hd2 & H)]; rewrite H in Hr; injection Hr as <- <-; cbn [commits] in Hcm.
    - change (?a :: ?l) with ([a] ++ l) in Hcm. apply app_inv_tail in Hcm. subst new.
      apply elem_of_list_singleton in Hin as ->. done.
    - change (?a :: ?b :: ?l) with ([a; b] ++ l) in Hcm. apply app_inv_tail in Hcm. subst new.
      apply elem_of_cons in Hin as [->|Hin].
      + destruct Hd2 as (_ & _ & (_ & -> & _) & _). done.
      + apply elem_of_list_singleton in Hin as ->. done. }
  pose proof (merge_exact bsz pos c bs segs _ Hf Hp HF) as Hex. rewrite <- Hii in Hex. split; [apply Hex|].
  intros field v. by eapply getitem_exact.
Qed.
Print Assumptions C09_crash_before_merge.

Example C09_example :
  index_ready conn1 /\ pool_works conn1 /\
  run_index 1 true corpus_bad (in_order 2) conn1 = (conn1, Err UserError).
Proof.
  destruct conn1_ready as (H1 & _ & H3). split_and!; [done|done|].
  assert ((run_index 1 true corpus_bad (in_order 2) conn1).2 = Err UserError) as H by by_computation.
  pose proof (run_eq _ _ H) as Hr. rewrite Hr. apply (f_equal (fun c => (c, Err UserError))).
  eapply C09_failed_indexing_changes_nothing; [exact H1|exact H3| |exact Hr]. apply complete_in_order.
Qed.

(** ** C10, refuted: indexing an empty corpus always fails. *)
Theorem C10_empty_corpus_refuted : forall bsz pos s cn,
  idle cn -> complete s 0 -> run_index bsz pos [] s cn = (cn, Err OperationalError).
Proof.
  intros bsz pos s cn Hid Hc. unfold complete in Hc. cbn in Hc. apply Permutation_nil_r in Hc.
  destruct s as [fo ft]. cbn in Hc. subst fo. eapply index_fails; [done|]. reflexivity.
Qed.
Print Assumptions C10_empty_corpus_refuted.

(** ** C11 *)
Lemma doc_key_after bsz pos c s cn cn' :
  index_ready cn -> complete s (length (batches bsz c)) -> run_index bsz pos c s cn = (cn', Ok tt) ->
  NoDup (fst <$> c) /\ forall i, doc_key (disk cn') !! i = (fst <$> c) !! N.to_nat i.
Proof.
  intros Hr Hc Hrun. destruct (ready_after _ _ _ _ _ _ Hr Hc Hrun) as (bs & segs & _ & _ & Hcond & Hd & _).
  split; [apply (rc_keys _ _ _ Hcond)|]. intros i. destruct Hd as (_ & _ & (-> & _) & _).
  apply doc_key_enumerate.
Qed.
Lemma doc_key_inj {A} (l : list A) (m : gmap N A) : NoDup l -> (forall i, m !! i = l !! N.to_nat i) ->
  forall i j k, m !! i = Some k -> m !! j = Some k -> i = j.
Proof.
  intros Hnd Hm i j k. rewrite !Hm. intros Hi Hj. apply N2Nat.inj. by eapply NoDup_lookup.
Qed.
Lemma corpus_lookup_nth (c : corpus) i k r : NoDup (fst <$> c) -> c !! i = Some (k, r) -> corpus_lookup c k = Some r.
Proof.
  unfold corpus_lookup, corpus in *. revert i. induction c as [|[k' r'] c IH]; intros i Hnd Hi; [done|].
  cbn in Hnd. apply NoDup_cons in Hnd as [Hn Hnd]. cbn. destruct i as [|i]; cbn in Hi.
  - injection Hi as -> ->. by rewrite bool_decide_true.
  - rewrite bool_decide_false. { by eapply IH. }
    intros ->. apply Hn. apply elem_of_list_fmap. exists (k, r). split; [done|]. by eapply elem_of_list_lookup_2.
Qed.

(** Ids are 0..n-1 in the order of the keys; a query of known ids is converted to
    exactly its keys; [docs] gives the document of each queried id once, in key order. *)
Theorem C11_documents_and_keys : forall bsz pos c s cn cn' query,
  index_ready cn -> complete s (length (batches bsz c)) -> run_index bsz pos c s cn = (cn', Ok tt) ->
  (forall i k, doc_key (disk cn') !! i = Some k <-> fst <$> c !! N.to_nat i = Some k) /\
  ((forall doc, doc ∈ query -> N.to_nat doc < length c) ->
    (exists m, convert_query_to_keys (disk cn') query = Ok m /\ size m = size query /\
       forall k doc, m !! k = Some doc <-> doc ∈ query /\ fst <$> c !! N.to_nat doc = Some k) /\
    (exists out, docs_query (disk cn') c query = Ok out /\ Sorted value_le out.*1.*2 /\ NoDup out.*1.*1 /\
       forall doc k r, (doc, k, r) ∈ out <->
         doc ∈ query /\ exists f, r = Some f /\ c !! N.to_nat doc = Some (k, f))) /\
  ((exists doc, doc ∈ query /\ length c <= N.to_nat doc) ->
     convert_query_to_keys (disk cn') query = Err IndexError /\ docs_query (disk cn') c query = Err IndexError).
Proof.
  intros bsz pos c s cn cn' q Hr Hc Hrun.
  destruct (doc_key_after _ _ _ _ _ _ Hr Hc Hrun) as [Hnd Hk].
  assert (forall i, doc_key (disk cn') !! i = fst <$> c !! N.to_nat i) as Hk'.
  { intros i. rewrite Hk. unfold corpus in *. by rewrite list_lookup_fmap. }
  pose proof (doc_key_inj _ _ Hnd Hk) as Hinj.
  split_and!.
  - intros i k. by rewrite Hk'.
  - intros Hq. assert (forall doc, doc ∈ q -> is_Some (doc_key (disk cn') !! doc)) as Hs.
    { intros doc Hd. rewrite Hk'. apply Hq in Hd. apply fmap_is_Some. by apply lookup_lt_is_Some_2. }
    split.
    + destruct (convert_ok _ q Hinj Hs) as (m & Hm & Hiff). exists m. split_and!; [done| |].
      * rewrite <- size_dom.
        assert (q = map_to_set (fun _ x => x) m) as ->.
        { apply set_eq. intros x. rewrite elem_of_map_to_set. split.
          - intros Hx. destruct (Hs x Hx) as [k Hkx]. exists k, x. split; [by apply Hiff|done].
          - intros (k & y & Hy & ->). by apply Hiff in Hy as [? _]. }
        rewrite size_dom. symmetry. unfold map_to_set. 
        rewrite size_list_to_set. { by rewrite fmap_length. }
        assert (forall k x, (k, x) ∈ map_to_list m -> doc_key (disk cn') !! x = Some k) as Hall.
        { intros k x Hin%elem_of_map_to_list. by apply Hiff in Hin as [_ ?]. }
        pose proof (NoDup_map_to_list m) as Hndm.
        induction (map_to_list m) as [|[k x] l IH]; [constructor|]. cbn. apply NoDup_cons in Hndm as [Hn Hndm].
        constructor; [|apply IH; [intros; apply Hall; by right|done]].
        intros Hin. apply elem_of_list_fmap in Hin as ([k2 x2] & -> & Hin). cbn in *.
        pose proof (Hall k x2 ltac:(left)) as A1. pose proof (Hall k2 x2 ltac:(by right)) as A2.
        rewrite A1 in A2. injection A2 as ->. done.
      * intros k doc. rewrite Hiff. by rewrite Hk'.
    + destruct (docs_query_ok (disk cn') c q Hinj Hs) as (out & Ho & Hsort & Hno & Hiff).
      exists out. split_and!; [done..|]. intros doc k r. rewrite Hiff. split.
      * intros (H1 & H2 & ->). split; [done|]. rewrite Hk' in H2.
        destruct (c !! N.to_nat doc) as [[k' f]|] eqn:E; [|done]. cbn in H2. injection H2 as ->.
        exists f. split; [|done]. by eapply corpus_lookup_nth.
      * intros (H1 & f & -> & H2). split_and!; [done| |].
        -- rewrite Hk', H2. done.
        -- symmetry. by eapply corpus_lookup_nth.
  - intros (doc & Hd & Hlen).
    assert (convert_query_to_keys (disk cn') q = Err IndexError) as E.
    { apply (convert_err _ _ doc Hd). rewrite Hk'. rewrite (proj2 (lookup_ge_None c _)) by done. done. }
    split; [done|]. unfold docs_query. by rewrite E.
Qed.
Print Assumptions C11_documents_and_keys.

Example C11_example :
  doc_key (disk conn1) !! 2%N = Some (t "k2") /\
  convert_query_to_keys (disk conn1) {[2; 0]}%N = Ok (<[t "k2" := 2%N]> {[t "k0" := 0%N]}) /\
  match docs_query (disk conn1) corpus1 {[2; 0]}%N with Ok l => l.*1 | Err _ => [] end
    = [(0%N, t "k0"); (2%N, t "k2")] /\
  convert_query_to_keys (disk conn1) {[3]}%N = Err IndexError.
Proof. by_computation. Qed.

(** ** C12 *)
Lemma holds_position_same d d' F first v p : same_index d d' ->
  holds_position d' F first v p <-> holds_position d F first v p.
Proof.
  intros (_ & Hi & _ & Hp & _). unfold holds_position, lookup_feature_id. by rewrite Hi, Hp.
Qed.
Lemma partition_lossless_same c d d' F first pm : same_index d d' ->
  partition_lossless c d F first pm -> partition_lossless c d' F first pm.
Proof.
  intros Hs [H1 H2 H3 H4 H5]. split; [done|done|done| |].
  - intros i doc vs Hi Hd. destruct (H4 i doc vs Hi Hd) as (st & sp & A & B & C & D).
    exists st, sp. split_and!; [done..|]. intros j v Hj. rewrite (holds_position_same _ _ _ _ _ _ Hs). by apply D.
  - intros v p Hp. apply (H5 v p). by apply (holds_position_same _ _ _ _ _ _ Hs).
Qed.

(** Every partition encodes exactly the sequences of its documents; every document
    with a non-empty sequence is in exactly one partition of that field; and every
    stored position belongs to a partition. *)
Theorem C12_positions_lossless : forall bsz c s cn cn',
  index_ready cn -> dicts c -> complete s (length (batches bsz c)) ->
  run_index bsz true c s cn = (cn', Ok tt) ->
  (forall F first pm, position_doc_map (disk cn') !! (F, first) = Some pm ->
     partition_lossless c (disk cn') F first pm) /\ (forall F doc vs, doc_sequence c F doc vs ->
     exists! first, exists pm, position_doc_map (disk cn') !! (F, first) = Some pm /\ doc ∈ pm_doc_ids pm) /\ (forall f first row, position_index (disk cn') !! (f, first) = Some row ->
     p_positions row ≠ ∅ /\ p_count row = N.of_nat (size (p_positions row)) /\ exists F v pm, lookup_feature (disk cn') f = Ok (F, v) /\ position_doc_map (disk cn') !! (F, first) = Some pm).
Proof.
  intros bsz c s cn cn' Hr Hdi Hc Hrun.
  destruct (ready_after _ _ _ _ _ _ Hr Hc Hrun) as (bs & segs & Hp & HF & Hcond & Hd & _).
  destruct Hr as (_ & _ & Hu). destruct Hd as (_ & _ & Hs & _). pose proof Hs as (E1 & E2 & E3 & E4 & _).
  split_and!.
  - intros F first pm. rewrite E3. intros Hpm. eapply partition_lossless_same; [exact Hs|].
    exact (rebuilt_lossless bsz c bs segs (disk cn) Hu Hp HF Hcond Hdi F first pm Hpm).
  - intros F doc vs Hseq.
    destruct (rebuilt_covered bsz c bs segs (disk cn) Hp HF Hcond F doc vs Hseq) as (first & pm & Hpm & Hin).
    exists first. split; [exists pm; by rewrite E3|]. intros first' (pm' & Hpm' & Hin'). rewrite E3 in Hpm'.
    exact (rebuilt_disjoint bsz c bs segs (disk cn) Hp HF Hcond F doc first first' pm pm' Hpm Hpm' Hin Hin').
  - intros f first row. rewrite E4. intros Hrow.
    destruct (rebuilt_positions c bs segs (disk cn) HF Hcond f first row Hrow) as (H1 & H2 & F & v & pm & H3 & H4).
    split_and!; [done..|]. exists F, v, pm. unfold lookup_feature in *. by rewrite E2, E3.
Qed.
Print Assumptions C12_positions_lossless.

Example C12_example :
  dicts corpus1 /\ 
  (fun pm => (bm_list (pm_doc_ids pm), bm_list (pm_boundaries pm))) <$>
    position_doc_map (disk conn1) !! ("text", 0%N) = Some ([0], [0; 3])%N /\
  (fun pm => (bm_list (pm_doc_ids pm), bm_list (pm_boundaries pm))) <$>
    position_doc_map (disk conn1) !! ("text", 2%N) = Some ([2], [0; 2])%N /\
  (p_positions <$> position_index (disk conn1) !! (3%N, 0%N)) = Some {[0; 2]}%N.
Proof.
  split; [|by_computation]. intros k fs Hin. unfold corpus1 in Hin.
  repeat (apply elem_of_cons in Hin as [Hin|Hin]; [injection Hin as -> ->; by_computation|]).
  by apply elem_of_nil in Hin.
Qed.

(** ** C13 *)
Lemma positions_sum (d : db) F :
  (forall k row, position_index d !! k = Some row -> p_count row = N.of_nat (size (p_positions row))) ->
  field_positions d F = N.of_nat (stored_positions d F).
Proof.
  intros Hc. unfold field_positions, stored_positions.
  assert (forall k row, (k, row) ∈ map_to_list (position_index d) -> p_count row = N.of_nat (size (p_positions row))) as H.
  { intros k row Hin%elem_of_map_to_list. by eapply Hc. }
  induction (map_to_list (position_index d)) as [|[k row] l IH]; [done|]. cbn [fmap list_fmap foldr].
  rewrite IH by (intros; eapply H; by right). rewrite filter_cons. cbn [fst snd].
  destruct (inverted_index d !! k.1) as [ir|]; cbn.
  - case_bool_decide as E; case_decide as E'.
    + cbn. rewrite (H k row) by left. lia.
    + exfalso. apply E'. by rewrite E.
    + exfalso. apply E. by injection E'.
    + lia.
  - case_decide; [done|]. lia.
Qed.

(** The summary of a field describes the values the index knows: those of the corpus
    and those of earlier corpora. *)
Theorem C13_field_summary_partial : forall bsz pos c s cn cn',
  index_ready cn -> complete s (length (batches bsz c)) -> run_index bsz pos c s cn = (cn', Ok tt) ->
  (forall F v, known (disk cn') F v <-> known (disk cn) F v \/ occurs c F v) /\ forall F, match field_summary (disk cn') !! F with
    | None => forall v, ~ known (disk cn') F v
    | Some row => exists vals : gset value, vals ≠ ∅ /\ (forall v, v ∈ vals <-> known (disk cn') F v) /\ fs_distinct row = N.of_nat (size vals) /\ fs_min row ∈ vals /\ (forall v, v ∈ vals -> value_le (fs_min row) v) /\ fs_max row ∈ vals /\ (forall v, v ∈ vals -> value_le v (fs_max row)) /\ fs_position_count row = N.of_nat (stored_positions (disk cn') F)
    end.
Proof.
  intros bsz pos c s cn cn' Hr Hc Hrun.
  destruct (ready_after _ _ _ _ _ _ Hr Hc Hrun) as (bs & segs & Hp & HF & Hcond & Hd & _ & _ & Hex).
  destruct Hd as (_ & _ & (_ & E2 & _ & E4 & E5) & _).
  assert (forall F v, known (disk cn') F v <-> exists f row, inverted_index (disk cn') !! f = Some row /\ f_field row = F /\ f_value row = v) as Hkn.
  { intros F v. unfold known. split.
    - intros (f & (row & H1 & H2)%lookup_feature_ok). unfold row_key in H2. injection H2 as <- <-. eauto.
    - intros (f & row & H1 & <- & <-). exists f. apply lookup_feature_ok. eauto. }
  split.
  - intros F v. split.
    + intros (f & row & H1 & <- & <-)%Hkn. destruct (inverted_index (disk cn) !! f) as [r0|] eqn:E0.
      * left. destruct (ie_old _ _ _ Hex f r0 E0) as (row' & H2 & H3). rewrite H1 in H2. injection H2 as <-.
        exists f. apply lookup_feature_ok. exists r0. split; [done|]. by rewrite <- H3.
      * right. by apply (ie_new _ _ _ Hex f row H1).
    + intros [(f & (row & H1 & H2)%lookup_feature_ok)|(doc & Hdoc)].
      * destruct (ie_old _ _ _ Hex f row H1) as (row' & H3 & H4). exists f. apply lookup_feature_ok.
        exists row'. split; [done|]. congruence.
      * destruct (ie_has _ _ _ Hex F v doc Hdoc) as [f Hf]. apply find_feature_Some in Hf as (row & H1 & H2).
        exists f. apply lookup_feature_ok. eauto.
  - intros F. rewrite E5. unfold rebuilt. cbv zeta.
    match goal with |- context [write_field_summary ?X] => set (dr := X) end.
    change (field_summary (set_changed_cluster ?a ?x)) with (field_summary x).
    rewrite summary_lookup.
    assert (inverted_index dr = inverted_index (disk cn')) as Hii by (by rewrite E2).
    assert (position_index dr = position_index (disk cn')) as Hpi by (by rewrite E4).
    case_decide as HF'.
    + set (vs := (fun kv : N * feature_row => f_value kv.2) <$> field_rows dr F).
      assert (NoDup vs) as Hndv. { apply field_values_nodup. rewrite Hii. apply Hex. }
      assert (forall v, v ∈ vs <-> known (disk cn') F v) as Hvs.
      { intros v. rewrite Hkn. unfold vs. rewrite elem_of_list_fmap. split.
        - intros ([f row] & -> & Hin). apply elem_of_field_rows in Hin as [H1 H2]. rewrite Hii in H1. eauto.
        - intros (f & row & H1 & H2 & <-). exists (f, row). split; [done|]. apply elem_of_field_rows. by rewrite Hii. }
      assert (vs ≠ []) as Hne.
      { apply elem_of_fields_of in HF' as (f & row & H1 & H2).
        assert (f_value row ∈ vs) as Hin; [|intros E; rewrite E in Hin; by apply elem_of_nil in Hin].
        apply Hvs, Hkn. rewrite Hii in H1. eauto. }
      destruct (value_min_spec vs Hne) as [Mi1 Mi2]. destruct (value_max_spec vs Hne) as [Ma1 Ma2].
      exists (list_to_set vs). unfold summary_of_field. fold vs. cbn [fs_distinct fs_min fs_max fs_position_count].
      split_and!.
      * intros E. assert (value_min vs ∈ (list_to_set vs : gset value)) as H by (by apply elem_of_list_to_set).
        rewrite E in H. by apply elem_of_empty in H.
      * intros v. by rewrite elem_of_list_to_set.
      * rewrite size_list_to_set by done. done.
      * by apply elem_of_list_to_set.
      * intros v Hv%elem_of_list_to_set. by apply Mi2.
      * by apply elem_of_list_to_set.
      * intros v Hv%elem_of_list_to_set. by apply Ma2.
      * rewrite positions_sum.
        -- unfold stored_positions. by rewrite Hii, Hpi.
        -- intros k row. rewrite Hpi, E4.
           intros Hrow. destruct k as [f first]. exact (rebuilt_pos_count bsz pos c bs segs (disk cn) Hp HF Hcond f first row Hrow).
    + intros v Hk. apply HF'. apply Hkn in Hk as (f & row & H1 & H2 & _). apply elem_of_fields_of. rewrite Hii. eauto.
Qed.
Print Assumptions C13_field_summary_partial.

(** So it describes the corpus whenever every feature known before still occurs, for
    instance on a new index. *)
Theorem C13_field_summary_new_index_partial : forall bsz pos c s cn cn',
  index_ready cn -> (forall F v, known (disk cn) F v -> occurs c F v) ->
  complete s (length (batches bsz c)) -> run_index bsz pos c s cn = (cn', Ok tt) ->
  forall F, match field_summary (disk cn') !! F with
    | None => forall v, ~ occurs c F v
    | Some row => exists vals : gset value, vals ≠ ∅ /\ (forall v, v ∈ vals <-> occurs c F v) /\
        fs_distinct row = N.of_nat (size vals) /\
        fs_min row ∈ vals /\ (forall v, v ∈ vals -> value_le (fs_min row) v) /\
        fs_max row ∈ vals /\ (forall v, v ∈ vals -> value_le v (fs_max row)) /\
        fs_position_count row = N.of_nat (stored_positions (disk cn') F)
    end.
Proof.
  intros bsz pos c s cn cn' Hr Hold Hc Hrun F.
  destruct (C13_field_summary_partial _ _ _ _ _ _ Hr Hc Hrun) as [Hk H]. specialize (H F).
  assert (forall v, known (disk cn') F v <-> occurs c F v) as Hko.
  { intros v. rewrite Hk. split; [intros [?|?]; eauto|by right]. }
  destruct (field_summary (disk cn') !! F) as [row|].
  - destruct H as (vals & H1 & H2 & H3). exists vals. split_and!; [done| |apply H3..].
    intros v. by rewrite H2.
  - intros v Hv. by apply (H v), Hko.
Qed.
Print Assumptions C13_field_summary_new_index_partial.

Definition conn2 : conn := (run_index 5 true corpus2 (in_order 1) conn1).1.

Example C13_example :
  (forall F v, known (disk conn0) F v -> occurs corpus1 F v) /\
  field_summary (disk conn1) !! "text" = Some (FsumRow 3 (t "a") (t "c") 5) /\
  field_summary (disk conn1) !! "lang" = Some (FsumRow 2 (t "de") (t "en") 0) /\
  field_summary (disk conn1) !! "nope" = None.
Proof.
  split; [|by_computation]. intros F v (f & (row & H & _)%lookup_feature_ok).
  change (inverted_index (disk conn0)) with (∅ : gmap N feature_row) in H. by rewrite lookup_empty in H.
Qed.

(** Refuted in general: after indexing another corpus, values that no longer occur
    are still counted. *)
Theorem C13_retired_values_counted_refuted : exists bsz pos c s cn cn' F v row,
  index_ready cn /\ complete s (length (batches bsz c)) /\ run_index bsz pos c s cn = (cn', Ok tt) /\
  field_summary (disk cn') !! F = Some row /\ fs_min row = v /\ ~ occurs c F v.
Proof.
  exists 5, true, corpus2, (in_order 1), conn1, conn2, "text", (t "a"), (FsumRow 4 (t "a") (t "d") 2).
  split_and!.
  - apply conn1_ready.
  - apply complete_in_order.
  - assert ((run_index 5 true corpus2 (in_order 1) conn1).2 = Ok tt) as H by by_computation.
    exact (run_eq _ _ H).
  - by_computation.
  - done.
  - intros (doc & k & fs & Hd & fv & Hin & Hv). unfold corpus2 in Hd. destruct (N.to_nat doc); [|done].
    injection Hd as <- <-. apply elem_of_list_singleton in Hin. injection Hin as ->. cbn in Hv.
    by repeat (apply elem_of_cons in Hv as [Hv|Hv]; [done|]); apply elem_of_nil in Hv.
Qed.
Print Assumptions C13_retired_values_counted_refuted.

(** ** C14 *)
Lemma batches_count_aux size pending docs : 1 <= size -> length pending < size ->
  let n := length pending + length docs in
  length (make_batches size pending docs) = n / size + (if n mod size =? 0 then 0 else 1).
Proof.
  intros Hs. revert pending. induction docs as [|x docs IH]; intros pending Hp; cbn [make_batches].
  - cbv zeta. cbn [length]. rewrite Nat.add_0_r. rewrite Nat.div_small, Nat.mod_small by done.
    destruct pending; cbn; [done|]. done.
  - cbv zeta in *. destruct (Nat.leb_spec size (length (pending ++ [x]))) as [Hle|Hgt]; rewrite app_length in *; cbn [length] in *.
    + rewrite IH by (cbn; lia). cbn [length]. rewrite Nat.add_0_l.
      replace (length pending + S (length docs)) with (length docs + 1 * size) by lia.
      rewrite Nat.div_add, Nat.mod_add by lia. lia.
    + rewrite IH by (rewrite app_length; cbn; lia). rewrite app_length. cbn [length].
      replace (length pending + 1 + length docs) with (length pending + S (length docs)) by lia. done.
Qed.

(** Batches cover the documents in order, none is empty or too large; at every moment
    at most [workers + 1] are in flight, and each is submitted exactly once. *)
Theorem C14_batches_and_flight : forall bsz workers pick c,
  let size := max 1 bsz in
  let full := length c / size in
  let final := negb (length c mod size =? 0) in
  let st := dispatch_all workers pick full final in
  concat (batches bsz c) = zip (N.of_nat <$> seq 0 (length c)) (snd <$> c) /\
  (forall b, b ∈ batches bsz c -> 1 <= length b <= size) /\
  submitted st = seq 0 (length (batches bsz c)) /\ peak st <= workers + 1.
Proof.
  intros bsz workers pick c. cbv zeta. split_and!.
  - rewrite batches_concat. unfold enumerate, corpus in *. by rewrite fmap_length.
  - intros b Hb. eapply (make_batches_length bsz [] _ b); [cbn; lia|exact Hb].
  - destruct (dispatch_spec workers pick (length c / max 1 bsz) (negb (length c mod max 1 bsz =? 0))) as [-> _].
    f_equal. assert (batches bsz c = batches (max 1 bsz) c) as ->.
    { unfold batches. generalize (enumerate (snd <$> c)). intros l.
      destruct bsz as [|bsz]; [|done]. cbn [max]. generalize (@nil (N * res features)).
      induction l as [|x l IH]; intros p; [done|]. cbn [make_batches].
      rewrite app_length. cbn [length]. rewrite !(proj2 (Nat.leb_le _ _)) by lia. f_equal. apply IH. }
    unfold batches. rewrite batches_count_aux by (cbn [length]; lia). cbn [length].
    unfold enumerate. rewrite zip_with_length, !fmap_length, seq_length. rewrite Nat.min_id, Nat.add_0_l.
    f_equal. by destruct (_ =? 0).
  - apply dispatch_spec.
Qed.
Print Assumptions C14_batches_and_flight.

(** At the merge every batch has completed: if one of them fails, the call raises. *)
Theorem C14_no_batch_lost : forall bsz pos c s cn cn',
  index_ready cn -> complete s (length (batches bsz c)) -> run_index bsz pos c s cn = (cn', Ok tt) ->
  forall i b, batches bsz c !! i = Some b -> fault s i = None /\ exists seg, index_docs pos b = Ok seg.
Proof.
  intros bsz pos c s cn cn' (Hid & Hu & Hf) Hc Hrun i b Hb.
  destruct (index_cases bsz pos c s cn Hid Hu Hf Hc) as [(e & d & _ & H)|(bs & segs & _ & _ & Hr & _)]; [congruence|].
  unfold run_batches in Hr. apply rtraverse_ok_iff in Hr.
  assert (i ∈ finish_order s) as Hin.
  { unfold complete in Hc. rewrite Hc. apply elem_of_seq. apply lookup_lt_Some in Hb. lia. }
  apply elem_of_list_lookup in Hin as [j Hj]. destruct (Forall2_lookup_l _ _ _ _ _ Hr Hj) as (seg & _ & H).
  cbn in H. destruct (fault s i); [done|]. split; [done|]. rewrite Hb in H. eauto.
Qed.
Print Assumptions C14_no_batch_lost.

Example C14_example :
  length (batches 2 corpus1) = 2 /\ peak (dispatch_all 1 (fun _ _ => false) 5 true) = 2 /\
  submitted (dispatch_all 1 (fun _ _ => false) 5 true) = [0; 1; 2; 3; 4; 5].
Proof. by_computation. Qed.

(** ** C53 *)
(** [features_unique] holds after every successful or failed [index] (C08) from the
    empty database on. *)
Theorem C53_feature_lookup : forall d, features_unique (inverted_index d) ->
  (forall f k, lookup_feature_id d k = Ok f <-> lookup_feature d f = Ok k) /\
  (forall f k, lookup_feature d f = Ok k -> getitem d (KId f) = getitem d (KFeature k)) /\
  (forall f, (forall k, lookup_feature d f <> Ok k) -> lookup_feature d f = Err KeyError /\ getitem d (KId f) = Some ∅) /\
  (forall k, (forall f, lookup_feature d f <> Ok k) -> lookup_feature_id d k = Err KeyError /\ getitem d (KFeature k) = Some ∅) /\
  (forall F v, known d F v <-> exists f row, inverted_index d !! f = Some row /\ f_field row = F /\ f_value row = v).
Proof.
  intros d Hu. split_and!.
  - intros f k. by apply lookup_feature_id_ok.
  - intros f k Hk. pose proof (proj2 (lookup_feature_id_ok d f k Hu) Hk) as Hid. unfold lookup_feature_id in Hid.
    unfold getitem. destruct (find_feature _ k) as [g|]; [|done]. by injection Hid as ->.
  - intros f Hf. unfold lookup_feature, getitem in *. destruct (inverted_index d !! f) as [row|]; [|done].
    exfalso. by eapply Hf.
  - intros k Hk. unfold lookup_feature_id, getitem. destruct (find_feature _ k) as [g|] eqn:E; [|done].
    exfalso. apply (Hk g). apply lookup_feature_id_ok; [done|]. unfold lookup_feature_id. by rewrite E.
  - intros F v. unfold known. split.
    + intros (f & (row & H1 & H2)%lookup_feature_ok). unfold row_key in H2. injection H2 as <- <-. eauto.
    + intros (f & row & H1 & <- & <-). exists f. apply lookup_feature_ok. eauto.
Qed.
Print Assumptions C53_feature_lookup.

Example C53_example :
  features_unique (inverted_index (disk conn1)) /\
  lookup_feature_id (disk conn1) ("text", t "c") = Ok 5%N /\ lookup_feature (disk conn1) 5 = Ok ("text", t "c") /\
  lookup_feature (disk conn1) 77 = Err KeyError /\ getitem (disk conn1) (KId 77) = Some ∅.
Proof. split; [apply conn1_ready|]. by_computation. Qed.

(** ** C54, refuted: a slice always gives None. *)
Theorem C54_slice_refuted : forall d a b, getitem d (KSlice a b) = None.
Proof. done. Qed.
Print Assumptions C54_slice_refuted.

(** ** C15 *)
Lemma crash_cases bsz pos c s cn cn' r d :
  index_ready cn -> complete s (length (batches bsz c)) -> run_index bsz pos c s cn = (cn', r) ->
  crash_states cn cn' d -> d = disk cn \/
    (exists bs segs, bs ≡ₚ batches bsz c /\ Forall2 (fun b seg => index_docs pos b = Ok seg) bs segs /\
       (d = rebuilt (fst <$> c) segs (disk cn) \/ refreshed (rebuilt (fst <$> c) segs (disk cn)) d)).
Proof.
  intros (Hid & Hu & Hf) Hc Hr [->|(new & old & Hcm & -> & Hin)]; [by left|].
  destruct (index_cases bsz pos c s cn Hid Hu Hf Hc) as [(e & d0 & _ & H)|(bs & segs & Hp & HF & _ & Hcond & Hu1 & Hcase)].
  { rewrite H in Hr. injection Hr as <- <-. assert (new = []) as ->; [|by apply elem_of_nil in Hin].
    apply (f_equal length) in Hcm. rewrite app_length in Hcm. destruct new; [done|]. cbn in Hcm. lia. }
  right. exists bs, segs. split_and!; [done..|].
  destruct Hcase as [(k & _ & H)|(_ & d2 & Hd2 & H)]; rewrite H in Hr; injection Hr as <- <-; cbn [commits] in Hcm.
  - change (?a :: ?l) with ([a] ++ l) in Hcm. apply app_inv_tail in Hcm. subst new.
    apply elem_of_list_singleton in Hin as ->. by left.
  - change (?a :: ?b :: ?l) with ([a; b] ++ l) in Hcm. apply app_inv_tail in Hcm. subst new.
    apply elem_of_cons in Hin as [->|Hin]; [by right|]. apply elem_of_list_singleton in Hin as ->. by left.
Qed.

Definition conn3 : conn := (initialise_clusters 2 1 [] rng0 conn1).1.
Lemma conn3_ready : index_ready conn3 /\ quiet (disk conn3) /\ pool_works conn3.
Proof.
  destruct conn1_ready as ((H1 & H2 & H3) & Hq & H4).
  destruct (initialise_call 2 1 [] rng0 conn1 H1 H2 H4 ltac:(lia) ltac:(constructor))
    as (cn' & Hrun & Hi & Hq' & (_ & Hii & _) & _).
  assert (conn3 = cn') as -> by (unfold conn3; rewrite Hrun; exact eq_refl).
  assert (pool_works cn') as Hp.
  { assert (pool_works conn3) as Hp by (vm_compute; reflexivity). unfold conn3 in Hp. rewrite Hrun in Hp. exact Hp. }
  rewrite <- Hii in H3.
  exact (conj (conj Hi (conj (quiet_usable _ Hq') H3)) (conj Hq' Hp)).
Qed.

(** Refuted: the process dies between the two commits of an [index] call that would
    have succeeded. The database left behind has clusters whose stored summaries are
    wrong, and every later [index] call fails. *)
Theorem C15_crash_during_index_refuted : exists bsz pos c s cn cn' d,
  index_ready cn /\ quiet (disk cn) /\ pool_works cn /\ complete s (length (batches bsz c)) /\
  run_index bsz pos c s cn = (cn', Ok tt) /\ crash_states cn cn' d /\
  (exists x row, cluster d !! x = Some row /\ ~ summary_correct d x row) /\
  (forall bsz' pos' c' s' p, exists e, run_index bsz' pos' c' s' (open_index d p) = (open_index d p, Err e)).
Proof.
  assert ((run_index 5 true corpus2 (in_order 1) conn3).2 = Ok tt) as H by by_computation.
  set (cn' := (run_index 5 true corpus2 (in_order 1) conn3).1).
  set (d := default empty_db (commits cn' !! 1)).
  exists 5, true, corpus2, (in_order 1), conn3, cn', d. destruct conn3_ready as (R1 & R2 & R3).
  split_and!; [exact R1|exact R2|exact R3|apply complete_in_order|exact (run_eq _ _ H)| | |].
  - right. exists (take 2 (commits cn')), (commits conn3). split_and!; [|done|].
    + by_computation.
    + assert (take 2 (commits cn') !! 1 = commits cn' !! 1) as E1 by (by rewrite lookup_take by lia).
      assert (is_Some (commits cn' !! 1)) as [x Hx] by (apply lookup_lt_is_Some_2; apply (bool_decide_unpack _); vm_compute; exact I).
      apply (elem_of_list_lookup_2 _ 1). unfold d. rewrite E1, Hx. done.
  - destruct (cluster d !! 0%Z) as [row|] eqn:Er.
    + exists 0%Z, row. split; [exact Er|]. intros (_ & (docs & Hd & _ & _) & Hw).
      assert (c_weight <$> cluster d !! 0%Z <>
        Some (N.of_nat (sum_list_with (fun f => size (feature_docs d f)) (elements (members d 0))))) as E by by_computation.
      apply E. rewrite Er. exact (f_equal Some Hw).
    + exfalso. assert (is_Some (cluster d !! 0%Z)) as [x Hx]; [|congruence].
      apply (bool_decide_unpack _). vm_compute. exact I.
  - intros bsz' pos' c' s' p.
    destruct (rebuild bsz' pos' c' s' d) as [d1 [[]|e]] eqn:E.
    + exfalso. apply rebuild_inv in E as (segs & _ & Hcond & _). pose proof (rc_marks _ _ _ Hcond) as Hm.
      assert (0%Z ∈ dom (cluster d) /\ 0%Z ∈ changed_cluster d) as [A B] by by_computation.
      exact (Hm _ A B).
    + exists e. eapply index_fails; [by constructor|exact E].
Qed.
Print Assumptions C15_crash_during_index_refuted.

(** What does hold of every crash state [d]: its features and references are sound,
    every cluster with a wrong summary is marked, and any modifying call (here one
    that pins nothing) repairs it, after which [index] works again; a crash while
    there are no clusters needs no repair. *)
Theorem C15_crash_during_index_partial : forall bsz pos c s cn cn' r d,
  index_ready cn -> quiet (disk cn) -> complete s (length (batches bsz c)) ->
  run_index bsz pos c s cn = (cn', r) -> crash_states cn cn' d ->
  usable d /\ features_unique (inverted_index d) /\
  (cluster (disk cn) = ∅ -> quiet d) /\
  forall p, p 0 = None -> exists cn1, pin_features [] true (open_index d p) = (cn1, Ok tt) /\
    same_index d (disk cn1) /\ quiet (disk cn1) /\ index_ready cn1 /\
    (forall bsz' pos' c' s', pool_works cn1 -> well_formed pos' c' -> complete s' (length (batches bsz' c')) ->
       (forall i, fault s' i = None) ->
       exists cn2, run_index bsz' pos' c' s' cn1 = (cn2, Ok tt) /\ quiet (disk cn2)).
Proof.
  intros bsz pos c s cn cn' r d Hr Hq Hc Hrun Hcr. pose proof Hr as (Hid & Hu & Hf).
  assert (usable d /\ features_unique (inverted_index d) /\ (cluster (disk cn) = ∅ -> quiet d)) as (A & B & C).
  { destruct (crash_cases _ _ _ _ _ _ _ _ Hr Hc Hrun Hcr) as [->|(bs & segs & Hp & HF & [->|Hd])]; [done| |].
    - pose proof (rebuilt_usable bsz pos c bs segs _ Hf Hu Hp HF) as Hu1.
      pose proof (merge_exact bsz pos c bs segs _ Hf Hp HF) as Hex. split_and!; [done|apply Hex|].
      intros Hcl. destruct Hu1 as [Hu1 Hst]. split; [done|].
      set (d1 := rebuilt _ _ _) in *. assert (cluster d1 = ∅) as Hcl1 by exact Hcl.
      split_and!.
      + intros x row. rewrite Hcl1, lookup_empty. done.
      + intros x. rewrite Hcl1, lookup_empty. split; [by intros []|]. intros Hm. exfalso.
        apply set_choose_L in Hm as [f Hfm]. unfold members in Hfm. apply elem_of_dom in Hfm as [row Hrow].
        apply map_filter_lookup_Some in Hrow as [Hrow _]. apply Hu1 in Hrow as [_ [? Hx]].
        rewrite Hcl1, lookup_empty in Hx. done.
      + apply set_eq. intros x. split; [|by intros ?%elem_of_empty]. intros Hx. apply Hu1 in Hx.
        rewrite Hcl1, lookup_empty in Hx. by destruct Hx.
    - destruct Hd as (H1 & H2 & (_ & H3 & _) & _). split_and!.
      + apply quiet_usable. by split.
      + rewrite H3. by apply (merge_exact bsz pos c bs segs _ Hf Hp HF).
      + intros _. by split. }
  split_and!; [done..|]. intros p Hp0.
  destruct (pin_features_call [] true (open_index d p) ltac:(by constructor) A Hp0)
    as (cn1 & H1 & H2 & H3 & H4 & _).
  exists cn1. split_and!; [done|done|done| |].
  - split_and!; [done|by apply quiet_usable|]. destruct H4 as (_ & -> & _). done.
  - intros bsz' pos' c' s' Hp1 Hwf Hc' Hft.
    destruct (C06_indexing_succeeds bsz' pos' c' s' cn1) as (cn2 & G1 & _ & G2); [| |  |done|done|done|by exists cn2].
    + split_and!; [done|by apply quiet_usable|]. destruct H4 as (_ & -> & _). done.
    + done.
    + done.
Qed.
Print Assumptions C15_crash_during_index_partial.

(** ** C71: re-indexing keeps the clustering and the pins, whether the call returns,
    raises or crashes; afterwards every clustered feature is counted as in the new
    index. *)
Theorem C71_reindexing_keeps_the_model : forall bsz pos c s cn cn' r d,
  index_ready cn -> complete s (length (batches bsz c)) -> run_index bsz pos c s cn = (cn', r) ->
  d = disk cn' \/ crash_states cn cn' d ->
  (forall f, assigned d f = assigned (disk cn) f) /\
  (forall f, feature_pinned d f = feature_pinned (disk cn) f) /\
  (forall x, members (disk cn) x ≠ ∅ -> cluster_pinned d x = cluster_pinned (disk cn) x) /\
  (forall f row, feature_cluster d !! f = Some row ->
     exists docs, getitem d (KId f) = Some docs /\ fc_docs_count row = N.of_nat (size docs)).
Proof.
  intros bsz pos c s cn cn' r d Hr Hc Hrun Hd. pose proof Hr as (Hid & Hu & Hf).
  assert (crash_states cn cn' d) as Hcr.
  { destruct Hd as [->|Hd]; [|done].
    destruct (index_cases bsz pos c s cn Hid Hu Hf Hc) as [(e & d0 & _ & H)|(bs & segs & _ & _ & _ & _ & _ & Hcase)].
    - rewrite H in Hrun. injection Hrun as <- <-. by left.
    - destruct Hcase as [(k & _ & H)|(_ & d2 & _ & H)]; rewrite H in Hrun; injection Hrun as <- <-; right; cbn.
      + eexists [_], _. split_and!; [done|done|]. by left.
      + eexists [_; _], _. split_and!; [done|done|]. by left. }
  assert (usable d) as Hus.
  { destruct (crash_cases _ _ _ _ _ _ _ _ Hr Hc Hrun Hcr) as [->|(bs & segs & Hp & HF & [->|(H1 & H2 & _)])]; [done| |].
    - exact (rebuilt_usable bsz pos c bs segs _ Hf Hu Hp HF).
    - apply quiet_usable. by split. }
  assert ((forall f, assigned d f = assigned (disk cn) f) /\
    (forall f, feature_pinned d f = feature_pinned (disk cn) f) /\
    (forall x, members (disk cn) x ≠ ∅ -> cluster_pinned d x = cluster_pinned (disk cn) x)) as (A & B & C).
  { destruct (crash_cases _ _ _ _ _ _ _ _ Hr Hc Hrun Hcr) as [->|(bs & segs & _ & _ & Hcase)]; [done|].
    set (d1 := rebuilt (fst <$> c) segs (disk cn)) in *.
    assert (forall f, fc_cluster <$> feature_cluster d1 !! f = fc_cluster <$> feature_cluster (disk cn) !! f) as E1.
    { intros f. cbn. rewrite map_lookup_imap. by destruct (feature_cluster (disk cn) !! f). }
    assert (forall f, fc_pinned <$> feature_cluster d1 !! f = fc_pinned <$> feature_cluster (disk cn) !! f) as E2.
    { intros f. cbn. rewrite map_lookup_imap. by destruct (feature_cluster (disk cn) !! f). }
    assert (forall x, members d1 x = members (disk cn) x) as E3.
    { intros x. apply set_eq. intros f. unfold members. rewrite !elem_of_dom. unfold is_Some.
      setoid_rewrite map_filter_lookup_Some. cbn [snd].
      specialize (E1 f). destruct (feature_cluster d1 !! f) as [r1|], (feature_cluster (disk cn) !! f) as [r2|];
        cbn in E1; [|done|done|naive_solver]. injection E1 as E1.
      split; intros (? & [= <-] & <-); eexists; split; (done || congruence). }
    assert (cluster d1 = cluster (disk cn)) as E4 by done.
    assert (forall f, feature_pinned d1 f = feature_pinned (disk cn) f) as E5.
    { intros f. unfold feature_pinned. specialize (E2 f).
      destruct (feature_cluster d1 !! f), (feature_cluster (disk cn) !! f); cbn in E2; congruence. }
    destruct Hcase as [->|(_ & _ & _ & F1 & F2)].
    - split_and!; [exact E1|exact E5|]. intros x _. unfold cluster_pinned. by rewrite E4.
    - split_and!.
      + intros f. unfold assigned. rewrite F1. apply E1.
      + intros f. rewrite <- E5. unfold feature_pinned. by rewrite F1.
      + intros x Hx. rewrite F2 by (by rewrite E3). unfold cluster_pinned. by rewrite E4. }
  split_and!; [done..|]. intros f row Hrow. destruct Hus as [[H1 H2] _].
  destruct (H1 f row Hrow) as [(ii & Hii & ->) _]. exists (f_doc_ids ii). unfold getitem. rewrite Hii.
  split; [done|]. by apply (proj1 H2 f).
Qed.
Print Assumptions C71_reindexing_keeps_the_model.

(** A pinned feature of a pinned cluster, in an index rebuilt from another corpus. *)
Definition conn4 : conn := (pin_clusters [0%Z] true (pin_features [3%N] true conn3).1).1.
Example C71_example :
  index_ready conn4 /\
  (run_index 5 true corpus2 (in_order 1) conn4).2 = Ok tt /\
  feature_pinned (disk conn4) 3 = true /\ cluster_pinned (disk conn4) 0 = true /\
  let d := disk (run_index 5 true corpus2 (in_order 1) conn4).1 in
  feature_pinned d 3 = true /\ assigned d 3 = assigned (disk conn4) 3 /\ cluster_pinned d 0 = true /\
  fc_docs_count <$> feature_cluster (disk conn4) !! 3%N = Some 1%N /\
  fc_docs_count <$> feature_cluster d !! 3%N = Some 0%N.
Proof.
  split; [|by_computation].
  destruct conn3_ready as ((H1 & H2 & H3) & Hq & H4).
  destruct (pin_features_call [3%N] true conn3 H1 H2 H4) as (ca & R1 & I1 & Q1 & (_ & S1 & _) & _).
  assert (pool_works (pin_features [3%N] true conn3).1) as P1 by (vm_compute; reflexivity).
  rewrite R1 in P1.
  destruct (pin_clusters_call [0%Z] true ca I1 (quiet_usable _ Q1) P1) as (cb & R2 & I2 & Q2 & (_ & S2 & _) & _).
  unfold conn4. rewrite R1. cbn [fst]. rewrite R2. cbn [fst].
  split_and!; [done|by apply quiet_usable|]. by rewrite S2, S1.
Qed.
