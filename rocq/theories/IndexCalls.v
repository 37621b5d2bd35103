(** IndexCalls.v: the outcomes of a call of [index]. *)
From Verif Require Export RebuildProofs ClusterCalls.

(** The connection inside the first transaction. *)
Definition begun_conn (cn : conn) : conn :=
  Conn (disk cn) (disk cn) true [] 0 false false (pool cn) (pool_pos cn) (commits cn).
Lemma index_idle bsz pos c s cn : idle cn ->
  run_index bsz pos c s cn =
    match pbind (on_db (rebuild bsz pos c s)) (fun _ =>
              pbind sql_commit (fun _ =>
              pbind sql_begin (fun _ =>
              pbind update_changed_clusters (fun _ => sql_commit)))) (begun_conn cn) with
    | (cn2, Ok u) => ((sql_foreign_keys true cn2).1, Ok u)
    | (cn2, Err e) =>
        match sql_rollback cn2 with
        | (cn3, Ok _) => ((sql_foreign_keys true cn3).1, Err e)
        | (cn3, Err e') => ((sql_foreign_keys true cn3).1, Err e')
        end
    end.
Proof.
  intros Hid. rewrite (idle_eq cn Hid) at 1. unfold run_index.
  change (sql_foreign_keys false _) with (Conn (disk cn) (disk cn) false [] 0 false false (pool cn) (pool_pos cn) (commits cn), Ok tt).
  cbv iota beta. change (sql_begin _) with (begun_conn cn, Ok tt). cbv iota beta.
  destruct (pbind _ _ (begun_conn cn)) as [cn2 [u|e]]; [done|]. by destruct (sql_rollback cn2) as [cn3 [u|e']].
Qed.

Lemma index_fails bsz pos c s cn d1 e :
  idle cn -> rebuild bsz pos c s (disk cn) = (d1, Err e) ->
  run_index bsz pos c s cn = (cn, Err e).
Proof.
  intros Hid Hr. rewrite index_idle by done. unfold pbind at 1. rewrite on_db_run by done.
  change (cur (begun_conn cn)) with (disk cn). rewrite Hr. cbn. f_equal. by rewrite (idle_eq cn Hid).
Qed.

Lemma index_pool_fails bsz pos c s cn d1 k :
  idle cn -> rebuild bsz pos c s (disk cn) = (d1, Ok tt) -> pool cn (pool_pos cn) = Some k ->
  run_index bsz pos c s cn =
    (Conn d1 d1 false [] 0 false true (pool cn) (S (pool_pos cn)) (d1 :: commits cn), Err PoolError).
Proof.
  intros Hid Hr Hp. rewrite index_idle by done. unfold pbind at 1. rewrite on_db_run by done.
  change (cur (begun_conn cn)) with (disk cn). rewrite Hr. cbn [fst snd].
  unfold pbind. cbn -[update_changed_clusters].
  match goal with |- context [update_changed_clusters ?X] => change X with
    (Conn d1 d1 true [] 0 false false (pool cn) (pool_pos cn) (d1 :: commits cn)) end.
  unfold update_changed_clusters. cbn [pool pool_pos]. rewrite Hp. cbn. done.
Qed.

Lemma index_succeeds bsz pos c s cn d1 :
  idle cn -> rebuild bsz pos c s (disk cn) = (d1, Ok tt) -> usable d1 -> pool_works cn ->
  exists d2, refreshed d1 d2 /\ run_index bsz pos c s cn =
    (Conn d2 d2 false [] 0 false true (pool cn) (S (pool_pos cn)) (d2 :: d1 :: commits cn), Ok tt).
Proof.
  intros Hid Hr Hu Hp.
  set (c2 := Conn d1 d1 true [] 0 false false (pool cn) (pool_pos cn) (d1 :: commits cn)).
  destruct (housekeeping_ok c2) as (d2 & Hd2 & Hk); [done|done|done|done|].
  exists d2. split; [done|].
  rewrite index_idle by done. unfold pbind at 1. rewrite on_db_run by done.
  change (cur (begun_conn cn)) with (disk cn). rewrite Hr. cbn [fst snd].
  unfold pbind. cbn -[update_changed_clusters].
  match goal with |- context [update_changed_clusters ?X] => change X with c2 end.
  rewrite Hk. cbn. done.
Qed.

Lemma index_in_txn bsz pos c s cn : in_txn cn = true ->
  run_index bsz pos c s cn = (cn, Err IndexingError).
Proof. intros Ht. unfold run_index, sql_foreign_keys, sql_begin. by rewrite !Ht. Qed.

(** All outcomes from an idle connection on a usable database. *)
Lemma index_cases bsz pos c s cn :
  idle cn -> usable (disk cn) -> features_unique (inverted_index (disk cn)) ->
  complete s (length (batches bsz c)) ->
  (exists e d, rebuild bsz pos c s (disk cn) = (d, Err e) /\ run_index bsz pos c s cn = (cn, Err e)) \/
  (exists bs segs, bs ≡ₚ batches bsz c /\ Forall2 (fun b seg => index_docs pos b = Ok seg) bs segs /\
     run_batches pos (batches bsz c) s = Ok segs /\
     rebuild_conditions (fst <$> c) segs (disk cn) /\
     let d1 := rebuilt (fst <$> c) segs (disk cn) in
     usable d1 /\
     ((exists k, pool cn (pool_pos cn) = Some k /\ run_index bsz pos c s cn =
        (Conn d1 d1 false [] 0 false true (pool cn) (S (pool_pos cn)) (d1 :: commits cn), Err PoolError)) \/
      (pool_works cn /\ exists d2, refreshed d1 d2 /\ run_index bsz pos c s cn =
        (Conn d2 d2 false [] 0 false true (pool cn) (S (pool_pos cn)) (d2 :: d1 :: commits cn), Ok tt)))).
Proof.
  intros Hid Hu Hf Hc. destruct (rebuild bsz pos c s (disk cn)) as [d1 [[]|e]] eqn:Er.
  - right. apply rebuild_inv in Er as (segs & Hrun & Hcond & ->).
    destruct (run_batches_ok _ _ _ _ Hc Hrun) as (bs & Hp & HF).
    exists bs, segs. split_and!; [done..|]. cbv zeta.
    pose proof (rebuilt_usable bsz pos c bs segs _ Hf Hu Hp HF) as Hu1. split; [done|].
    pose proof (rebuild_run _ _ _ _ _ _ Hrun Hcond) as Er.
    destruct (pool cn (pool_pos cn)) as [k|] eqn:Ep.
    + left. exists k. split; [done|]. by eapply index_pool_fails.
    + right. split; [done|]. by eapply index_succeeds.
  - left. exists e, d1. split; [done|]. by eapply index_fails.
Qed.

(** ** A run without faults on a well-formed corpus succeeds *)
Lemma batches_nonempty bsz c b : b ∈ batches bsz c -> b ≠ [].
Proof.
  intros Hb. pose proof (make_batches_length bsz [] (enumerate (snd <$> c)) b ltac:(cbn; lia) Hb) as H.
  intros ->. cbn in H. lia.
Qed.

Lemma run_batches_total pos bsz (c : corpus) s :
  complete s (length (batches bsz c)) -> (forall i, fault s i = None) ->
  (forall k r, (k, r) ∈ c -> doc_indexable pos r) <->
  exists segs, run_batches pos (batches bsz c) s = Ok segs.
Proof.
  intros Hc Hf.
  assert ((forall k r, (k, r) ∈ c -> doc_indexable pos r) <->
    (forall b d, b ∈ batches bsz c -> d ∈ b -> doc_indexable pos d.2)) as ->.
  { split.
    - intros H b [x r] Hb Hd. assert ((x, r) ∈ concat (batches bsz c)) as Hin.
      { apply elem_of_concat. eauto. }
      apply (batch_docs bsz c x r _ (Permutation_refl _)) in Hin as [k Hin].
      eapply H. by eapply elem_of_list_lookup_2.
    - intros H k r Hin. apply elem_of_list_lookup in Hin as [i Hi].
      assert ((N.of_nat i, r) ∈ concat (batches bsz c)) as Hin.
      { apply (batch_docs bsz c _ r _ (Permutation_refl _)). exists k. by rewrite Nat2N.id. }
      apply elem_of_concat in Hin as (b & Hd & Hb). by apply (H b _ Hb Hd). }
  split.
  - intros H. unfold run_batches.
    assert (forall i, i ∈ finish_order s -> i < length (batches bsz c)) as Hlt.
    { intros i Hi. unfold complete in Hc. rewrite Hc in Hi. apply elem_of_seq in Hi. lia. }
    clear Hc. induction (finish_order s) as [|i l IH]; [by eexists|]. cbn. rewrite Hf.
    destruct (lookup_lt_is_Some_2 (batches bsz c) i) as [b Hb]; [apply Hlt; left|]. rewrite Hb.
    apply elem_of_list_lookup_2 in Hb.
    destruct (proj1 (index_docs_total pos b (batches_nonempty _ _ _ Hb)) (fun d => H b d Hb)) as [seg ->]. cbn.
    destruct IH as [segs ->]; [intros j Hj; apply Hlt; by right|]. cbn. eauto.
  - intros [segs Hr] b d Hb Hd. destruct (run_batches_ok _ _ _ _ Hc Hr) as (bs & Hp & HF).
    rewrite <- Hp in Hb. apply elem_of_list_lookup in Hb as [i Hi].
    destruct (Forall2_lookup_l _ _ _ _ _ HF Hi) as (seg & Hseg & Hok).
    assert (b ≠ []) as Hne by (by intros ->).
    apply (proj2 (index_docs_total pos b Hne)); eauto.
Qed.

Lemma rebuild_total bsz pos (c : corpus) s d :
  complete s (length (batches bsz c)) -> (forall i, fault s i = None) ->
  NoDup (fst <$> c) -> c ≠ [] -> dom (cluster d) ## changed_cluster d ->
  (forall k r, (k, r) ∈ c -> doc_indexable pos r) ->
  exists d1, rebuild bsz pos c s d = (d1, Ok tt).
Proof.
  intros Hc Hf Hk Hne Hm Hd.
  destruct (proj1 (run_batches_total pos bsz c s Hc Hf) Hd) as [segs Hr].
  destruct (run_batches_ok _ _ _ _ Hc Hr) as (bs & Hp & HF).
  eexists. eapply rebuild_run; [done|]. by eapply segments_conditions.
Qed.

Lemma quiet_unmarked d : quiet d -> dom (cluster d) ## changed_cluster d.
Proof. intros [_ (_ & _ & H)]. rewrite H. set_solver. Qed.

Lemma rebuild_schedule bsz pos c s1 s2 d d1 :
  complete s1 (length (batches bsz c)) -> complete s2 (length (batches bsz c)) ->
  rebuild bsz pos c s1 d = (d1, Ok tt) ->
  (forall i, fault s2 i = None) ->
  rebuild bsz pos c s2 d = (d1, Ok tt).
Proof.
  intros H1 H2 Hr Hf. apply rebuild_inv in Hr as (segs & Hrun & Hcond & ->).
  assert (exists segs2, run_batches pos (batches bsz c) s2 = Ok segs2 /\ segs2 ≡ₚ segs) as (segs2 & Hrun2 & Hp).
  { unfold complete in H1, H2. unfold run_batches in *.
    assert (finish_order s1 ≡ₚ finish_order s2) as Hp by (by rewrite H1, H2). clear H1 H2.
    assert (rtraverse (fun i => match batches bsz c !! i with Some b => index_docs pos b | None => Err IndexError end)
       (finish_order s1) = Ok segs) as Hrun'.
    { apply rtraverse_ok_iff in Hrun. apply rtraverse_ok_iff. eapply Forall2_impl; [exact Hrun|]. cbn.
      intros i seg. by destruct (fault s1 i). }
    clear Hrun.
    assert (exists segs2, rtraverse (fun i => match batches bsz c !! i with Some b => index_docs pos b | None => Err IndexError end)
       (finish_order s2) = Ok segs2 /\ segs2 ≡ₚ segs) as (segs2 & H1 & H2).
    { apply rtraverse_ok_iff in Hrun'. setoid_rewrite rtraverse_ok_iff. clear -Hrun' Hp. revert segs Hrun'.
      induction Hp as [|x l l' Hp IH|x y l|l l' l'' _ IH1 _ IH2]; intros segs HF.
      - apply Forall2_nil_inv_l in HF as ->. exists []. split; [constructor|done].
      - apply Forall2_cons_inv_l in HF as (y & ys & Hy & HF & ->). destruct (IH ys HF) as (ys' & H1 & H2).
        exists (y :: ys'). split; [by constructor|by constructor].
      - apply Forall2_cons_inv_l in HF as (a & ys & Ha & HF & ->).
        apply Forall2_cons_inv_l in HF as (b & zs & Hb & HF & ->).
        exists (b :: a :: zs). split; [by repeat constructor|constructor].
      - destruct (IH1 _ HF) as (ys & Hys & Hp1). destruct (IH2 _ Hys) as (zs & Hzs & Hp2).
        exists zs. split; [done|]. by etrans. }
    exists segs2. split; [|done]. rewrite <- H1. clear -Hf.
    induction (finish_order s2) as [|i l IH]; [done|]. cbn. rewrite Hf. by rewrite IH. }
  rewrite (rebuilt_perm _ _ _ _ Hcond (symmetry Hp)). eapply rebuild_run; [done|].
  destruct (run_batches_ok _ _ _ _ H2 Hrun2) as (bs & Hpb & HF). destruct Hcond as [C1 C2 C3 C4 C5].
  eapply segments_conditions; [done| |done|done|done]. intros ->. cbn in *.
  apply rtraverse_ok_iff in Hrun. unfold complete, batches in H1. cbn in H1. apply Permutation_nil_r in H1.
  rewrite H1 in Hrun. apply Forall2_nil_inv_l in Hrun. done.
Qed.
