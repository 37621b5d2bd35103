(** ClientProofs.v: what the transactions of the clients do, alone and interleaved. *)
From Verif Require Export SpecClients ConcurrentProofs WebProofs HistoryProofs SampleDb.
From Verif Require Import LookupProofs PropertiesIndexing.

Definition sound (d : db) : Prop := usable d /\ features_unique (inverted_index d).

Lemma getitem_index d d' k : inverted_index d' = inverted_index d -> getitem d' k = getitem d k.
Proof. intros E. unfold getitem. by rewrite E. Qed.

(** ** Effects *)
Lemma write_txn_effect w p torn d d' r : sound d -> t_alone (write_txn w p torn) d = (d', r) ->
  sound d' /\ inverted_index d' = inverted_index d /\ (quiet d -> quiet d') /\ (r = Ok Finished -> quiet d').
Proof.
  intros [Hu Hf] H. cbn in H. destruct (run_write w (open_index d p)) as [c x] eqn:E. injection H as <- <-.
  destruct (call_cases w (open_index d p) (idle_open d p) Hu) as [(e & c' & H & Hd)|(_ & c' & H & Hi & Hq & Hs & _)];
    rewrite H in E; injection E as <- <-.
  - rewrite Hd. cbn. split_and!; [by split|done|done|done].
  - destruct Hs as (_ & Hs & _). cbn in Hs. split_and!; [split; [by apply quiet_usable|by rewrite Hs]|done|done|done].
Qed.
Lemma request_txn_effect parse v torn d d' r : sound d -> t_alone (request_txn parse v torn) d = (d', r) ->
  sound d' /\ inverted_index d' = inverted_index d /\ (quiet d -> quiet d').
Proof.
  intros [Hu Hf] H. cbn in H. pose proof (serve_consistent parse (v_pool v) (v_g1 v) (v_g2 v) (v_request v) d Hu) as Hc.
  destruct (serve parse (v_pool v) (v_g1 v) (v_g2 v) (v_request v) d) as [d1 a]. injection H as <- <-. cbn in Hc.
  destruct Hc as [->|[Hq Hs]]; [split_and!; [by split|done|done]|]. destruct Hs as (_ & Hs & _).
  split_and!; [split; [by apply quiet_usable|by rewrite Hs]|done|done].
Qed.
Lemma refresh_txn_effect p torn d d' r : sound d -> t_alone (refresh_txn p torn) d = (d', r) ->
  sound d' /\ inverted_index d' = inverted_index d /\ (quiet d -> quiet d') /\ (r = Ok Finished -> quiet d').
Proof.
  intros [Hu Hf] H. unfold refresh_txn, refresh_summaries, pbind in H. cbn -[update_changed_clusters] in H.
  set (c1 := set_begun true (set_fk false (open_index d p))) in *.
  destruct (p 0) as [k|] eqn:Ep.
  - unfold update_changed_clusters in H. change (pool c1 (pool_pos c1)) with (p 0) in H. rewrite Ep in H. cbn in H.
    injection H as <- <-. split_and!; [by split|done|done|done].
  - destruct (housekeeping_ok c1) as (d2 & Hr & Hk); [done|done|done|done|]. rewrite Hk in H. cbn in H. injection H as <- <-.
    pose proof Hr as (R1 & R2 & R3 & _). destruct R3 as (_ & R3 & _). cbn in R3.
    assert (quiet d2) as Hq by done. split_and!; [split; [by apply quiet_usable|by rewrite R3]|done|done|done].
Qed.
Lemma merge_txn_effect bsz pos cp s torn d d' r : sound d -> complete s (length (batches bsz cp)) ->
  t_alone (merge_txn bsz pos cp s torn) d = (d', r) ->
  sound d' /\ (r = Ok Finished -> index_of d' cp) /\ (r ≠ Ok Finished -> d' = d).
Proof.
  intros [Hu Hf] Hc H. cbn in H. destruct (rebuild bsz pos cp s d) as [d1 [[]|e]] eqn:E; injection H as <- <-.
  - apply rebuild_inv in E as (segs & Hrun & Hcond & ->). destruct (run_batches_ok _ _ _ _ Hc Hrun) as (bs & Hp & HF).
    pose proof (merge_exact _ _ _ _ _ _ Hf Hp HF) as Hex.
    split_and!; [split; [by eapply rebuilt_usable|apply Hex]|intros _|done].
    intros field v. by apply (getitem_exact cp (inverted_index d)).
  - split_and!; [by split|done|done].
Qed.

(** ** Runs of client transactions one at a time *)
Lemma client_effect parse e d d' : client_txn parse (e_txn e) -> sound d -> t_alone (e_txn e) d = (d', e_result e) ->
  sound d' /\ ((inverted_index d' = inverted_index d /\ (quiet d -> quiet d')) \/ exists cp, installed e cp /\ index_of d' cp).
Proof.
  intros Hc Hs H. inversion Hc as [w p torn E|bsz pos cp s torn Hcm E|p torn E|k torn E|torn E|sorter arrival cl w E|v torn Hv E];
    rewrite <- E in H; symmetry in E.
  - destruct (write_txn_effect _ _ _ _ _ _ Hs H) as (? & ? & ? & _). auto.
  - destruct (merge_txn_effect _ _ _ _ _ _ _ _ Hs Hcm H) as (H1 & H2 & H3). split; [done|].
    destruct (decide (e_result e = Ok Finished)) as [Er|Er].
    + right. exists cp. split; [|by apply H2]. exists bsz, pos, s, torn. done.
    + left. by rewrite (H3 Er).
  - destruct (refresh_txn_effect _ _ _ _ _ Hs H) as (? & ? & ? & _). auto.
  - injection H as <- _. auto.
  - injection H as <- _. auto.
  - injection H as <- _. auto.
  - destruct (request_txn_effect _ _ _ _ _ _ Hs H) as (? & ? & ?). auto.
Qed.
Lemma client_run parse order d d' : one_at_a_time d order d' -> Forall (fun e => client_txn parse (e_txn e)) order ->
  sound d -> sound d'.
Proof.
  intros H. induction H as [d|d e d1 es d2 He _ IH]; intros Hc Hs; [done|]. apply Forall_cons in Hc as [Hc Hcs].
  apply IH; [done|]. by eapply client_effect.
Qed.
Lemma client_run_quiet parse order d d' : one_at_a_time d order d' -> Forall (fun e => client_txn parse (e_txn e)) order ->
  sound d -> (forall e cp, e ∈ order -> ~ installed e cp) ->
  inverted_index d' = inverted_index d /\ (quiet d -> quiet d').
Proof.
  intros H. induction H as [d|d e d1 es d2 He _ IH]; intros Hc Hs Hn; [done|]. apply Forall_cons in Hc as [Hc Hcs].
  destruct (client_effect parse e d d1 Hc Hs He) as (Hs1 & [[Hi Hq]|(cp & Hm & _)]); [|by destruct (Hn e cp); [left|]].
  destruct (IH Hcs Hs1) as [H1 H2]; [intros x cp Hx; apply Hn; by right|]. split; [congruence|auto].
Qed.

(** The last merge decides the contents; an update after it, the summaries. *)
Lemma client_run_contents parse order d d' pre e post cp : one_at_a_time d order d' ->
  Forall (fun e => client_txn parse (e_txn e)) order -> sound d -> order = pre ++ e :: post -> installed e cp ->
  (forall x c, x ∈ post -> ~ installed x c) -> index_of d' cp.
Proof.
  intros H Hc Hs -> (bsz & pos & s & torn & Et & Hcm & Er) Hn.
  apply one_app in H as (d1 & H1 & H2). apply Forall_app in Hc as [Hc1 Hc2]. apply Forall_cons in Hc2 as [Hce Hc2].
  inversion H2 as [|? ? d2 ? ? He Hr]; subst. pose proof (client_run _ _ _ _ H1 Hc1 Hs) as Hs1.
  rewrite Et in He. destruct (merge_txn_effect _ _ _ _ _ _ _ _ Hs1 Hcm He) as (Hs2 & Hi & _). specialize (Hi Er).
  destruct (client_run_quiet _ _ _ _ Hr Hc2 Hs2 Hn) as [E _]. intros field v. by rewrite (getitem_index _ _ _ E).
Qed.
Lemma client_run_updated parse order d d' pre e post : one_at_a_time d order d' ->
  Forall (fun e => client_txn parse (e_txn e)) order -> sound d -> order = pre ++ e :: post -> updated e ->
  (forall x c, x ∈ post -> ~ installed x c) -> quiet d'.
Proof.
  intros H Hc Hs -> [Hu Er] Hn.
  apply one_app in H as (d1 & H1 & H2). apply Forall_app in Hc as [Hc1 Hc2]. apply Forall_cons in Hc2 as [Hce Hc2].
  inversion H2 as [|? ? d2 ? ? He Hr]; subst. pose proof (client_run _ _ _ _ H1 Hc1 Hs) as Hs1.
  assert (sound d2 /\ quiet d2) as [Hs2 Hq2].
  { destruct Hu as [(w & p & torn & Et)|(p & torn & Et)]; rewrite Et in He.
    - destruct (write_txn_effect _ _ _ _ _ _ Hs1 He) as (? & _ & _ & ?). auto.
    - destruct (refresh_txn_effect _ _ _ _ _ Hs1 He) as (? & _ & _ & ?). auto. }
  destruct (client_run_quiet _ _ _ _ Hr Hc2 Hs2 Hn) as [_ Hq]. auto.
Qed.
(** Contents at any point: those of the start or of one merge. *)
Lemma client_run_which parse order d d' : one_at_a_time d order d' -> Forall (fun e => client_txn parse (e_txn e)) order ->
  sound d -> inverted_index d' = inverted_index d \/ exists e cp, e ∈ order /\ installed e cp /\ index_of d' cp.
Proof.
  intros H. induction H as [d|d e d1 es d2 He _ IH]; intros Hc Hs; [by left|]. apply Forall_cons in Hc as [Hc Hcs].
  destruct (client_effect parse e d d1 Hc Hs He) as (Hs1 & Hor).
  destruct (IH Hcs Hs1) as [E|(x & cp & Hx & Hm & Hi)]; [|right; exists x, cp; split_and!; [by right|done|done]].
  destruct Hor as [[E' _]|(cp & Hm & Hi)]; [left; congruence|].
  right. exists e, cp. split_and!; [by left|done|]. intros field v. by rewrite (getitem_index _ _ _ E).
Qed.

(** ** The calls as sequences of transactions *)
(** [index] on a free connection is its two transactions. *)
Lemma run_index_two bsz pos cp s d p torn torn' : sound d -> complete s (length (batches bsz cp)) ->
  let '(c, r) := run_index bsz pos cp s (open_index d p) in
  match t_alone (merge_txn bsz pos cp s torn) d with
  | (d1, Ok _) => t_alone (refresh_txn p torn') d1 = (disk c, rmap (fun _ => Finished) r)
  | (d1, Err e) => disk c = d1 /\ r = Err e
  end.
Proof.
  intros [Hu Hf] Hcm. cbn -[refresh_txn run_index rebuild]. destruct (rebuild bsz pos cp s d) as [d1 [[]|e]] eqn:Er.
  - unfold refresh_txn, refresh_summaries, pbind. cbn -[update_changed_clusters run_index rebuild].
    set (c1 := set_begun true (set_fk false (open_index d1 p))).
    assert (usable d1) as Hu1.
    { pose proof Er as H. apply rebuild_inv in H as (segs & Hrun & Hcond & ->). destruct (run_batches_ok _ _ _ _ Hcm Hrun) as (bs & Hp & HF).
      by eapply rebuilt_usable. }
    destruct (p 0) as [k|] eqn:Ep.
    + rewrite (index_pool_fails bsz pos cp s (open_index d p) d1 k (idle_open d p) Er Ep).
      unfold update_changed_clusters. change (pool c1 (pool_pos c1)) with (p 0). rewrite Ep. done.
    + destruct (housekeeping_ok c1) as (d2 & Hr & Hk); [done|done|done|done|]. rewrite Hk.
      unfold run_index, sql_foreign_keys, sql_begin, pbind. cbn -[update_changed_clusters rebuild].
      unfold on_db. cbn -[update_changed_clusters rebuild]. rewrite Er. cbn -[update_changed_clusters].
      set (c2 := Conn d1 d1 true [] 0 false false p 0 [d1]).
      match goal with |- context [update_changed_clusters ?X] => change X with c2 end.
      destruct (housekeeping_ok c2) as (d2' & Hr' & Hk'); [done|done|done|done|].
      assert (d2' = d2) as ->.
      { clear -Hk Hk' Ep. unfold update_changed_clusters in Hk, Hk'. change (pool c1 (pool_pos c1)) with (p 0) in Hk.
        change (pool c2 (pool_pos c2)) with (p 0) in Hk'. rewrite Ep in Hk, Hk'. 
        change (disk c1) with d1 in Hk. change (cur c1) with d1 in Hk. change (fk c1) with false in Hk.
        change (disk c2) with d1 in Hk'. change (cur c2) with d1 in Hk'. change (fk c2) with false in Hk'.
        unfold on_db in Hk, Hk'. cbn [autocommit in_txn begun orb set_cur set_pool_pos c1 c2 set_begun set_fk open_index cur] in Hk, Hk'.
        match type of Hk with context [dbind ?a ?b ?x] => destruct (dbind a b x) as [dd rr] end.
        cbn in Hk, Hk'. apply (f_equal fst), (f_equal cur) in Hk, Hk'. cbn in Hk, Hk'. congruence. }
      rewrite Hk'. cbn. done.
  - rewrite (index_fails bsz pos cp s (open_index d p) d1 e (idle_open d p) Er). done.
Qed.
