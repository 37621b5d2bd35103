(** PropertiesReindex.v: C106, indexing the same corpus again. Vocabulary:
    SpecIndexing.v, SpecConn.v, SpecCluster.v. *)
From Verif Require Import LookupProofs SampleDb PropertiesIndexing.

(** A series of calls of [index] on one connection, with any corpora, options and
    schedules; each may succeed or fail. *)
Inductive indexings : conn -> conn -> Prop :=
| ix_none cn : indexings cn cn
| ix_more bsz pos c s cn cn1 cn2 r :
    complete s (length (batches bsz c)) -> run_index bsz pos c s cn = (cn1, r) ->
    indexings cn1 cn2 -> indexings cn cn2.

(** ** What a series of calls keeps *)
Definition kept (d d' : db) : Prop :=
  (forall f row, inverted_index d !! f = Some row ->
     exists row', inverted_index d' !! f = Some row' /\ row_key row' = row_key row) /\
  (forall f, assigned d' f = assigned d f /\ feature_pinned d' f = feature_pinned d f) /\
  (forall c, members d c ≠ ∅ -> cluster_pinned d' c = cluster_pinned d c).

Lemma members_assigned d c f : f ∈ members d c <-> assigned d f = Some c.
Proof.
  unfold members, assigned. rewrite elem_of_dom. split.
  - intros (row & (H1 & H2)%map_filter_lookup_Some). rewrite H1. cbn in *. by rewrite H2.
  - destruct (feature_cluster d !! f) as [row|] eqn:E; [|done]. cbn. intros [= H].
    exists row. by apply map_filter_lookup_Some.
Qed.
Lemma members_same d d' c : (forall f, assigned d' f = assigned d f) -> members d' c = members d c.
Proof. intros H. apply set_eq. intros f. by rewrite !members_assigned, H. Qed.

Lemma kept_refl d : kept d d.
Proof. split_and!; [intros f row H; eauto|done|done]. Qed.
Lemma kept_trans d1 d2 d3 : kept d1 d2 -> kept d2 d3 -> kept d1 d3.
Proof.
  intros (A1 & A2 & A3) (B1 & B2 & B3). split_and!.
  - intros f row H. destruct (A1 f row H) as (r1 & H1 & K1). destruct (B1 f r1 H1) as (r2 & H2 & K2).
    exists r2. split; [done|congruence].
  - intros f. destruct (A2 f) as [<- <-]. apply B2.
  - intros c Hc. rewrite B3; [by apply A3|]. rewrite (members_same d1 d2); [done|]. intros f. apply A2.
Qed.

Lemma rebuilt_fc keys segs d f :
  assigned (rebuilt keys segs d) f = assigned d f /\ feature_pinned (rebuilt keys segs d) f = feature_pinned d f.
Proof.
  unfold assigned, feature_pinned, rebuilt. cbn [feature_cluster set_changed_cluster write_field_summary set_field_summary
    refresh_docs_counts set_feature_cluster].
  rewrite map_lookup_imap. by destruct (feature_cluster d !! f).
Qed.
Lemma rebuilt_pins keys segs d c : cluster_pinned (rebuilt keys segs d) c = cluster_pinned d c.
Proof. done. Qed.
Lemma rebuilt_kept bsz pos c bs segs d :
  features_unique (inverted_index d) -> bs ≡ₚ batches bsz c ->
  Forall2 (fun b seg => index_docs pos b = Ok seg) bs segs -> kept d (rebuilt (fst <$> c) segs d).
Proof.
  intros Hf Hp HF. pose proof (merge_exact bsz pos c bs segs _ Hf Hp HF) as Hex. split_and!.
  - intros f row H. apply (ie_old _ _ _ Hex f row H).
  - intros f. apply rebuilt_fc.
  - intros x _. apply rebuilt_pins.
Qed.
Lemma refreshed_kept d d' : refreshed d d' -> kept d d'.
Proof.
  intros R. pose proof R as (_ & _ & (_ & E & _) & E2 & P). split_and!.
  - intros f row H. rewrite E. eauto.
  - intros f. unfold assigned, feature_pinned. by rewrite E2.
  - done.
Qed.

Lemma indexing_kept bsz pos c s cn cn' r :
  index_ready cn -> complete s (length (batches bsz c)) -> run_index bsz pos c s cn = (cn', r) ->
  index_ready cn' /\ kept (disk cn) (disk cn').
Proof.
  intros (Hid & Hu & Hf) Hc Hr.
  destruct (index_cases bsz pos c s cn Hid Hu Hf Hc) as [(e & d & _ & H)|(bs & segs & Hp & HF & _ & Hcond & Hu1 & Hcase)].
  { rewrite H in Hr. injection Hr as <- <-. split; [done|apply kept_refl]. }
  pose proof (merge_exact bsz pos c bs segs _ Hf Hp HF) as Hex.
  pose proof (rebuilt_kept bsz pos c bs segs _ Hf Hp HF) as Hk.
  destruct Hcase as [(k & _ & H)|(_ & d2 & Hd2 & H)]; rewrite H in Hr; injection Hr as <- <-; cbn [disk].
  - split; [|done]. split_and!; [by constructor|done|apply Hex].
  - split; [|eapply kept_trans; [done|by apply refreshed_kept]].
    pose proof Hd2 as (R1 & R2 & (_ & R3 & _) & _).
    split_and!; [by constructor|by apply quiet_usable|]. cbn [disk]. rewrite R3. apply Hex.
Qed.
Lemma indexings_kept cn cn' : indexings cn cn' -> index_ready cn -> index_ready cn' /\ kept (disk cn) (disk cn').
Proof.
  induction 1 as [|bsz pos c s cn cn1 cn2 r Hc Hr _ IH]; intros Hready.
  - split; [done|apply kept_refl].
  - destruct (indexing_kept _ _ _ _ _ _ _ Hready Hc Hr) as [H1 K1]. destruct (IH H1) as [H2 K2].
    split; [done|by eapply kept_trans].
Qed.

(** ** Two successful calls with the same corpus *)
Lemma segs_same pos bs bs' segs segs' : bs ≡ₚ bs' ->
  Forall2 (fun b seg => index_docs pos b = Ok seg) bs segs ->
  Forall2 (fun b seg => index_docs pos b = Ok seg) bs' segs' -> segs ≡ₚ segs'.
Proof.
  intros Hp H1 H2.
  assert (forall l sl, Forall2 (fun b seg => index_docs pos b = Ok seg) l sl -> Ok <$> sl = index_docs pos <$> l) as Hf.
  { intros l sl H. induction H; [done|]. cbn. by f_equal. }
  apply Hf in H1. apply Hf in H2.
  assert (Ok (A := segment) <$> segs ≡ₚ Ok <$> segs') as H by (rewrite H1, H2; by rewrite Hp).
  assert (forall l : list segment, omap (fun r : res segment => match r with Ok x => Some x | Err _ => None end) (Ok <$> l) = l) as Ho.
  { intros l. induction l; [done|]. cbn. by f_equal. }
  rewrite <- (Ho segs), <- (Ho segs'). by rewrite H.
Qed.

Lemma rows_same c old old' ii ii' f row :
  index_exact c old ii -> index_exact c old' ii' ->
  (exists row', ii' !! f = Some row' /\ row_key row' = row_key row) -> ii !! f = Some row ->
  ii' !! f = Some row.
Proof.
  intros H1 H2 (row' & E & K) Hf. rewrite E. f_equal.
  destruct row as [fd v n ds], row' as [fd' v' n' ds']. unfold row_key in K. cbn in K. injection K as -> ->.
  assert (ds' = ds) as ->.
  { apply set_eq. intros x. pose proof (ie_docs _ _ _ H1 f _ x Hf) as A. pose proof (ie_docs _ _ _ H2 f _ x E) as B.
    cbn in A, B. by rewrite A, B. }
  pose proof (ie_count _ _ _ H1 f _ Hf) as A. pose proof (ie_count _ _ _ H2 f _ E) as B. cbn in A, B. by subst.
Qed.

Lemma clusters_same d d' :
  quiet d -> quiet d' ->
  (forall f row, inverted_index d !! f = Some row -> inverted_index d' !! f = Some row) ->
  kept d d' -> feature_cluster d' = feature_cluster d /\ cluster d' = cluster d /\ changed_cluster d' = changed_cluster d.
Proof.
  intros ((R1 & R2 & R3) & S1 & S2 & S3) ((R1' & R2' & R3') & S1' & S2' & S3') Hii (_ & K1 & K2).
  assert (feature_cluster d' = feature_cluster d) as Hfc.
  { apply map_eq. intros f. destruct (K1 f) as [A P]. unfold assigned, feature_pinned in A, P.
    destruct (feature_cluster d !! f) as [row|] eqn:E, (feature_cluster d' !! f) as [row'|] eqn:E'; cbn in *; try done.
    f_equal. destruct row, row'; cbn in *. injection A as ->. subst. f_equal.
    destruct (R1 f _ E) as [(i1 & I1 & J1) _]. destruct (R1' f _ E') as [(i2 & I2 & J2) _]. cbn in *.
    apply Hii in I1. congruence. }
  assert (forall c, members d' c = members d c) as Hm by (intros c; unfold members; by rewrite Hfc).
  split_and!; [done| |congruence].
  assert (forall c f, f ∈ members d c -> feature_docs d' f = feature_docs d f) as Hd.
  { intros c f Hf. apply members_assigned in Hf. unfold assigned in Hf.
    destruct (feature_cluster d !! f) as [row|] eqn:E; [|done].
    destruct (R1 f _ E) as [(i1 & I1 & _) _]. unfold feature_docs. by rewrite (Hii _ _ I1), I1. }
  apply map_eq. intros c. destruct (cluster d !! c) as [row|] eqn:E.
  - assert (members d c ≠ ∅) as Hne by (apply S2; by eexists).
    destruct (proj2 (S2' c)) as [row' E']; [by rewrite Hm|]. rewrite E'. f_equal.
    destruct (S1 c row E) as (A1 & (ds & A2 & A3 & A4) & A5).
    destruct (S1' c row' E') as (B1 & (ds' & B2 & B3 & B4) & B5). specialize (K2 c Hne).
    unfold cluster_pinned in K2. rewrite E, E' in K2. rewrite Hm in *.
    assert (ds' = ds) as ->.
    { apply set_eq. intros x. rewrite A3, B3. split; intros (f & Hf & Hx); exists f; (split; [done|]).
      - by rewrite <- (Hd c f Hf).
      - by rewrite (Hd c f Hf). }
    assert (c_weight row' = c_weight row) as W.
    { rewrite A5, B5. f_equal. 
      assert (forall l, (forall f, f ∈ l -> f ∈ members d c) -> sum_list_with (fun f => size (feature_docs d' f)) l
        = sum_list_with (fun f => size (feature_docs d f)) l) as Hs.
      { intros l. induction l as [|f l IH]; intros H; [done|]. cbn. rewrite (Hd c f) by (apply H; left).
        rewrite IH; [done|]. intros g Hg. apply H. by right. }
      apply Hs. intros f. apply elem_of_elements. }
    destruct row, row'; cbn in *. congruence.
  - destruct (cluster d' !! c) as [row'|] eqn:E'; [|done]. exfalso.
    destruct (proj2 (S2 c)) as [row Hr]; [|congruence]. rewrite <- Hm. apply S2'. by eexists.
Qed.

Lemma omap_same {A B} (g h : A -> option B) (l : list A) : (forall x, x ∈ l -> g x = h x) -> omap g l = omap h l.
Proof.
  induction l as [|x l IH]; intros H; [done|]. cbn. rewrite (H x) by left.
  rewrite IH; [done|]. intros y Hy. apply H. by right.
Qed.
Lemma positions_same rows ii ii' :
  features_unique ii -> features_unique ii' ->
  (forall f row, ii !! f = Some row -> ii' !! f = Some row) ->
  (forall r, r ∈ rows -> exists f, find_feature ii (seg_key r) = Some f) ->
  position_rows rows ii' = position_rows rows ii.
Proof.
  intros U U' Hii Hrows. unfold position_rows. apply omap_same. intros r Hr.
  assert (find_feature ii' (seg_key r) = find_feature ii (seg_key r)) as ->; [|done].
  destruct (Hrows r Hr) as [f Hf]. rewrite Hf. apply find_feature_iff; [done|].
  apply find_feature_iff in Hf as (row & H1 & H2); [|done]. eauto.
Qed.

Lemma seg_keys_found bsz pos c bs segs old r :
  features_unique old -> bs ≡ₚ batches bsz c ->
  Forall2 (fun b seg => index_docs pos b = Ok seg) bs segs -> r ∈ concat segs.*1 ->
  exists f, find_feature (merge_features (concat segs.*1) (zeroed old)) (seg_key r) = Some f.
Proof.
  intros Hu Hp HF Hr. pose proof (merge_exact bsz pos c bs segs old Hu Hp HF) as Hex.
  assert (s_docs r ≠ ∅) as Hne.
  { apply elem_of_concat in Hr as (l & Hl & Hin). apply elem_of_list_fmap in Hin as (seg & -> & Hseg).
    apply elem_of_list_lookup in Hseg as [i Hi].
    destruct (Forall2_lookup_r _ _ _ _ _ HF Hi) as (b & Hb & Hok).
    apply index_docs_docs in Hok as [Hsd _]. by apply (sd_count _ _ Hsd r Hl). }
  apply set_choose_L in Hne as [x Hx].
  assert (x ∈ f_doc_ids (group_row (concat segs.*1) (seg_key r))) as Hg.
  { apply elem_of_union_rows. exists r. split; [|done]. by apply elem_of_list_filter. }
  apply (group_union pos bs segs (seg_key r) x HF) in Hg as (fs & Hin & Hh).
  apply (batch_docs bsz c x (Ok fs) bs Hp) in Hin as [key Hin].
  destruct (ie_has _ _ _ Hex (s_field r) (s_value r) x) as [f Hf]; [|by exists f].
  unfold doc_matches. eauto.
Qed.

Lemma index_again bsz pos c s s' cn cn1 cn2 cn3 :
  index_ready cn -> complete s (length (batches bsz c)) -> run_index bsz pos c s cn = (cn1, Ok tt) ->
  indexings cn1 cn2 ->
  complete s' (length (batches bsz c)) -> run_index bsz pos c s' cn2 = (cn3, Ok tt) ->
  (forall f row, inverted_index (disk cn1) !! f = Some row -> inverted_index (disk cn3) !! f = Some row) /\
  (forall f row, inverted_index (disk cn3) !! f = Some row -> inverted_index (disk cn1) !! f = None ->
     f_docs_count row = 0%N /\ f_doc_ids row = ∅) /\
  doc_key (disk cn3) = doc_key (disk cn1) /\
  position_doc_map (disk cn3) = position_doc_map (disk cn1) /\
  position_index (disk cn3) = position_index (disk cn1) /\
  cluster (disk cn3) = cluster (disk cn1) /\
  feature_cluster (disk cn3) = feature_cluster (disk cn1) /\
  changed_cluster (disk cn3) = changed_cluster (disk cn1) /\
  (inverted_index (disk cn3) = inverted_index (disk cn1) -> field_summary (disk cn3) = field_summary (disk cn1)).
Proof.
  intros Hr1 Hc1 R1 Hix Hc2 R2.
  destruct (indexing_kept _ _ _ _ _ _ _ Hr1 Hc1 R1) as [Hi1 _].
  destruct (indexings_kept _ _ Hix Hi1) as [Hr2 K].
  destruct (indexing_kept _ _ _ _ _ _ _ Hr2 Hc2 R2) as [Hi3 K3].
  pose proof (kept_trans _ _ _ K K3) as K13.
  destruct (ready_after _ _ _ _ _ _ Hr1 Hc1 R1) as (bs & segs & Hp & HF & Hcond & Hd & _ & Q1 & X1).
  destruct (ready_after _ _ _ _ _ _ Hr2 Hc2 R2) as (bs' & segs' & Hp' & HF' & Hcond' & Hd' & _ & Q3 & X3).
  assert (segs ≡ₚ segs') as Hseg by (eapply segs_same; [|done|done]; by rewrite Hp, Hp').
  assert (forall f row, inverted_index (disk cn1) !! f = Some row -> inverted_index (disk cn3) !! f = Some row) as Hrows.
  { intros f row Hf. eapply rows_same; [exact X1|exact X3| |done]. by apply K13. }
  destruct (clusters_same _ _ Q1 Q3 Hrows K13) as (C1 & C2 & C3).
  pose proof Hd as (_ & _ & (E1 & E2 & E3 & E4 & E5) & _).
  pose proof Hd' as (_ & _ & (E1' & E2' & E3' & E4' & E5') & _).
  destruct Hr1 as (_ & _ & U1). destruct Hr2 as (_ & _ & U2).
  destruct Hcond as [N1 _ N3 N4 _]. destruct Hcond' as [N1' _ N3' N4' _].
  assert (concat segs.*1 ≡ₚ concat segs'.*1) as P1 by (apply concat_perm; by rewrite Hseg).
  assert (concat segs.*2 ≡ₚ concat segs'.*2) as P2 by (apply concat_perm; by rewrite Hseg).
  assert (position_index (disk cn3) = position_index (disk cn1)) as Hpos.
  { rewrite E4, E4'. unfold rebuilt. cbn [position_index set_changed_cluster write_field_summary set_field_summary
      refresh_docs_counts set_feature_cluster].
    unfold rebuilt in E2, E2'. cbn [inverted_index set_changed_cluster write_field_summary set_field_summary
      refresh_docs_counts set_feature_cluster] in E2, E2'.
    symmetry. apply list_to_map_proper; [done|].
    rewrite <- E2, <- E2'. rewrite (positions_same (concat segs'.*1) (inverted_index (disk cn1))).
    - unfold position_rows. by rewrite P1.
    - apply X1.
    - apply X3.
    - done.
    - intros r Hr. rewrite E2. rewrite <- P1 in Hr. exact (seg_keys_found bsz pos c bs segs _ r U1 Hp HF Hr). }
  split_and!; [done| | | |done|done|done|done|].
  - intros f row H3 H1.
    destruct (set_choose_or_empty (f_doc_ids row)) as [[x Hx]|He].
    + exfalso. pose proof (proj1 (ie_docs _ _ _ X3 f row x H3) Hx) as Hm.
      destruct (ie_has _ _ _ X1 _ _ _ Hm) as [g Hg].
      apply find_feature_iff in Hg as (row1 & G1 & G2); [|apply X1].
      pose proof (Hrows _ _ G1) as G3. unfold row_key in G2. injection G2 as G2 G4.
      assert (f = g) as -> by (eapply (ie_unique _ _ _ X3); [exact H3|exact G3|done|done]). congruence.
    + apply leibniz_equiv in He. split; [|done]. rewrite (ie_count _ _ _ X3 f row H3), He. by rewrite size_empty.
  - rewrite E1, E1'. done.
  - rewrite E3, E3'. unfold rebuilt. cbn [position_doc_map set_changed_cluster write_field_summary set_field_summary
      refresh_docs_counts set_feature_cluster].
    symmetry. apply list_to_map_proper; [done|]. by rewrite P2.
  - intros Hii. rewrite E5, E5'.
    assert (forall keys sg d, field_summary (rebuilt keys sg d)
      = field_summary (write_field_summary (Db ∅ (inverted_index (rebuilt keys sg d)) ∅ (position_index (rebuilt keys sg d)) ∅ ∅ ∅ ∅))) as Hw by done.
    rewrite (Hw _ segs'), (Hw _ segs). by rewrite <- E2, <- E2', <- E4, <- E4', Hpos, Hii.
Qed.

(** ** C106 *)

(** Indexing an unchanged corpus once more, with any schedule, changes nothing at
    all in the database. *)
Theorem C106_index_twice : forall bsz pos c s s' cn cn1 cn2,
  index_ready cn -> complete s (length (batches bsz c)) -> complete s' (length (batches bsz c)) ->
  run_index bsz pos c s cn = (cn1, Ok tt) -> run_index bsz pos c s' cn1 = (cn2, Ok tt) ->
  disk cn2 = disk cn1.
Proof.
  intros bsz pos c s s' cn cn1 cn2 Hr H1 H2 R1 R2.
  destruct (index_again bsz pos c s s' cn cn1 cn1 cn2 Hr H1 R1 (ix_none _) H2 R2)
    as (A1 & A2 & A3 & A4 & A5 & A6 & A7 & A8 & A9).
  destruct (indexing_kept _ _ _ _ _ _ _ Hr H1 R1) as [Hr1 _].
  destruct (ready_after _ _ _ _ _ _ Hr1 H2 R2) as (bs & segs & _ & _ & _ & _ & _ & _ & X).
  assert (inverted_index (disk cn2) = inverted_index (disk cn1)) as Hii.
  { apply map_eq. intros f. destruct (inverted_index (disk cn1) !! f) as [row|] eqn:E; [by apply A1|].
    destruct (inverted_index (disk cn2) !! f) as [row|] eqn:E2; [|done]. exfalso.
    destruct (ie_new _ _ _ X f row E2 E) as [x Hx]. destruct (A2 f row E2 E) as [_ He].
    apply (ie_docs _ _ _ X f row x E2) in Hx. rewrite He in Hx. set_solver. }
  specialize (A9 Hii). destruct (disk cn2), (disk cn1); cbn in *. congruence.
Qed.
Print Assumptions C106_index_twice.

(** Going back to an earlier corpus, after any series of other indexings, brings back
    the documents, feature ids, postings, positions and clustering of that corpus;
    what remains of the corpora in between are features without documents. *)
Theorem C106_there_and_back : forall bsz pos c s s' cn cn1 cn2 cn3,
  index_ready cn -> complete s (length (batches bsz c)) -> complete s' (length (batches bsz c)) ->
  run_index bsz pos c s cn = (cn1, Ok tt) -> indexings cn1 cn2 ->
  run_index bsz pos c s' cn2 = (cn3, Ok tt) ->
  (forall f row, inverted_index (disk cn1) !! f = Some row -> inverted_index (disk cn3) !! f = Some row) /\
  (forall f row, inverted_index (disk cn3) !! f = Some row -> inverted_index (disk cn1) !! f = None ->
     f_docs_count row = 0%N /\ f_doc_ids row = ∅) /\
  doc_key (disk cn3) = doc_key (disk cn1) /\
  position_doc_map (disk cn3) = position_doc_map (disk cn1) /\
  position_index (disk cn3) = position_index (disk cn1) /\
  cluster (disk cn3) = cluster (disk cn1) /\
  feature_cluster (disk cn3) = feature_cluster (disk cn1).
Proof.
  intros bsz pos c s s' cn cn1 cn2 cn3 Hr H1 H2 R1 Hix R2.
  destruct (index_again bsz pos c s s' cn cn1 cn2 cn3 Hr H1 R1 Hix H2 R2) as (A1 & A2 & A3 & A4 & A5 & A6 & A7 & _).
  split_and!; assumption.
Qed.
Print Assumptions C106_there_and_back.

(** Two indexings of a clustered database: [conn3] has clusters over the features of
    [corpus1]; [corpus2] shares one feature with it. *)
Definition reindex1 := (run_index 2 true corpus1 (backwards 2) conn3).1.
Definition reindex2 := (run_index 5 true corpus2 (in_order 1) reindex1).1.
Definition reindex3 := (run_index 2 true corpus1 (in_order 2) reindex2).1.
Example C106_example :
  index_ready conn3 /\ complete (backwards 2) (length (batches 2 corpus1)) /\
  complete (in_order 2) (length (batches 2 corpus1)) /\
  (run_index 2 true corpus1 (backwards 2) conn3).2 = Ok tt /\
  (run_index 2 true corpus1 (in_order 2) reindex1).2 = Ok tt /\
  indexings reindex1 reindex2 /\ (run_index 2 true corpus1 (in_order 2) reindex2).2 = Ok tt /\
  cluster (disk reindex1) <> ∅ /\ disk reindex2 <> disk reindex1 /\
  inverted_index (disk reindex3) <> inverted_index (disk reindex1) /\
  cluster (disk reindex3) = cluster (disk reindex1).
Proof.
  split; [apply conn3_ready|]. split; [apply complete_backwards|]. split; [apply complete_in_order|].
  split; [by_computation|]. split; [by_computation|]. split.
  - unfold reindex2. destruct (run_index 5 true corpus2 (in_order 1) reindex1) as [cn r] eqn:E.
    apply (ix_more 5 true corpus2 (in_order 1) reindex1 cn cn r); [apply complete_in_order|exact E|constructor].
  - by_computation.
Qed.
