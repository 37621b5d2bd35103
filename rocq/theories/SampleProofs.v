(** SampleProofs.v: proofs about field intersections, sampling, export, windows and the
    co-occurrence graph (Query.v). *)
From Verif Require Import SpecQuery Query SpecIndexing.
From Verif Require Import BaseProofs ClusterProofs ClusterCalls ScoreProofs RefineFacts LookupProofs QueryProofs.

(** ** Field intersections *)
#[global] Instance value_row_le_total : Total value_row_le.
Proof. intros a b. apply value_le_total. Qed.
#[global] Instance value_row_le_trans : Transitive value_row_le.
Proof. intros a b c. unfold value_row_le. apply (value_le_trans a.1.1 b.1.1 c.1.1). Qed.

Lemma elem_of_iter_field d field v n docs : references_ok d ->
  (v, n, docs) ∈ iter_field_docs d field 1 <->
  exists f row, inverted_index d !! f = Some row /\ f_field row = field /\ f_value row = v /\
    docs = f_doc_ids row /\ n = N.of_nat (size docs) /\ docs ≠ ∅.
Proof.
  intros (_ & Hc & _). unfold iter_field_docs. rewrite merge_sort_Permutation, elem_of_list_omap. split.
  - intros ([f row] & Hin & Ho). apply elem_of_map_to_list in Hin. cbn [fst snd] in Ho.
    destruct (bool_decide (f_field row = field)) eqn:E1; [|done].
    destruct (1 <=? Z.of_N (f_docs_count row))%Z eqn:E2; [|done]. cbn in Ho.
    injection Ho as <- <- <-. apply bool_decide_eq_true in E1. apply Z.leb_le in E2.
    pose proof (Hc _ _ Hin) as Hd. exists f, row. split_and!; try done.
    intros He. rewrite He, size_empty in Hd. lia.
  - intros (f & row & Hr & Hf & Hv & -> & -> & Hne). exists (f, row). split; [by apply elem_of_map_to_list|].
    cbn [fst snd]. rewrite bool_decide_true by done. pose proof (Hc _ _ Hr) as Hd.
    assert (size (f_doc_ids row) <> 0) by (by rewrite size_0).
    assert ((1 <=? Z.of_N (f_docs_count row))%Z = true) as -> by (apply Z.leb_le; lia).
    cbn. by rewrite Hv, Hd.
Qed.

Lemma iter_field_sorted d field : references_ok d -> features_unique (inverted_index d) ->
  StronglySorted (fun a b => value_le a b /\ a <> b) (iter_field_docs d field 1).*1.*1.
Proof.
  intros Hr Hu.
  assert (StronglySorted value_row_le (iter_field_docs d field 1)) as Hs
    by apply (StronglySorted_merge_sort value_row_le).
  assert (NoDup (iter_field_docs d field 1).*1.*1) as Hn.
  { unfold iter_field_docs. rewrite merge_sort_Permutation.
    pose proof (NoDup_fst_map_to_list (inverted_index d)) as Hnd.
    assert (forall kv, kv ∈ map_to_list (inverted_index d) -> inverted_index d !! kv.1 = Some kv.2) as Hin.
    { intros [f r] H. by apply elem_of_map_to_list in H. }
    induction (map_to_list (inverted_index d)) as [|[f row] l IH]; [constructor|].
    cbn [fmap list_fmap] in Hnd. apply NoDup_cons in Hnd as [Hnf Hnd]. cbn [omap list_omap].
    assert (NoDup (omap (fun kv : N * feature_row =>
      if bool_decide (f_field kv.2 = field) && (1 <=? Z.of_N (f_docs_count kv.2))%Z
      then Some (f_value kv.2, f_docs_count kv.2, f_doc_ids kv.2) else None) l).*1.*1) as IH'.
    { apply IH; [done|]. intros; apply Hin; by right. }
    destruct (bool_decide _ && _) eqn:E; [|done]. cbn [fmap list_fmap fst]. constructor; [|done].
    apply andb_prop in E as [E _]. apply bool_decide_eq_true in E. cbn [snd] in E.
    intros Hin'. apply elem_of_list_fmap in Hin' as ([v n] & Hv & Hin').
    apply elem_of_list_fmap in Hin' as ([[v' n'] dc] & Heq & Hin'). cbn in Heq, Hv. injection Heq as -> ->.
    apply elem_of_list_omap in Hin' as ([g rg] & Hg & Ho). cbn [fst snd] in Ho.
    destruct (bool_decide (f_field rg = field)) eqn:E'; [|done]. apply bool_decide_eq_true in E'.
    destruct (1 <=? _)%Z; [|done]. cbn in Ho. injection Ho as <- <- <-.
    assert (f = g) as ->.
    { eapply Hu; [apply (Hin (f, row)); left|apply (Hin (g, rg)); by right|cbn; congruence|done]. }
    destruct Hnf. apply elem_of_list_fmap. by exists (g, rg). }
  revert Hn Hs. generalize (iter_field_docs d field 1). clear.
  induction l as [|x l IH]; intros Hn Hs; [constructor|]. cbn [fmap list_fmap] in *.
  apply NoDup_cons in Hn as [Hx Hn]. inversion Hs as [|? ? Hs' Hf]; subst. constructor; [by apply IH|].
  apply Forall_forall. intros v Hv. split; [|by intros <-].
  apply elem_of_list_fmap in Hv as (y & -> & Hy). apply elem_of_list_fmap in Hy as (z & -> & Hz).
  rewrite Forall_forall in Hf. by apply (Hf z).
Qed.

(** ** Sampling *)
Lemma bm_nth_lookup b i : i < size b -> exists x, bm_nth b (Z.of_nat i) = Ok x /\ bm_list b !! i = Some x.
Proof.
  intros Hi. rewrite <- length_bm_list in Hi. destruct (lookup_lt_is_Some_2 _ _ Hi) as [x Hx].
  exists x. unfold bm_nth, py_nth.
  rewrite (proj2 (Z.ltb_ge (Z.of_nat i) 0)) by lia. rewrite (proj2 (Z.ltb_ge (Z.of_nat i) 0)) by lia.
  rewrite Nat2Z.id, Hx. done.
Qed.

Lemma sample_bitmap_spec b k g : (0 <= k)%Z ->
  exists s, (sample_bitmap b k g).1 = Ok s /\ s ⊆ b /\ size s = min (Z.to_nat k) (size b).
Proof.
  intros Hk. unfold sample_bitmap. destruct (k <? Z.of_nat (size b))%Z eqn:E.
  2:{ apply Z.ltb_ge in E. exists b. split_and!; [done|done|lia]. }
  apply Z.ltb_lt in E. rewrite (proj2 (Z.ltb_ge k 0)) by lia.
  destruct (py_sample (seq 0 (size b)) (Z.to_nat k) g) as [is g1] eqn:Es.
  unfold py_sample in Es. destruct (pick_spec (Z.to_nat k) (seq 0 (size b)) g) as [Hsub Hlen].
  rewrite Es in Hsub, Hlen. cbn [fst] in *. rewrite seq_length in Hlen.
  assert (NoDup is) as Hnd.
  { apply submseteq_Permutation in Hsub as [r Hp]. pose proof (NoDup_seq 0 (size b)) as Hn.
    rewrite Hp in Hn. by apply NoDup_app in Hn as [? _]. }
  assert (forall i, i ∈ is -> i < size b) as Hlt.
  { intros i Hi. apply (elem_of_submseteq _ _ _ Hi) in Hsub. apply elem_of_seq in Hsub. lia. }
  assert (exists xs, rtraverse (fun i => bm_nth b (Z.of_nat i)) is = Ok xs /\
     Forall2 (fun i x => bm_list b !! i = Some x) is xs) as (xs & Hxs & Hf).
  { clear Es Hsub Hlen Hnd. induction is as [|i is IH]; [by exists []|].
    destruct IH as (xs & Hxs & Hf); [intros; apply Hlt; by right|].
    destruct (bm_nth_lookup b i) as (x & Hx & Hl); [apply Hlt; left|].
    exists (x :: xs). cbn [rtraverse]. rewrite Hx, Hxs. split; [done|by constructor]. }
  rewrite Hxs. cbn [rmap rbind]. exists (list_to_set xs). split_and!; [done| |].
  - intros x Hx. apply elem_of_list_to_set in Hx. apply elem_of_list_lookup in Hx as [j Hj].
    destruct (Forall2_lookup_r _ _ _ _ _ Hf Hj) as (i & _ & Hi). apply elem_of_list_lookup_2 in Hi.
    by apply elem_of_bm_list.
  - rewrite size_list_to_set.
    + rewrite <- (Forall2_length _ _ _ Hf). done.
    + clear -Hf Hnd. induction Hf as [|i x is xs Hi Hf IH]; [constructor|].
      apply NoDup_cons in Hnd as [Hni Hnd]. constructor; [|by apply IH].
      intros Hx. apply elem_of_list_lookup in Hx as [j Hj].
      destruct (Forall2_lookup_r _ _ _ _ _ Hf Hj) as (i' & Hi' & He).
      assert (i = i') as <- by (eapply NoDup_lookup; [apply (NoDup_bm_list b)|done|done]).
      apply Hni. by eapply elem_of_list_lookup_2.
Qed.

Lemma sample_bitmap_negative b k g : (k < 0)%Z -> (sample_bitmap b k g).1 = Err ValueError.
Proof.
  intros Hk. unfold sample_bitmap. rewrite (proj2 (Z.ltb_lt k (Z.of_nat (size b)))) by lia.
  by rewrite (proj2 (Z.ltb_lt k 0)).
Qed.

(** ** Structured sampling *)
Definition sample_size (per : Z) (n : nat) : nat := if (0 <? per)%Z then min (Z.to_nat per) n else n.
Definition samples_ok (d : db) (per : Z) (samples : list (Z * bitmap)) : Prop :=
  forall before c s after, samples = before ++ (c, s) :: after ->
    s ⊆ cluster_documents d c ∖ ⋃ before.*2 /\
    size s = sample_size per (size (cluster_documents d c ∖ ⋃ before.*2)).

Lemma samples_ok_snoc d per samples c s : samples_ok d per samples ->
  s ⊆ cluster_documents d c ∖ ⋃ samples.*2 ->
  size s = sample_size per (size (cluster_documents d c ∖ ⋃ samples.*2)) ->
  samples_ok d per (samples ++ [(c, s)]).
Proof.
  intros Hs H1 H2 before c' s' after Heq.
  destruct (decide (after = [])) as [->|Hne].
  - apply app_inj_tail in Heq as [-> [= -> ->]]. done.
  - destruct (exists_last Hne) as (after' & x & ->). rewrite app_comm_cons, app_assoc in Heq.
    apply app_inj_tail in Heq as [Heq _]. by apply (Hs _ _ _ _ Heq).
Qed.

Lemma union_list_snoc (l : list (gset N)) x : ⋃ (l ++ [x]) = ⋃ l ∪ x.
Proof. rewrite union_list_app_L. cbn. set_solver. Qed.

Lemma sample_clusters_spec d per (sel : gset Z) order g : quiet d ->
  (forall c, c ∈ order -> c ∈ dom (cluster d)) ->
  exists s g', rfold (sample_cluster d per sel) order (Sampling ∅ [], g) = Ok (s, g') /\
    s_taken s = ⋃ (s_samples s).*2 /\ (s_samples s).*1 = filter (fun c => c ∈ sel) order /\
    samples_ok d per (s_samples s).
Proof.
  intros Hq Hord.
  destruct (rfold_ok (fun done st => s_taken st.1 = ⋃ (s_samples st.1).*2 /\
      (s_samples st.1).*1 = filter (fun c => c ∈ sel) done /\ samples_ok d per (s_samples st.1))
    (sample_cluster d per sel) order (Sampling ∅ [], g)) as ([s g'] & Hr & HP); [| |by exists s, g'].
  { cbn. split_and!; [done|done|]. intros [|? ?] ? ? ? [=]. }
  intros dn c rest [s g1] Hl (Ht & Hi & Hs). cbn [fst] in *. unfold sample_cluster.
  rewrite filter_app. case_bool_decide as Hc.
  2:{ exists (s, g1). cbn [fst]. rewrite filter_cons_False by done. cbn. by rewrite app_nil_r. }
  rewrite (quiet_cluster_docs d c Hq) by (apply Hord; rewrite Hl; set_solver). cbn [rbind].
  rewrite filter_cons_True by done.
  assert (exists s' g2, (if (0 <? per)%Z then sample_bitmap (cluster_documents d c ∖ s_taken s) per g1
        else (Ok (cluster_documents d c ∖ s_taken s), g1)) = (Ok s', g2) /\
      s' ⊆ cluster_documents d c ∖ ⋃ (s_samples s).*2 /\
      size s' = sample_size per (size (cluster_documents d c ∖ ⋃ (s_samples s).*2))) as (s' & g2 & E & H1 & H2).
  { unfold sample_size. rewrite <- Ht. destruct (0 <? per)%Z eqn:E.
    - apply Z.ltb_lt in E. destruct (sample_bitmap_spec (cluster_documents d c ∖ s_taken s) per g1) as (s' & Hs' & ? & ?); [lia|].
      destruct (sample_bitmap _ per g1) as [r g2]. cbn in Hs'. subst r. eauto.
    - eauto. }
  rewrite E. cbn [rbind]. eexists. split; [done|]. cbn [fst s_taken s_samples]. rewrite !fmap_app. cbn [fmap list_fmap snd fst].
  split_and!.
  - by rewrite union_list_snoc, Ht.
  - by rewrite Hi.
  - by apply samples_ok_snoc.
Qed.

Lemma labels_spec d taken order : quiet d -> (forall c, c ∈ order -> c ∈ dom (cluster d)) ->
  rtraverse (fun c => rbind (cluster_docs d c) (fun docs =>
    match docs with None => Err TypeError | Some docs => Ok (c, taken ∩ docs) end)) order =
  Ok ((fun c => (c, taken ∩ cluster_documents d c)) <$> order).
Proof.
  intros Hq. induction order as [|c order IH]; intros H; [done|]. cbn [rtraverse].
  rewrite (quiet_cluster_docs d c Hq) by (apply H; left). cbn [rbind].
  rewrite IH by (intros; apply H; by right). done.
Qed.

Lemma quiet_docs_count d c row : quiet d -> cluster d !! c = Some row ->
  c_docs_count row = N.of_nat (size (cluster_documents d c)).
Proof.
  intros Hq Hc. destruct (proj1 (proj2 Hq) _ _ Hc) as (_ & (docs & Hd & He & ->) & _). do 2 f_equal.
  apply leibniz_equiv. intros x. rewrite He. unfold cluster_documents. by rewrite covered_elem.
Qed.

Lemma structured_sample_spec d per ids g : quiet d ->
  exists samples labels, structured_doc_sample d per ids g = Ok (samples, labels) /\
    NoDup samples.*1 /\ (forall c, c ∈ samples.*1 <-> c ∈ dom (cluster d) /\ c ∈ requested d ids) /\
    StronglySorted (fun a b => size (cluster_documents d a) <= size (cluster_documents d b)) samples.*1 /\
    samples_ok d per samples /\
    NoDup labels.*1 /\
    (forall c s, (c, s) ∈ labels <-> c ∈ dom (cluster d) /\ s = cluster_documents d c ∩ ⋃ samples.*2 /\ s ≠ ∅).
Proof.
  intros Hq. unfold structured_doc_sample.
  destruct (top_cluster_features_spec d 0) as (Hids & Hsort & Hrow).
  assert (forall c, c ∈ (top_cluster_features d 0).*1.*1 <-> c ∈ dom (cluster d)) as Hin.
  { intros c. rewrite Hids. unfold cluster_ids. by rewrite elem_of_z_list. }
  assert (NoDup (top_cluster_features d 0).*1.*1) as Hnd.
  { rewrite Hids. apply NoDup_z_list. }
  set (all := (top_cluster_features d 0).*1.*1) in *.
  set (sel := list_to_set _ : gset Z).
  destruct (sample_clusters_spec d per sel (rev all) g Hq) as (s & g' & Hr & Ht & Hi & Hs).
  { intros c Hc. rewrite <- (Permutation_rev all) in Hc. by apply Hin. }
  rewrite Hr. cbn [rbind]. rewrite (labels_spec d (s_taken s) all Hq) by (intros; by apply Hin).
  cbn [rbind]. eexists _, _. split; [done|].
  assert (forall c, c ∈ sel <-> c ∈ requested d ids) as Hsel.
  { intros c. unfold sel. rewrite elem_of_list_to_set. unfold requested, cluster_ids.
    destruct ids as [[|x l]|]; [|done|]; by rewrite elem_of_z_list, elem_of_elements. }
  assert (StronglySorted (fun a b => size (cluster_documents d b) <= size (cluster_documents d a)) all) as Hso.
  { unfold all. clear -Hsort Hrow Hq. revert Hrow.
    induction Hsort as [|x l Hs IH Hf]; intros Hrow; [constructor|]. cbn [fmap list_fmap].
    constructor; [apply IH; intros; apply Hrow; by right|]. apply Forall_forall. intros c Hc.
    apply elem_of_list_fmap in Hc as (y & -> & Hy). apply elem_of_list_fmap in Hy as (z & -> & Hz).
    rewrite Forall_forall in Hf. specialize (Hf _ Hz). cbn in Hf.
    destruct (Hrow x ltac:(left)) as (rx & Hx & Ex & _). destruct (Hrow z ltac:(by right)) as (rz & Hz' & Ez & _).
    rewrite Ex, Ez, (quiet_docs_count d _ _ Hq Hx), (quiet_docs_count d _ _ Hq Hz') in Hf. lia. }
  split_and!.
  - rewrite Hi. apply NoDup_filter. by rewrite <- (Permutation_rev all).
  - intros c. rewrite Hi, elem_of_list_filter, <- (Permutation_rev all), Hin, Hsel. tauto.
  - rewrite Hi. assert (StronglySorted (fun a b => size (cluster_documents d a) <= size (cluster_documents d b)) (rev all)) as Hr'
      by (by apply StronglySorted_rev).
    clear -Hr'. induction Hr' as [|x l Hs IH Hf]; [constructor|]. rewrite filter_cons. case_decide; [|done].
    constructor; [done|]. rewrite Forall_forall in *. intros y [_ Hy]%elem_of_list_filter. by apply Hf.
  - done.
  - set (L := (fun c => (c, s_taken s ∩ cluster_documents d c)) <$> all).
    assert (NoDup L.*1) as HL. { unfold L. rewrite <- list_fmap_compose. cbn. by rewrite list_fmap_id. }
    clear -HL. induction L as [|x L IH]; [constructor|]. cbn [fmap list_fmap] in HL. apply NoDup_cons in HL as [H1 H2].
    rewrite filter_cons. case_decide; [|by apply IH]. cbn [fmap list_fmap]. constructor; [|by apply IH].
    intros Hx. apply H1. apply elem_of_list_fmap in Hx as (y & Hy & [_ Hin]%elem_of_list_filter).
    rewrite Hy. by apply elem_of_list_fmap_1.
  - intros c x. rewrite elem_of_list_filter, elem_of_list_fmap. cbn [snd]. split.
    + intros (Hne & c' & [= -> ->] & Hc). rewrite <- Ht. split_and!; [by apply Hin|set_solver|done].
    + intros (Hc & -> & Hne). split; [done|]. exists c. rewrite <- Ht. split; [f_equal; set_solver|by apply Hin].
Qed.

(** ** Export *)
Lemma query_keys_spec d q :
  (forall i j k, doc_key d !! i = Some k -> doc_key d !! j = Some k -> i = j) ->
  (forall doc, doc ∈ q -> is_Some (doc_key d !! doc)) ->
  exists ks, query_keys d q = Ok ks /\ ks.*2 = bm_list q /\
    forall k doc, (k, doc) ∈ ks -> doc_key d !! doc = Some k.
Proof.
  intros Hinj Hs. unfold query_keys.
  destruct (rfold_ok (fun done ks => ks.*2 = done /\ forall k doc, (k, doc) ∈ ks -> doc_key d !! doc = Some k)
    (fun (l : list (value * N)) doc => match doc_key d !! doc with
        | None => Err IndexError
        | Some k => Ok (if bool_decide (k ∈ l.*1)
                        then (fun kv => if bool_decide (kv.1 = k) then (k, doc) else kv) <$> l
                        else l ++ [(k, doc)])
        end) (bm_list q) []) as (ks & Hr & H1 & H2); [| |by exists ks].
  { split; [done|]. by intros ? ? ?%elem_of_nil. }
  intros dn doc rest ks Hl (H1 & H2).
  assert (doc ∈ q) as Hdq. { apply elem_of_bm_list. rewrite Hl. set_solver. }
  destruct (Hs _ Hdq) as [k Hk]. rewrite Hk. eexists. split; [done|].
  rewrite bool_decide_false.
  - rewrite fmap_app, H1. split; [done|]. intros k' doc' [Hin|Hin]%elem_of_app; [by apply H2|].
    apply elem_of_list_singleton in Hin as [= -> ->]. done.
  - intros Hin. apply elem_of_list_fmap in Hin as ([k' doc'] & -> & Hin). cbn in Hk.
    assert (doc' = doc) as -> by (eapply Hinj; [by apply H2|done]).
    pose proof (NoDup_bm_list q) as Hn. rewrite Hl in Hn. apply NoDup_app in Hn as (_ & Hn & _).
    apply (Hn doc); [|left]. rewrite <- H1. apply elem_of_list_fmap. by exists (k', doc).
Qed.

Lemma rtraverse_map {A B} (f : A -> res B) (h : A -> B) l : (forall x, x ∈ l -> f x = Ok (h x)) ->
  rtraverse f l = Ok (h <$> l).
Proof.
  induction l as [|x l IH]; intros H; [done|]. cbn [rtraverse]. rewrite (H x) by left. cbn [rbind].
  rewrite IH by (intros; apply H; by right). done.
Qed.

Lemma rtraverse_Forall2 {A B} (f : A -> res B) (P : A -> B -> Prop) l :
  (forall x, x ∈ l -> exists y, f x = Ok y /\ P x y) -> exists ys, rtraverse f l = Ok ys /\ Forall2 P l ys.
Proof.
  induction l as [|x l IH]; intros H; [by exists []|]. cbn [rtraverse].
  destruct (H x ltac:(left)) as (y & -> & Hy). destruct IH as (ys & -> & Hys); [intros; apply H; by right|].
  cbn [rbind]. exists (y :: ys). split; [done|by constructor].
Qed.

Lemma export_spec d (render : renderer) fields sd sc :
  (forall i j k, doc_key d !! i = Some k -> doc_key d !! j = Some k -> i = j) ->
  (forall c docs doc, (c, docs) ∈ sd -> doc ∈ docs -> exists k content, doc_key d !! doc = Some k /\ render k = Ok content) ->
  exists rows, export_document_sample d render fields sd sc = Ok (export_header fields sc, rows) /\
    Forall2 (fun cd row => exists key content, doc_key d !! cd.2 = Some key /\ render key = Ok content /\
       row = export_cell key cd.1 cd.2 content sc <$> export_header fields sc)
      (concat ((fun cd => pair cd.1 <$> bm_list cd.2) <$> sd)) rows.
Proof.
  intros Hinj Hren. unfold export_document_sample.
  set (header := export_header fields sc).
  set (P := fun (cd : Z * N) row => exists key content, doc_key d !! cd.2 = Some key /\ render key = Ok content /\
       row = export_cell key cd.1 cd.2 content sc <$> header).
  set (f := fun '(c, docs) => rbind (query_keys d docs) _).
  destruct (rtraverse_Forall2 f (fun cd rows => Forall2 P (pair cd.1 <$> bm_list cd.2) rows) sd) as (rows & -> & Hf).
  - intros [c docs] Hin. unfold f.
    destruct (query_keys_spec d docs Hinj) as (ks & -> & H2 & Hk).
    { intros doc Hd. destruct (Hren _ _ _ Hin Hd) as (k & ? & ? & _). eauto. }
    cbn [rbind fst snd].
    destruct (rtraverse_Forall2 (fun kv : value * N => rmap (fun x => (kv.1, x)) (render kv.1))
       (fun kv w => w.1 = kv.1 /\ render kv.1 = Ok w.2) ks) as (ws & -> & Hw).
    { intros [k doc] Hkd. assert (doc ∈ docs) as Hd.
      { apply elem_of_bm_list. rewrite <- H2. apply elem_of_list_fmap. by exists (k, doc). }
      destruct (Hren _ _ _ Hin Hd) as (k' & content & Hk' & Hr). rewrite (Hk _ _ Hkd) in Hk'. injection Hk' as <-.
      cbn [fst]. rewrite Hr. cbn. eexists. split; [done|]. done. }
    cbn [rbind]. eexists. split; [done|]. rewrite <- H2.
    clear -Hw Hk. induction Hw as [|[k doc] [k' content] ks ws [E1 E2] Hw IH]; cbn; constructor.
    + cbn in E1. subst k'. exists k, content. split_and!; [apply Hk; left|done|done].
    + apply IH. intros; apply Hk; by right.
  - cbn [rbind]. eexists. split; [done|]. clear -Hf. induction Hf; cbn; [constructor|]. by apply Forall2_app.
Qed.

(** ** Windows *)
Lemma around_cons {A} (x : A) l (a b : nat) :
  omap (fun j => (x :: l) !! j) (filter (fun j => a <= j < b) (seq 0 (length (x :: l)))) =
  (if decide (a = 0 /\ 0 < b) then [x] else []) ++
  omap (fun j => l !! j) (filter (fun j => a - 1 <= j < b - 1) (seq 0 (length l))).
Proof.
  cbn [length seq]. rewrite <- fmap_S_seq, filter_cons.
  assert (omap (fun j => (x :: l) !! j) (filter (fun j => a <= j < b) (S <$> seq 0 (length l))) =
    omap (fun j => l !! j) (filter (fun j => a - 1 <= j < b - 1) (seq 0 (length l)))) as E.
  { generalize (seq 0 (length l)) as js. induction js as [|j js IH]; [done|].
    cbn [fmap list_fmap]. rewrite !filter_cons. do 2 case_decide; try lia; [|done].
    cbn [omap list_omap]. cbn [lookup list_lookup]. destruct (l !! j); [by f_equal|done]. }
  do 2 case_decide; try lia; cbn [app]; [|done]. cbn [omap list_omap]. cbn [lookup list_lookup]. by f_equal.
Qed.

Lemma slice_positions {A} (l : list A) a b :
  slice a b l = omap (fun j => l !! j) (filter (fun j => a <= j < b) (seq 0 (length l))).
Proof.
  revert a b. induction l as [|x l IH]; intros a b.
  - unfold slice. rewrite drop_nil, take_nil. done.
  - rewrite around_cons, <- IH. unfold slice. case_decide as H.
    + destruct H as [-> Hb]. destruct b as [|b]; [lia|]. cbn [drop app Nat.sub take]. by rewrite !Nat.sub_0_r.
    + destruct a as [|a]; [|cbn [drop app]; f_equal; [lia|f_equal; lia]].
      assert (b = 0) as -> by lia. done.
Qed.

Lemma window_around {A} (l : list A) w i : slice (i - w) (i + w + 1) l = around l w i.
Proof.
  rewrite slice_positions. unfold around. f_equal. apply list_filter_iff. intros j. lia.
Qed.

Lemma positions_cons {A} `{EqDecision A} (x v : A) l :
  positions_of (x :: l) v = (if decide (x = v) then [0] else []) ++ (S <$> positions_of l v).
Proof.
  unfold positions_of. cbn [length seq]. rewrite <- fmap_S_seq, filter_cons.
  assert (filter (fun i => (x :: l) !! i = Some v) (S <$> seq 0 (length l)) =
    S <$> filter (fun i => l !! i = Some v) (seq 0 (length l))) as ->.
  { generalize (seq 0 (length l)) as js. induction js as [|j js IH]; [done|].
    cbn [fmap list_fmap]. rewrite !filter_cons. cbn [lookup list_lookup].
    do 2 case_decide; try done. cbn [fmap list_fmap]. by f_equal. }
  cbn [lookup list_lookup]. do 2 case_decide; try done; congruence.
Qed.

Lemma zip_positions {A} `{EqDecision A} (l : list A) v k :
  (filter (fun iv : nat * A => iv.2 = v) (zip (seq k (length l)) l)).*1 = (fun i => k + i) <$> positions_of l v.
Proof.
  revert k. induction l as [|x l IH]; intros k; [done|]. rewrite positions_cons. cbn [length seq zip zip_with].
  rewrite filter_cons. cbn [snd]. case_decide.
  - cbn [fmap list_fmap app fst]. rewrite IH. f_equal; [lia|]. rewrite <- list_fmap_compose.
    apply list_fmap_ext. intros ? i _. cbn. lia.
  - cbn [app]. rewrite IH, <- list_fmap_compose. apply list_fmap_ext. intros ? i _. cbn. lia.
Qed.

Lemma seq_windows to_match w vs v :
  field_windows to_match w (Seq vs) !! v =
  if decide (v ∈ to_match /\ positions_of vs (Some v) <> [])
  then Some (around vs w <$> positions_of vs (Some v)) else None.
Proof.
  cbn [field_windows].
  set (step := fun m iv => match iv.2 with
      | Some v => if bool_decide (v ∈ to_match) then add_window m v (window_at vs w iv.1) else m
      | None => m end).
  assert (forall ivs m, foldl step m ivs !! v =
    let ps := (filter (fun iv : nat * option value => iv.2 = Some v) ivs).*1 in
    if decide (v ∈ to_match /\ ps <> []) then Some (default [] (m !! v) ++ (around vs w <$> ps)) else m !! v) as Hg.
  { induction ivs as [|[i x] ivs IH]; intros m.
    - cbn. case_decide as H; [|done]. by destruct H.
    - cbn [foldl]. rewrite IH. cbv zeta. rewrite filter_cons. cbn [snd].
      set (ps := (filter (fun iv : nat * option value => iv.2 = Some v) ivs).*1).
      unfold step. cbn [fst snd]. destruct x as [x|].
      2:{ rewrite (decide_False (P := None = Some v)) by discriminate. done. }
      destruct (decide (x = v)) as [->|Hne].
      + rewrite (decide_True (P := Some v = Some v)) by done. cbn [fmap list_fmap fst]. case_bool_decide as Hm.
        * rewrite (decide_True (P := v ∈ to_match /\ i :: _ <> [])) by (split; [done|discriminate]).
          unfold add_window. rewrite lookup_insert. cbn [default].
          assert (window_at vs w i = around vs w i) as -> by apply window_around.
          fold ps. cbn [fmap list_fmap]. destruct (decide (ps = [])) as [E|E].
          -- rewrite (decide_False (P := v ∈ to_match /\ ps <> [])) by tauto. by rewrite E.
          -- rewrite (decide_True (P := v ∈ to_match /\ ps <> [])) by done.
             cbn [from_option]. unfold id. f_equal. exact (eq_sym (app_assoc _ [around vs w i] _)).
        * rewrite !decide_False by tauto. done.
      + rewrite (decide_False (P := Some x = Some v)) by congruence.
        assert ((if bool_decide (x ∈ to_match) then add_window m x (window_at vs w i) else m) !! v = m !! v) as E.
        { case_bool_decide; [|done]. unfold add_window. by rewrite lookup_insert_ne. }
        rewrite E. done. }
  rewrite Hg. cbv zeta. rewrite zip_positions, lookup_empty. cbn [default app].
  assert ((fun i => 0 + i) <$> positions_of vs (Some v) = positions_of vs (Some v)) as -> by apply list_fmap_id.
  done.
Qed.

Lemma coll_windows to_match w vs v ws :
  field_windows to_match w (Coll vs) !! v = Some ws <-> v ∈ to_match /\ Some v ∈ vs /\ ws = [].
Proof.
  cbn [field_windows]. rewrite lookup_set_to_map by done. split.
  - intros (x & Hx & [= -> <-]). apply elem_of_filter in Hx. tauto.
  - intros (H1 & H2 & ->). exists v. split; [|done]. by apply elem_of_filter.
Qed.

(** What a reference to a feature stands for. *)
Definition refers (d : db) (r : feature_ref) (F : string) (v : value) : Prop :=
  match r with
  | ById f => exists row, inverted_index d !! f = Some row /\ f_field row = F /\ f_value row = v
  | ByKey F' v' => F' = F /\ v' = v
  end.

Lemma requested_spec d refs : (forall r, r ∈ refs -> exists F v, refers d r F v) ->
  exists ff, rfold (add_requested d) refs [] = Ok ff /\ NoDup ff.*1 /\
    forall F v, (exists s, (F, s) ∈ ff /\ v ∈ s) <-> exists r, r ∈ refs /\ refers d r F v.
Proof.
  intros Href.
  destruct (rfold_ok (fun done ff => NoDup ff.*1 /\
    forall F v, (exists s, (F, s) ∈ ff /\ v ∈ s) <-> exists r, r ∈ done /\ refers d r F v)
    (add_requested d) refs []) as (ff & H1 & H2); [| |by exists ff].
  { split; [constructor|]. intros F v. split; [intros (? & ?%elem_of_nil & _); done|intros (? & ?%elem_of_nil & _); done]. }
  intros dn r rest ff Hl (Hn & Hiff). destruct (Href r) as (F & v & Hr). { rewrite Hl. set_solver. }
  assert (forall F' v', refers d r F' v' <-> F' = F /\ v' = v) as Huniq.
  { intros F' v'. destruct r as [f|F0 v0]; cbn in *.
    - destruct Hr as (row & E & <- & <-). split; [|intros [-> ->]; eauto].
      intros (row' & E' & <- & <-). rewrite E in E'. by injection E' as <-.
    - destruct Hr as [-> ->]. naive_solver. }
  assert (add_requested d ff r = Ok (if bool_decide (F ∈ ff.*1)
      then (fun kv => if bool_decide (kv.1 = F) then (F, {[v]} ∪ kv.2) else kv) <$> ff else ff ++ [(F, {[v]})])) as ->.
  { unfold add_requested. destruct r as [f|F0 v0]; cbn in Hr.
    - destruct Hr as (row & E & <- & <-). unfold lookup_feature. by rewrite E.
    - by destruct Hr as [-> ->]. }
  eexists. split; [done|]. 
  assert (forall F' v', (exists x, x ∈ dn ++ [r] /\ refers d x F' v') <->
     (exists s, (F', s) ∈ ff /\ v' ∈ s) \/ (F' = F /\ v' = v)) as Hold.
  { intros F' v'. rewrite Hiff. split.
    - intros (x & [Hx|Hx]%elem_of_app & Hx'); [left; eauto|]. apply elem_of_list_singleton in Hx as ->.
      right. by apply Huniq.
    - intros [(x & Hx & Hx')|H]; [exists x|exists r]; (split; [set_solver|]); [done|by apply Huniq]. }
  case_bool_decide as Hin.
  - split.
    + assert (((fun kv : string * gset value => if bool_decide (kv.1 = F) then (F, {[v]} ∪ kv.2) else kv) <$> ff).*1 = ff.*1) as ->; [|done].
      rewrite <- list_fmap_compose. apply list_fmap_ext. intros ? kv _. cbn. by case_bool_decide.
    + intros F' v'. rewrite Hold. split.
      * intros (s & Hs & Hv). apply elem_of_list_fmap in Hs as ([F0 s0] & Heq & Hs). cbn [fst snd] in Heq.
        case_bool_decide as E.
        -- injection Heq as -> ->. apply elem_of_union in Hv as [Hv|Hv]; [right; set_solver|left].
           subst F0. eauto.
        -- injection Heq as -> ->. left. eauto.
      * intros [(s & Hs & Hv)|[-> ->]].
        -- destruct (decide (F' = F)) as [->|Hne].
           ++ exists ({[v]} ∪ s). split; [|set_solver]. apply elem_of_list_fmap. exists (F, s). cbn [fst snd].
              by rewrite bool_decide_true.
           ++ exists s. split; [|done]. apply elem_of_list_fmap. exists (F', s). cbn [fst snd].
              by rewrite bool_decide_false.
        -- apply elem_of_list_fmap in Hin as ([F0 s0] & -> & Hs). exists ({[v]} ∪ s0). split; [|set_solver].
           apply elem_of_list_fmap. exists (F0, s0). cbn [fst snd]. by rewrite bool_decide_true.
  - split.
    + rewrite fmap_app. cbn. apply NoDup_app. split_and!; [done|set_solver|apply NoDup_singleton].
    + intros F' v'. rewrite Hold. split.
      * intros (s & [Hs|Hs]%elem_of_app & Hv); [left; eauto|]. apply elem_of_list_singleton in Hs as [= -> ->].
        right. set_solver.
      * intros [(s & Hs & Hv)|[-> ->]]; [exists s|exists {[v]}]; set_solver.
Qed.

(** What the windows of value [v] in field values [fv] are: for a sequence one per
    occurrence, in order; for a set no windows. *)
Definition windows_in (w : nat) (fv : field_values) (v : value) (ws : list (list (option value))) : Prop :=
  match fv with
  | Seq vs => positions_of vs (Some v) <> [] /\ ws = around vs w <$> positions_of vs (Some v)
  | Coll vs => Some v ∈ vs /\ ws = []
  end.

Lemma find_field (fs : features) F fv : NoDup fs.*1 ->
  List.find (fun x : string * field_values => bool_decide (x.1 = F)) fs = Some fv <-> fv ∈ fs /\ fv.1 = F.
Proof.
  intros Hn. split.
  - intros H. apply find_some in H as [H1 H2]. apply bool_decide_eq_true in H2. split; [by apply elem_of_list_In|done].
  - intros [Hin <-]. induction fs as [|x fs IH]; [by apply elem_of_nil in Hin|]. cbn [fmap list_fmap] in Hn.
    apply NoDup_cons in Hn as [Hx Hn]. cbn [List.find]. case_bool_decide as E.
    + apply elem_of_cons in Hin as [->|Hin]; [done|]. destruct Hx. rewrite E. by apply elem_of_list_fmap_1.
    + apply elem_of_cons in Hin as [->|Hin]; [done|]. by apply IH.
Qed.

Lemma doc_windows_spec ff w (fs : features) F v ws : NoDup ff.*1 -> NoDup fs.*1 ->
  (exists m, (F, m) ∈ doc_windows ff w fs /\ m !! v = Some ws) <->
  (exists s, (F, s) ∈ ff /\ v ∈ s) /\ (exists fv, (F, fv) ∈ fs /\ windows_in w fv v ws).
Proof.
  intros Hff Hfs. unfold doc_windows. split.
  - intros (m & Hm & Hv). apply elem_of_list_fmap in Hm as ([F' s] & [= <- ->] & Hs).
    destruct (List.find _ fs) as [[F2 fv]|] eqn:E; [|by rewrite lookup_empty in Hv].
    apply find_field in E as [E1 E2]; [|done]. cbn in E2, Hv. subst F2.
    destruct fv as [vs|vs].
    + rewrite seq_windows in Hv. case_decide as H; [|done]. injection Hv as <-.
      split; [|exists (Seq vs)]; naive_solver.
    + rewrite coll_windows in Hv. split; [|exists (Coll vs)]; naive_solver.
  - intros ((s & Hs & Hv) & fv & Hin & Hw).
    eexists. split.
    + apply elem_of_list_fmap. exists (F, s). split; [done|done].
    + assert (List.find (fun x : string * field_values => bool_decide (x.1 = F)) fs = Some (F, fv)) as ->
        by (by apply find_field). cbn [snd].
      destruct fv as [vs|vs]; cbn in Hw.
      * destruct Hw as [Hp ->]. rewrite seq_windows, decide_True; done.
      * by rewrite coll_windows.
Qed.

Lemma feature_windows_spec d c q refs w :
  (forall i j k, doc_key d !! i = Some k -> doc_key d !! j = Some k -> i = j) ->
  (forall doc, doc ∈ q -> exists k fs, doc_key d !! doc = Some k /\ corpus_lookup c k = Some (Ok fs) /\ NoDup fs.*1) ->
  (forall r, r ∈ refs -> exists F v, refers d r F v) ->
  exists out, feature_windows d c q refs w = Ok out /\
    NoDup out.*1.*2 /\
    (forall doc, doc ∈ q <-> doc ∈ out.*1.*2) /\
    (forall k doc wins, (k, doc, wins) ∈ out ->
       doc_key d !! doc = Some k /\ exists fs, corpus_lookup c k = Some (Ok fs) /\
       forall F v ws, (exists m, (F, m) ∈ wins /\ m !! v = Some ws) <->
         (exists r, r ∈ refs /\ refers d r F v) /\ (exists fv, (F, fv) ∈ fs /\ windows_in w fv v ws)).
Proof.
  intros Hinj Hdocs Hrefs. unfold feature_windows.
  destruct (requested_spec d refs Hrefs) as (ff & -> & Hn & Hff). cbn [rbind].
  destruct (docs_query_ok d c q Hinj) as (docs & -> & _ & Hnd & Hin).
  { intros doc Hd. destruct (Hdocs _ Hd) as (k & ? & ? & _). eauto. }
  cbn [rbind].
  destruct (rtraverse_Forall2 (fun '(doc, key, x) => match x with
      | None => Err IndexError
      | Some r => rbind r (fun fs => Ok (key, doc, doc_windows ff w fs)) end)
    (fun x o => o.1 = (x.1.2, x.1.1) /\ exists fs, x.2 = Some (Ok fs) /\ NoDup fs.*1 /\ o.2 = doc_windows ff w fs) docs)
    as (out & -> & Hf).
  { intros [[doc k] r] Hx. apply Hin in Hx as (Hd & Hk & ->). destruct (Hdocs _ Hd) as (k' & fs & Hk' & Hc & Hfs).
    rewrite Hk in Hk'. injection Hk' as <-. rewrite Hc. cbn [rbind]. eexists. split; [done|]. cbn. eauto. }
  exists out. split; [done|].
  assert (out.*1.*2 = docs.*1.*1) as Eids.
  { clear -Hf. induction Hf as [|x y l l' [E _] Hf IH]; [done|]. cbn. rewrite E. by f_equal. }
  split_and!.
  - by rewrite Eids.
  - intros doc. rewrite Eids. split.
    + intros Hd. destruct (Hdocs _ Hd) as (k & fs & Hk & _). 
      assert ((doc, k, corpus_lookup c k) ∈ docs) as Hx by (by apply Hin).
      apply elem_of_list_fmap. exists (doc, k). split; [done|]. apply elem_of_list_fmap. by exists (doc, k, corpus_lookup c k).
    + intros Hd. apply elem_of_list_fmap in Hd as ([doc' k] & -> & Hd). apply elem_of_list_fmap in Hd as ([[doc2 k2] r] & E & Hd).
      cbn in E. injection E as -> ->. by apply Hin in Hd as (? & _).
  - intros k doc wins Ho. apply elem_of_list_lookup in Ho as [i Hi].
    destruct (Forall2_lookup_r _ _ _ _ _ Hf Hi) as ([[doc' k'] r] & Hx & E & fs & Er & Hfs & Ew).
    cbn in E, Er, Ew. injection E as -> ->. subst wins r. apply elem_of_list_lookup_2 in Hx. apply Hin in Hx as (Hd & Hk & Hc).
    split; [done|]. exists fs. split; [done|]. intros F v ws. rewrite doc_windows_spec by done. by rewrite Hff.
Qed.

(** ** The co-occurrence graph *)
Lemma similarity_comm rnd a b : similarity rnd a b = similarity rnd b a.
Proof. unfold similarity. by rewrite (intersection_comm_L a b), (union_comm_L a b). Qed.

Lemma foldl_insert_det {K A} `{Countable K} (F : K -> A) (E : list (K * A)) (m : gmap K A) k :
  (forall kv, kv ∈ E -> kv.2 = F kv.1) ->
  foldl (fun es kv => <[kv.1 := kv.2]> es) m E !! k = if decide (k ∈ E.*1) then Some (F k) else m !! k.
Proof.
  revert m. induction E as [|[k' a] E IH]; intros m HF.
  - cbn. by case_decide as H1; [apply elem_of_nil in H1|].
  - cbn [foldl fmap list_fmap fst snd]. rewrite IH by (intros; apply HF; by right).
    destruct (decide (k = k')) as [->|Hne].
    + rewrite (decide_True (P := k' ∈ k' :: E.*1)) by left. case_decide; [done|].
      rewrite lookup_insert. f_equal. apply (HF (k', a)). left.
    + rewrite lookup_insert_ne by done. destruct (decide (k ∈ E.*1)) as [Hk|Hk].
      * rewrite decide_True; [done|by right].
      * rewrite decide_False; [done|]. intros [?|?]%elem_of_cons; done.
Qed.

Definition result_edges (r : Z * list (Z * Qc * nat)) : list ((Z * Z) * Qc) :=
  (fun x => (edge_key r.1 x.1.1, x.1.2)) <$> r.2.

Lemma graph_edges_flat (results : list (Z * list (Z * Qc * nat))) (m : gmap (Z * Z) Qc) :
  foldl (fun es '(c, w) => foldl (fun es (x : Z * Qc * nat) => <[edge_key c x.1.1 := x.1.2]> es) es w) m results =
  foldl (fun es kv => <[kv.1 := kv.2]> es) m (concat (result_edges <$> results)).
Proof.
  revert m. induction results as [|[c w] results IH]; intros m; [done|].
  cbn [foldl fmap list_fmap concat]. rewrite foldl_app, IH. f_equal. unfold result_edges. cbn [fst snd].
  clear. revert m. induction w as [|x w IH]; intros m; [done|]. cbn. apply IH.
Qed.

Lemma graph_jobs_spec d cs : quiet d -> (forall c, c ∈ cs -> c ∈ dom (cluster d)) ->
  exists jobs, graph_jobs d cs = Ok jobs /\ length jobs = length cs /\
    forall i c, cs !! i = Some c -> jobs !! i = Some (c, cluster_documents d c, drop (S i) cs).
Proof.
  intros Hq. induction cs as [|c cs IH]; intros H; [by exists []|].
  destruct IH as (jobs & Hj & Hl & Hi); [intros; apply H; by right|]. cbn [graph_jobs].
  rewrite (quiet_cluster_docs d c Hq) by (apply H; left). cbn [rbind]. rewrite Hj. cbn [rbind].
  eexists. split; [done|]. split; [cbn; by rewrite Hl|]. intros [|i] x Hx; cbn in Hx |- *.
  - by injection Hx as <-.
  - by apply Hi.
Qed.

Lemma labels_total with_field fs :
  with_field = true \/ (forall r, r ∈ fs -> exists s, r.1.2 = VText s) ->
  node_label with_field fs = Ok ((fun r : N * string * value * N => (if with_field then Some r.1.1.2 else None, r.1.2)) <$> fs).
Proof.
  intros Hw. unfold node_label. apply rtraverse_map. intros [[[f F] v] n] Hin. cbn.
  destruct Hw as [->|Hw]; [done|]. destruct with_field; [done|].
  destruct (Hw _ Hin) as [s Hs]. cbn in Hs. by subst.
Qed.

Lemma label_raises fs : (exists r, r ∈ fs /\ forall s, r.1.2 <> VText s) -> node_label false fs = Err TypeError.
Proof.
  unfold node_label. induction fs as [|[[[f F] v] n] fs IH]; intros (r & Hr & Hn); [by apply elem_of_nil in Hr|].
  cbn [rtraverse]. destruct v as [i|s]; [done|]. cbn [rbind].
  rewrite IH; [done|]. apply elem_of_cons in Hr as [->|Hr]; [by destruct (Hn s)|by exists r].
Qed.
Lemma labels_or_raise fs : (exists l, node_label false fs = Ok l) \/ node_label false fs = Err TypeError.
Proof.
  unfold node_label. induction fs as [|[[[f F] v] n] fs IH]; [left; by exists []|].
  cbn [rtraverse]. destruct v as [i|s]; [by right|]. cbn [rbind].
  destruct IH as [[l ->]| ->]; [left; eexists; done|by right].
Qed.
Lemma graph_raises rnd d top_k arrival c r : c ∈ dom (cluster d) -> r ∈ cluster_features d c (Some top_k) ->
  (forall s, r.1.2 <> VText s) -> cooccurrence_graph rnd d top_k false arrival = Err TypeError.
Proof.
  intros Hc Hr Hn. unfold cooccurrence_graph.
  destruct (top_cluster_features_spec d top_k) as (Hids & _ & Hrow).
  set (tops := top_cluster_features d top_k) in *.
  assert (exists x, x ∈ tops /\ x.1.1 = c) as (x & Hx & Hxc).
  { assert (c ∈ tops.*1.*1) as H. { rewrite Hids. unfold cluster_ids. by rewrite elem_of_z_list. }
    apply elem_of_list_fmap in H as (y & -> & H). apply elem_of_list_fmap in H as (x & -> & H). by exists x. }
  assert (node_label false x.2 = Err TypeError) as Hbad.
  { destruct (Hrow _ Hx) as (row & _ & _ & Hfs). rewrite Hfs, Hxc. apply label_raises. by exists r. }
  assert (forall l, x ∈ l -> rtraverse (fun '(c, n, fs) => rmap (fun l => (c, (n, l))) (node_label false fs)) l = Err TypeError) as ->; [|done|done].
  induction l as [|[[c' n'] fs'] l IH]; intros Hin; [by apply elem_of_nil in Hin|]. cbn [rtraverse].
  apply elem_of_cons in Hin as [->|Hin]; [cbn [snd] in Hbad; by rewrite Hbad|].
  destruct (labels_or_raise fs') as [[lab ->]| ->]; [|done]. cbn [rmap rbind]. by rewrite IH.
Qed.

Lemma graph_spec rnd d top_k with_field arrival : quiet d ->
  arrival ≡ₚ seq 0 (size (dom (cluster d))) ->
  with_field = true \/ (forall c r, c ∈ dom (cluster d) -> r ∈ cluster_features d c (Some top_k) -> exists s, r.1.2 = VText s) ->
  exists g, cooccurrence_graph rnd d top_k with_field arrival = Ok g /\
    (forall c n label, g_nodes g !! c = Some (n, label) <->
       c ∈ dom (cluster d) /\ n = N.of_nat (size (cluster_documents d c)) /\
       label = (fun r => (if with_field then Some r.1.1.2 else None, r.1.2)) <$> cluster_features d c (Some top_k)) /\
    (forall a b w, g_edges g !! (a, b) = Some w <->
       (a < b)%Z /\ a ∈ dom (cluster d) /\ b ∈ dom (cluster d) /\
       cluster_documents d a ∩ cluster_documents d b ≠ ∅ /\
       w = similarity rnd (cluster_documents d a) (cluster_documents d b)).
Proof.
  intros Hq Harr Hlab. unfold cooccurrence_graph.
  destruct (top_cluster_features_spec d top_k) as (Hids & _ & Hrow).
  set (tops := top_cluster_features d top_k) in *.
  assert (forall c, c ∈ tops.*1.*1 <-> c ∈ dom (cluster d)) as Hin.
  { intros c. rewrite Hids. unfold cluster_ids. by rewrite elem_of_z_list. }
  assert (NoDup tops.*1.*1) as Hnd. { rewrite Hids. apply NoDup_z_list. }
  assert (length tops.*1.*1 = size (dom (cluster d))) as Hlen.
  { rewrite Hids. unfold cluster_ids. rewrite z_list_perm. done. }
  (* the nodes *)
  set (nlab := fun r : N * string * value * N => (if with_field then Some r.1.1.2 else None, r.1.2)).
  erewrite (rtraverse_map _ (fun '(c, n, fs) => (c, (n, nlab <$> fs))) tops).
  2:{ intros [[c n] fs] Hx. rewrite (labels_total with_field fs); [done|].
      destruct Hlab as [?|Hl]; [by left|]. right. intros r Hr.
      destruct (Hrow _ Hx) as (row & Hrw & _ & Hfs). cbn [fst snd] in Hfs. subst fs.
      apply (Hl c r); [by apply elem_of_dom; exists row|done]. }
  cbn [rbind]. set (cs := tops.*1.*1) in *.
  destruct (graph_jobs_spec d cs Hq) as (jobs & -> & Hjl & Hjobs). { intros; by apply Hin. }
  cbn [rbind].
  set (res_of := fun i => match cs !! i with
      | Some c => (c, omap (weight_entry rnd d (cluster_documents d c)) (drop (S i) cs))
      | None => (0%Z, []) end).
  erewrite (rtraverse_map _ res_of arrival).
  2:{ intros i Hi. rewrite Harr, <- Hlen in Hi. apply elem_of_seq in Hi as [_ Hi].
      destruct (lookup_lt_is_Some_2 cs i) as [c Hc]; [lia|].
      rewrite (Hjobs _ _ Hc). unfold res_of. rewrite Hc.
      destruct (cooccurrence_cases rnd d (cluster_documents d c) (drop (S i) cs) Hq) as [[_ ->]|[Hf _]]; [done|].
      destruct Hf. apply Forall_forall. intros x Hx. apply Hin. rewrite <- (take_drop (S i) cs). set_solver. }
  cbn [rbind]. eexists. split; [done|]. cbn [g_nodes g_edges]. split.
  - intros c n label. rewrite <- elem_of_list_to_map.
    2:{ rewrite <- list_fmap_compose. assert ((fst ∘ (fun '(c, n, fs) => (c, (n, nlab <$> fs)))) <$> tops = cs) as ->; [|done].
        unfold cs. rewrite <- list_fmap_compose. apply list_fmap_ext. by intros ? [[? ?] ?] _. }
    rewrite elem_of_list_fmap. split.
    + intros ([[c' n'] fs] & [= -> -> ->] & Hx). destruct (Hrow _ Hx) as (row & Hr & En & Ef). cbn [fst snd] in Hr, En, Ef. subst.
      split_and!; [apply elem_of_dom; eauto|by rewrite (quiet_docs_count d c' row Hq Hr)|done].
    + intros (Hc & -> & ->). apply Hin in Hc. unfold cs in Hc.
      apply elem_of_list_fmap in Hc as ([c' n'] & -> & Hc). apply elem_of_list_fmap in Hc as ([[c2 n2] fs] & [= -> ->] & Hx).
      destruct (Hrow _ Hx) as (row & Hr & En & Ef). cbn [fst snd] in Hr, En, Ef. subst. eexists. split; [|exact Hx].
      cbn. by rewrite (quiet_docs_count d c2 row Hq Hr).
  - intros a b w. rewrite graph_edges_flat.
    set (sim := fun k : Z * Z => similarity rnd (cluster_documents d k.1) (cluster_documents d k.2)).
    set (E := concat (result_edges <$> (res_of <$> arrival))).
    assert (forall k w', (k, w') ∈ E <-> exists i c x, cs !! i = Some c /\ x ∈ drop (S i) cs /\
        cluster_documents d c ∩ cluster_documents d x ≠ ∅ /\ k = edge_key c x /\ w' = sim (c, x)) as HE.
    { intros k w'. unfold E. rewrite elem_of_concat. split.
      - intros (l & Hkl & Hl). apply elem_of_list_fmap in Hl as (r & -> & Hr). apply elem_of_list_fmap in Hr as (i & -> & Hi).
        unfold res_of in Hkl. destruct (cs !! i) as [c|] eqn:Ec; [|by apply elem_of_nil in Hkl].
        unfold result_edges in Hkl. cbn [fst snd] in Hkl. apply elem_of_list_fmap in Hkl as (e & Hke & He).
        apply elem_of_list_omap in He as (x & Hx & He). apply weight_entry_some in He as (-> & Hne & _).
        cbn in Hke. injection Hke as -> ->. exists i, c, x. done.
      - intros (i & c & x & Hc & Hx & Hne & -> & ->). eexists. split.
        2:{ apply elem_of_list_fmap_1. apply (elem_of_list_fmap_1 res_of arrival i). rewrite Harr, <- Hlen.
            apply elem_of_seq. apply lookup_lt_Some in Hc. lia. }
        unfold res_of. rewrite Hc. unfold result_edges. cbn [fst snd]. apply elem_of_list_fmap.
        exists (x, similarity rnd (cluster_documents d c) (cluster_documents d x), size (cluster_documents d c ∩ cluster_documents d x)).
        split; [done|]. apply elem_of_list_omap. exists x. split; [done|]. unfold weight_entry.
        rewrite <- size_0 in Hne. apply Nat.eqb_neq in Hne. by rewrite Hne. }
    assert (forall c x, sim (edge_key c x) = sim (c, x)) as Hsim.
    { intros c x. unfold sim, edge_key. cbn [fst snd]. destruct (Z.le_ge_cases c x).
      - by rewrite Z.min_l, Z.max_r by lia.
      - rewrite Z.min_r, Z.max_l by lia. apply similarity_comm. }
    rewrite (foldl_insert_det sim).
    2:{ intros [k w'] Hk. apply HE in Hk as (i & c & x & _ & _ & _ & -> & ->). cbn [fst snd]. by rewrite Hsim. }
    rewrite lookup_empty.
    assert ((a, b) ∈ E.*1 <-> (a < b)%Z /\ a ∈ dom (cluster d) /\ b ∈ dom (cluster d) /\
       cluster_documents d a ∩ cluster_documents d b ≠ ∅) as HEk.
    { rewrite elem_of_list_fmap. split.
      - intros ([k w'] & Hk & Hx). cbn in Hk. subst k. apply HE in Hx as (i & c & x & Hc & Hx & Hne & Hk & _).
        assert (c <> x) as Hcx.
        { intros ->. apply elem_of_list_lookup in Hx as [j Hj]. rewrite lookup_drop in Hj.
          pose proof (NoDup_lookup _ _ _ _ Hnd Hc Hj). lia. }
        assert (c ∈ dom (cluster d)) by (apply Hin; by eapply elem_of_list_lookup_2).
        assert (x ∈ dom (cluster d)). { apply Hin. rewrite <- (take_drop (S i) cs). set_solver. }
        unfold edge_key in Hk. injection Hk as -> ->. destruct (Z.le_ge_cases c x).
        + rewrite Z.min_l, Z.max_r by lia. split_and!; [lia|done|done|done].
        + rewrite Z.min_r, Z.max_l by lia. split_and!; [lia|done|done|]. by rewrite intersection_comm_L.
      - intros (Hab & Ha & Hb & Hne). apply Hin in Ha, Hb.
        apply elem_of_list_lookup in Ha as [i Hi]. apply elem_of_list_lookup in Hb as [j Hj].
        destruct (Nat.lt_total i j) as [Hij|[->|Hij]].
        + exists ((a, b), sim (a, b)). split; [done|]. apply HE. exists i, a, b. split_and!; try done.
          * apply elem_of_list_lookup. exists (j - S i). rewrite lookup_drop. rewrite <- Hj. f_equal. lia.
          * unfold edge_key. by rewrite Z.min_l, Z.max_r by lia.
        + rewrite Hi in Hj. injection Hj as ->. lia.
        + exists ((a, b), sim (b, a)). split; [done|]. apply HE. exists j, b, a. split_and!; try done.
          * apply elem_of_list_lookup. exists (i - S j). rewrite lookup_drop. rewrite <- Hi. f_equal. lia.
          * by rewrite intersection_comm_L.
          * unfold edge_key. by rewrite Z.min_r, Z.max_l by lia. }
    case_decide as H; rewrite HEk in H.
    + split; [intros [= <-]; naive_solver|]. intros (_ & _ & _ & _ & ->). done.
    + split; [done|]. naive_solver.
Qed.
