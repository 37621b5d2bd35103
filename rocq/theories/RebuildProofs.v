(** RebuildProofs.v: the first transaction of [index]. *)
From Verif Require Export IndexingProofs.

(** The database the first transaction arrives at. *)
Definition zeroed (ii : gmap N feature_row) : gmap N feature_row :=
  (fun row => FeatureRow (f_field row) (f_value row) 0 ∅) <$> ii.

Definition rebuilt (keys : list value) (segs : list segment) (d : db) : db :=
  let rows := concat segs.*1 in
  let ii := merge_features rows (zeroed (inverted_index d)) in
  let d1 := Db (list_to_map (enumerate keys)) ii
               (list_to_map (posmap_entry <$> concat segs.*2))
               (list_to_map (position_rows rows ii))
               (field_summary d) (cluster d) (feature_cluster d) (changed_cluster d) in
  let d2 := write_field_summary (refresh_docs_counts d1) in
  set_changed_cluster (dom (cluster d) ∪ changed_cluster d) d2.

Record rebuild_conditions (keys : list value) (segs : list segment) (d : db) : Prop := RebuildConditions {
  rc_keys : NoDup keys;
  rc_segs : segs ≠ [];
  rc_pos : NoDup (position_rows (concat segs.*1) (merge_features (concat segs.*1) (zeroed (inverted_index d)))).*1;
  rc_map : NoDup (posmap_entry <$> concat segs.*2).*1;
  rc_marks : dom (cluster d) ## changed_cluster d }.

Lemma rebuild_run bsz pos c s segs d :
  run_batches pos (batches bsz c) s = Ok segs -> rebuild_conditions (fst <$> c) segs d ->
  rebuild bsz pos c s d = (rebuilt (fst <$> c) segs d, Ok tt).
Proof.
  intros Hr [H1 H2 H3 H4 H5]. unfold rebuild, dbind, dstmt, dres, insert_doc_keys.
  rewrite bool_decide_true by done. rewrite Hr. cbn [fst snd].
  destruct segs as [|seg segs]; [done|]. set (sg := seg :: segs) in *.
  unfold insert_positions at 1. unfold zero_index at 1. cbn [inverted_index set_inverted_index set_position_index set_position_doc_map set_doc_key].
  change ((fun row => FeatureRow (f_field row) (f_value row) 0 ∅) <$> inverted_index d) with (zeroed (inverted_index d)).
  rewrite bool_decide_true by done.
  unfold insert_position_map. rewrite bool_decide_true by done.
  unfold mark_all_clusters.
  cbn [cluster changed_cluster write_field_summary refresh_docs_counts set_field_summary set_feature_cluster set_position_doc_map set_position_index set_inverted_index set_doc_key zero_index].
  rewrite bool_decide_true by done. f_equal.
  unfold rebuilt, write_field_summary, refresh_docs_counts, zero_index. cbn.
  by rewrite !(right_id_L ∅ (∪)).
Qed.

Lemma rebuild_inv bsz pos c s d d' :
  rebuild bsz pos c s d = (d', Ok tt) ->
  exists segs, run_batches pos (batches bsz c) s = Ok segs /\
    rebuild_conditions (fst <$> c) segs d /\ d' = rebuilt (fst <$> c) segs d.
Proof.
  intros H. assert (exists segs, run_batches pos (batches bsz c) s = Ok segs /\
    rebuild_conditions (fst <$> c) segs d) as (segs & H1 & H2).
  { revert H. unfold rebuild, dbind, dstmt, dres, insert_doc_keys.
    case_bool_decide as Hk; [|done]. destruct (run_batches _ _ _) as [segs|e]; [|done].
    cbn [fst snd]. destruct segs as [|seg segs]; [done|]. set (sg := seg :: segs) in *.
    unfold insert_positions at 1. unfold zero_index at 1.
    cbn [inverted_index set_inverted_index set_position_index set_position_doc_map set_doc_key].
    change ((fun row => FeatureRow (f_field row) (f_value row) 0 ∅) <$> inverted_index d) with (zeroed (inverted_index d)).
    case_bool_decide as Hp; [|done]. unfold insert_position_map. case_bool_decide as Hm; [|done].
    unfold mark_all_clusters.
    cbn [cluster changed_cluster write_field_summary refresh_docs_counts set_field_summary set_feature_cluster set_position_doc_map set_position_index set_inverted_index set_doc_key zero_index].
    case_bool_decide as Hc; [|done]. intros _. exists sg. split; [done|]. by constructor. }
  exists segs. split_and!; [done..|]. rewrite (rebuild_run _ _ _ _ _ _ H1 H2) in H. by injection H as <-.
Qed.

(** ** The rebuilt database *)
Lemma zeroed_lookup ii f row : zeroed ii !! f = Some row <->
  exists r0, ii !! f = Some r0 /\ row = FeatureRow (f_field r0) (f_value r0) 0 ∅.
Proof.
  unfold zeroed. rewrite lookup_fmap. destruct (ii !! f); cbn.
  - split; [intros [= <-]; eauto|]. intros (r0 & [= <-] & ->). done.
  - split; [done|]. by intros (? & ? & _).
Qed.
Lemma zeroed_unique ii : features_unique ii -> features_unique (zeroed ii).
Proof.
  intros Hu f g rf rg (r1 & H1 & ->)%zeroed_lookup (r2 & H2 & ->)%zeroed_lookup. cbn. by apply Hu.
Qed.

Lemma concat_perm {A} (ls ls' : list (list A)) : ls ≡ₚ ls' -> concat ls ≡ₚ concat ls'.
Proof.
  induction 1; cbn; [done|by f_equiv|by rewrite !app_assoc, (Permutation_app_comm y x)|by etrans].
Qed.
Lemma batches_concat bsz c : concat (batches bsz c) = enumerate (snd <$> c).
Proof. apply make_batches_concat. Qed.
(** The documents of the batches are those of the corpus. *)
Lemma batch_docs bsz (c : corpus) x (r : res features) bs :
  bs ≡ₚ batches bsz c -> ((x, r) ∈ concat bs <-> exists k, c !! N.to_nat x = Some (k, r)).
Proof.
  unfold corpus, features, batch in *. intros Hp.
  assert (concat bs ≡ₚ enumerate (snd <$> c)) as ->.
  { by rewrite (concat_perm _ _ Hp), batches_concat. }
  rewrite elem_of_enumerate, list_lookup_fmap. destruct (c !! N.to_nat x) as [[k r']|]; cbn.
  - split; [intros E; injection E as E; subst; eauto|]. intros (? & E). congruence.
  - split; [done|]. by intros (? & ?).
Qed.
Lemma batch_ids_nodup bsz c bs : bs ≡ₚ batches bsz c -> NoDup (concat bs).*1.
Proof. intros Hp. rewrite (concat_perm _ _ Hp), batches_concat. apply NoDup_enumerate. Qed.

(** What the rebuilt inverted index says. *)
Record index_exact (c : corpus) (old ii : gmap N feature_row) : Prop := IndexExact {
  ie_unique : features_unique ii;
  ie_old : forall f row, old !! f = Some row -> exists row', ii !! f = Some row' /\ row_key row' = row_key row;
  ie_docs : forall f row x, ii !! f = Some row -> x ∈ f_doc_ids row <-> doc_matches c (f_field row) (f_value row) x;
  ie_count : forall f row, ii !! f = Some row -> f_docs_count row = N.of_nat (size (f_doc_ids row));
  ie_has : forall field v x, doc_matches c field v x -> exists f, find_feature ii (field, v) = Some f;
  ie_new : forall f row, ii !! f = Some row -> old !! f = None ->
     exists x, doc_matches c (f_field row) (f_value row) x }.

Lemma merge_exact bsz pos c bs segs old :
  features_unique old -> bs ≡ₚ batches bsz c ->
  Forall2 (fun b seg => index_docs pos b = Ok seg) bs segs ->
  index_exact c old (merge_features (concat segs.*1) (zeroed old)).
Proof.
  intros Hu Hp HF.
  destruct (merge_features_spec (concat segs.*1) (zeroed old) (zeroed_unique _ Hu)) as [M1 M2 M3 M4].
  assert (forall x k, x ∈ f_doc_ids (group_row (concat segs.*1) k) <-> doc_matches c k.1 k.2 x) as Hg.
  { intros x k. rewrite (group_union pos bs segs k x HF). unfold doc_matches. split.
    - intros (fs & Hin & Hh). apply (batch_docs bsz c x (Ok fs) bs Hp) in Hin as [key Hin]. eauto.
    - intros (key & fs & Hin & Hh). exists fs. split; [|done]. apply (batch_docs bsz c x (Ok fs) bs Hp). eauto. }
  assert (forall k, (exists x, doc_matches c k.1 k.2 x) <-> k ∈ group_keys (concat segs.*1)) as Hk.
  { intros k. rewrite elem_of_group_keys. split.
    - intros (x & Hx). apply Hg in Hx. apply elem_of_union_rows in Hx as (r & Hr & _).
      apply elem_of_list_filter in Hr as [? ?]. eauto.
    - intros (r & Hr & <-). 
      assert (s_docs r ≠ ∅) as Hne.
      { apply elem_of_concat in Hr as (l & Hl & Hin). apply elem_of_list_fmap in Hin as (seg & -> & Hseg).
        apply elem_of_list_lookup in Hseg as [i Hi].
        destruct (Forall2_lookup_r _ _ _ _ _ HF Hi) as (b & Hb & Hok).
        apply index_docs_docs in Hok as [Hsd _]. by apply (sd_count _ _ Hsd r Hl). }
      apply set_choose_L in Hne as [x Hx]. exists x. apply (Hg x (seg_key r)).
      apply elem_of_union_rows. exists r. split; [|done]. by apply elem_of_list_filter. }
  split.
  - done.
  - intros f row Hf. destruct (M2 f (FeatureRow (f_field row) (f_value row) 0 ∅)) as (row' & H1 & H2).
    { apply zeroed_lookup. eauto. }
    exists row'. split; [done|]. by rewrite H2.
  - intros f row x Hf. destruct (M3 f row Hf) as [[H1 H2]|[H1 H2]].
    + rewrite H2. rewrite Hg. unfold row_key. cbn. by rewrite H2.
    + apply zeroed_lookup in H2 as (r0 & _ & ->). cbn in *. split; [by intros ?%elem_of_empty|].
      intros Hx. exfalso. apply H1. apply Hk. by exists x.
  - intros f row Hf. destruct (M3 f row Hf) as [[H1 H2]|[H1 H2]].
    + rewrite H2. eapply group_count; [done|]. by eapply batch_ids_nodup.
    + apply zeroed_lookup in H2 as (r0 & _ & ->). cbn. by rewrite size_empty.
  - intros field v x Hx. apply M4. apply Hk. by exists x.
  - intros f row Hf Hn. destruct (M3 f row Hf) as [[H1 H2]|[H1 H2]].
    + apply Hk in H1 as (x & Hx). by exists x.
    + apply zeroed_lookup in H2 as (r0 & H2 & _). congruence.
Qed.

(** ** The rebuilt database is usable *)
Lemma rebuilt_usable bsz pos c bs segs d :
  features_unique (inverted_index d) -> usable d -> bs ≡ₚ batches bsz c ->
  Forall2 (fun b seg => index_docs pos b = Ok seg) bs segs ->
  usable (rebuilt (fst <$> c) segs d).
Proof.
  intros Hu [[R1 [R2 R3]] Hst] Hp HF.
  destruct (merge_exact bsz pos c bs segs _ Hu Hp HF) as [E1 E2 E3 E4 E5 E6].
  set (ii := merge_features (concat segs.*1) (zeroed (inverted_index d))) in *.
  split; [split_and!|].
  - intros f row. cbn [feature_cluster rebuilt set_changed_cluster write_field_summary set_field_summary refresh_docs_counts set_feature_cluster].
    rewrite map_lookup_imap. destruct (feature_cluster d !! f) as [r0|] eqn:Ef; [|done].
    cbn [option_bind mbind]. intros [= <-].
    destruct (R1 f r0 Ef) as [(i0 & Hi & _) Hc].
    destruct (E2 f i0 Hi) as (row' & Hr & _). split; [|done]. exists row'. split; [done|].
    cbn. fold ii. by rewrite Hr.
  - intros f row Hf. by apply (E4 f row).
  - intros x Hx. cbn in Hx |- *. apply elem_of_union in Hx as [Hx|Hx]; [by apply elem_of_dom|by apply R3].
  - intros x row Hx Hn. cbn in Hx, Hn. exfalso. apply Hn. apply elem_of_union. left. by eapply elem_of_dom_2.
Qed.

(** ** When the workers succeed *)
Definition doc_indexable (pos : bool) (r : res features) : Prop :=
  exists fs, r = Ok fs /\ (pos = true -> forall field vs, (field, Seq vs) ∈ fs -> None ∉ vs).

Lemma add_positions_total field vs p a :
  None ∉ vs <-> exists a', add_positions field vs p a = Ok a'.
Proof.
  revert p a. induction vs as [|[v|] vs IH]; intros p a; cbn.
  - split; [eauto|]. intros _. apply not_elem_of_nil.
  - rewrite <- IH. rewrite not_elem_of_cons. split; [by intros []|done].
  - split; [intros H; exfalso; apply H; left|]. by intros [? ?].
Qed.
Lemma index_field_total pos doc a fv :
  (pos = true -> forall vs, fv.2 = Seq vs -> None ∉ vs) <-> exists a', index_field pos doc a fv = Ok a'.
Proof.
  destruct fv as [field values]. unfold index_field. cbn. destruct pos; [destruct values as [vs|vs]|].
  - destruct (get_starts field a) as [docs starts].
    set (a0 := Accum (a_batch a) (<[field := (docs, starts)]> (a_starts a))). split.
    + intros H. specialize (H eq_refl vs eq_refl).
      apply (add_positions_total field vs (bm_last starts) a0) in H as [a1 ->]. cbn. destruct vs; eauto.
    + intros [a' H] _ vs' [= <-]. apply (add_positions_total field vs (bm_last starts) a0).
      destruct (add_positions field vs (bm_last starts) a0); [eauto|done].
  - split; [eauto|]. by intros _ _ ? ?.
  - split; [destruct values; eauto|done].
Qed.
Lemma index_doc_total pos a d : doc_indexable pos d.2 <-> exists a', index_doc pos a d = Ok a'.
Proof.
  unfold index_doc, doc_indexable. destruct d as [doc [fs|e]]; cbn.
  2:{ split; [by intros (? & ? & _)|by intros [? ?]]. }
  assert ((pos = true -> forall field vs, (field, Seq vs) ∈ fs -> None ∉ vs) <->
     exists a', rfold (index_field pos doc) fs a = Ok a') as <-.
  { revert a. induction fs as [|fv fs IH]; intros a; cbn.
    - split; [eauto|]. by intros _ _ ? ? ?%elem_of_nil.
    - destruct (index_field pos doc a fv) as [a1|e] eqn:E; cbn.
      + rewrite <- (IH a1).
        assert (pos = true -> forall vs, fv.2 = Seq vs -> None ∉ vs) as Hfv
          by (apply (index_field_total pos doc a fv); eauto).
        split; intros H Hp field vs Hin.
        * apply (H Hp field). by right.
        * apply elem_of_cons in Hin as [<-|Hin]; [by apply Hfv|by eapply H].
      + split; [|by intros [? ?]]. intros H.
        assert (exists a', index_field pos doc a fv = Ok a') as [a' Ha']; [|congruence].
        apply index_field_total. intros Hp vs Hvs. apply (H Hp fv.1). destruct fv. cbn in *. subst. left. }
  split; [by intros (? & [= <-] & H)|eauto].
Qed.
Lemma index_docs_total pos b : b ≠ [] ->
  (forall d, d ∈ b -> doc_indexable pos d.2) <-> exists seg, index_docs pos b = Ok seg.
Proof.
  intros Hb.
  assert (forall a, (forall d, d ∈ b -> doc_indexable pos d.2) <-> exists a', rfold (index_doc pos) b a = Ok a') as H.
  { clear Hb. induction b as [|d b IH]; intros a; cbn.
    - split; [eauto|]. by intros _ ? ?%elem_of_nil.
    - destruct (index_doc pos a d) as [a1|e] eqn:E; cbn.
      + rewrite <- (IH a1).
        assert (doc_indexable pos d.2) as Hd by (apply (index_doc_total pos a d); eauto).
        split; intros H d' Hin.
        * apply H. by right.
        * apply elem_of_cons in Hin as [->|Hin]; [done|by apply H].
      + split; [|by intros [? ?]]. intros H.
        assert (exists a', index_doc pos a d = Ok a') as [a' Ha']; [|congruence].
        apply index_doc_total. apply H. left. }
  rewrite (H empty_accum). unfold index_docs. destruct (rfold _ _ _); cbn.
  - destruct b as [|[first r] b]; [done|]. split; eauto.
  - split; by intros [? ?].
Qed.

Lemma seg_first pos b seg : index_docs pos b = Ok seg ->
  exists d, head b = Some d /\ (forall r, r ∈ seg.1 -> s_first r = d.1) /\ (forall r, r ∈ seg.2 -> b_first r = d.1).
Proof.
  unfold index_docs. destruct (rfold _ _ _) as [a|]; [|done]. cbn.
  destruct b as [|[first r0] b]; [done|]. intros [= <-]. exists (first, r0). split; [done|]. cbn. split.
  - intros r (kv & -> & _)%elem_of_list_fmap. done.
  - intros r (kv & -> & _)%elem_of_list_fmap. done.
Qed.
Lemma seg_fields pos b seg : index_docs pos b = Ok seg -> NoDup (b_field <$> seg.2).
Proof.
  unfold index_docs. destruct (rfold _ _ _) as [a|]; [|done]. cbn.
  destruct b as [|[first r0] b]; [done|]. intros [= <-]. cbn. rewrite <- list_fmap_compose.
  rewrite (list_fmap_ext _ fst) by (by intros i [? ?]). apply NoDup_fst_map_to_list.
Qed.

Section segments.
  Context {R : Type} (sel : segment -> list R) (key : R -> string * value) (first : R -> N).
  Context (pos : bool).
  Hypothesis Hfirst : forall b seg, index_docs pos b = Ok seg ->
    exists d, head b = Some d /\ forall r, r ∈ sel seg -> first r = d.1.
  Hypothesis Hkeys : forall b seg, index_docs pos b = Ok seg -> NoDup (key <$> sel seg).
  Lemma segments_nodup bs segs :
    Forall2 (fun b seg => index_docs pos b = Ok seg) bs segs -> NoDup (concat bs).*1 ->
    NoDup ((fun r => (key r, first r)) <$> concat (sel <$> segs)).
  Proof.
    induction 1 as [|b seg bs segs Hb HF IH]; intros Hnd; [constructor|]. cbn [concat] in Hnd. cbn [concat fmap list_fmap].
    rewrite fmap_app in Hnd. change (list_fmap _ _ ?f ?l) with (f <$> l). rewrite fmap_app. apply NoDup_app in Hnd as (_ & Hdis & Hnd).
    apply NoDup_app. split_and!; [| |by apply IH].
    - destruct (Hfirst b seg Hb) as (d & _ & Hf). pose proof (Hkeys b seg Hb) as Hk.
      apply (NoDup_fmap_1 fst). by rewrite <- list_fmap_compose.
    - intros x (r & -> & Hr)%elem_of_list_fmap (r' & He & Hr')%elem_of_list_fmap. injection He as _ He.
      destruct (Hfirst b seg Hb) as (d & Hd & Hf).
      apply elem_of_concat in Hr' as (l & Hl & Hin). apply elem_of_list_fmap in Hin as (seg' & -> & Hseg).
      apply elem_of_list_lookup in Hseg as [i Hi].
      destruct (Forall2_lookup_r _ _ _ _ _ HF Hi) as (b' & Hb' & Hok).
      destruct (Hfirst b' seg' Hok) as (d' & Hd' & Hf').
      rewrite (Hf r Hr), (Hf' r' Hl) in He. apply (Hdis d.1).
      + apply elem_of_list_fmap. exists d. split; [done|]. destruct b; [done|]. injection Hd as ->. left.
      + rewrite He. apply elem_of_list_fmap. exists d'. split; [done|]. apply elem_of_concat. exists b'.
        split; [destruct b'; [done|]; injection Hd' as ->; left|]. by eapply elem_of_list_lookup_2.
  Qed.
End segments.

Lemma position_rows_nodup rows ii :
  NoDup ((fun r => (seg_key r, s_first r)) <$> rows) -> NoDup (position_rows rows ii).*1.
Proof.
  induction rows as [|r rows IH]; intros Hnd; [constructor|]. cbn in Hnd.
  apply NoDup_cons in Hnd as [Hr Hnd]. specialize (IH Hnd). unfold position_rows. cbn [omap list_omap].
  fold (position_rows rows ii). destruct (0 <? s_position_count r)%N; [|done].
  destruct (find_feature ii (seg_key r)) as [f|] eqn:E; cbn; [|done].
  apply NoDup_cons. split; [|done]. intros Hin. apply Hr.
  apply elem_of_list_fmap in Hin as ([[f' fr'] prow] & He & Hin). cbn in He. injection He as <- <-.
  unfold position_rows in Hin. apply elem_of_list_omap in Hin as (r' & Hr' & Ho).
  destruct (0 <? s_position_count r')%N; [|done].
  destruct (find_feature ii (seg_key r')) as [f'|] eqn:E'; cbn in Ho; [|done]. injection Ho as -> Hfr _.
  apply elem_of_list_fmap. exists r'. split; [|done]. f_equal; [|done].
  apply find_feature_Some in E as (row & H1 & H2). apply find_feature_Some in E' as (row' & H1' & H2').
  congruence.
Qed.

Lemma segments_conditions bsz pos (c : corpus) bs segs d :
  NoDup (fst <$> c) -> c ≠ [] -> dom (cluster d) ## changed_cluster d ->
  bs ≡ₚ batches bsz c -> Forall2 (fun b seg => index_docs pos b = Ok seg) bs segs ->
  rebuild_conditions (fst <$> c) segs d.
Proof.
  intros Hk Hc Hm Hp HF. pose proof (batch_ids_nodup bsz c bs Hp) as Hnd.
  constructor; [done| | | |done].
  - intros ->. apply Forall2_nil_inv_r in HF as ->. apply Permutation_nil_l in Hp.
    pose proof (batches_concat bsz c) as Hbc. rewrite <- Hp in Hbc. destruct c; [done|]. done.
  - apply position_rows_nodup. eapply (segments_nodup fst seg_key s_first); [| |done|done].
    + intros b seg Hb. destruct (seg_first _ _ _ Hb) as (d0 & ? & ? & ?). eauto.
    + intros b seg Hb. apply index_docs_docs in Hb as [Hsd _]. by apply sd_keys in Hsd.
  - assert (NoDup ((fun r => ((b_field r, VInt 0), b_first r)) <$> concat segs.*2)) as Hn.
    { eapply (segments_nodup snd (fun r => (b_field r, VInt 0)) b_first); [| |done|done].
      - intros b seg Hb. destruct (seg_first _ _ _ Hb) as (d0 & ? & ? & ?). eauto.
      - intros b seg Hb. apply seg_fields in Hb.
        rewrite (list_fmap_compose b_field (fun s => (s, VInt 0))). apply NoDup_fmap_2; [|done].
        by intros ? ? [= ->]. }
    rewrite <- list_fmap_compose.
    apply (NoDup_fmap_1 (fun '(a, b) => ((a, VInt 0), b))). rewrite <- list_fmap_compose.
    erewrite list_fmap_ext; [exact Hn|]. by intros i [].
Qed.

(** ** The order of the batches does not matter *)
Lemma group_row_perm rows rows' k : rows ≡ₚ rows' -> group_row rows k = group_row rows' k.
Proof.
  intros Hp. unfold group_row.
  assert (group_rows rows k ≡ₚ group_rows rows' k) as Hg by (unfold group_rows; by rewrite Hp).
  f_equal.
  - induction Hg; cbn; lia.
  - apply set_eq. intros x. rewrite !elem_of_union_rows. by setoid_rewrite Hg.
Qed.
Lemma group_keys_perm rows rows' : rows ≡ₚ rows' -> group_keys rows = group_keys rows'.
Proof. intros Hp. unfold group_keys. do 2 f_equal. apply set_eq. intros x. rewrite !elem_of_list_to_set. by rewrite Hp. Qed.

Lemma merge_features_ext rows rows' old :
  group_keys rows = group_keys rows' ->
  (forall k, k ∈ group_keys rows -> group_row rows k = group_row rows' k) ->
  merge_features rows old = merge_features rows' old.
Proof.
  intros Hk Hr. unfold merge_features. rewrite <- Hk. clear Hk.
  generalize old at 2 4 as ii. intros ii. revert ii Hr. induction (group_keys rows) as [|k ks IH]; intros ii Hr; [done|].
  cbn. rewrite (Hr k) by left. apply IH. intros k' Hk'. apply Hr. by right.
Qed.
Lemma merge_features_perm rows rows' old : rows ≡ₚ rows' ->
  merge_features rows old = merge_features rows' old.
Proof.
  intros Hp. apply merge_features_ext; [by apply group_keys_perm|]. intros k _. by apply group_row_perm.
Qed.

Lemma rebuilt_perm keys segs segs' d :
  rebuild_conditions keys segs d -> segs ≡ₚ segs' -> rebuilt keys segs d = rebuilt keys segs' d.
Proof.
  intros [_ _ H3 H4 _] Hp.
  assert (concat segs.*1 ≡ₚ concat segs'.*1) as P1 by (apply concat_perm; by rewrite Hp).
  assert (concat segs.*2 ≡ₚ concat segs'.*2) as P2 by (apply concat_perm; by rewrite Hp).
  unfold rebuilt. rewrite <- (merge_features_perm _ _ _ P1).
  set (ii := merge_features (concat segs.*1) (zeroed (inverted_index d))) in *.
  assert (list_to_map (M := gmap (N * N) pos_row) (position_rows (concat segs.*1) ii) = list_to_map (position_rows (concat segs'.*1) ii)) as ->.
  { apply list_to_map_proper; [done|]. unfold position_rows. by rewrite P1. }
  assert (list_to_map (M := gmap (string * N) posmap_row) (posmap_entry <$> concat segs.*2) = list_to_map (posmap_entry <$> concat segs'.*2)) as ->.
  { apply list_to_map_proper; [done|]. by rewrite P2. }
  done.
Qed.
