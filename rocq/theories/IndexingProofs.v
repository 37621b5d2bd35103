(** IndexingProofs.v *)
From Verif Require Export SpecIndexing BaseProofs ConnProofs.

(** ** The worker *)
Definition docs_in (a : accum) (k : string * value) : bitmap := (get_pair k a).1.
Definition poss_in (a : accum) (k : string * value) : bitmap := (get_pair k a).2.

Lemma docs_add_position field v p a k : docs_in (add_position field v p a) k = docs_in a k.
Proof.
  unfold docs_in, add_position, get_pair. cbn. destruct (decide (k = (field, v))) as [->|].
  - by rewrite lookup_insert.
  - by rewrite lookup_insert_ne.
Qed.
Lemma poss_add_position field v p a k :
  poss_in (add_position field v p a) k = if decide (k = (field, v)) then {[p]} ∪ poss_in a k else poss_in a k.
Proof.
  unfold poss_in, add_position, get_pair. cbn. case_decide as H; [subst|].
  - by rewrite lookup_insert.
  - by rewrite lookup_insert_ne.
Qed.
Lemma docs_add_doc field doc a v k :
  docs_in (add_doc field doc a v) k = if decide (k = (field, v)) then {[doc]} ∪ docs_in a k else docs_in a k.
Proof.
  unfold docs_in, add_doc, get_pair. cbn. case_decide as H; [subst|].
  - by rewrite lookup_insert.
  - by rewrite lookup_insert_ne.
Qed.
Lemma poss_add_doc field doc a v k : poss_in (add_doc field doc a v) k = poss_in a k.
Proof.
  unfold poss_in, add_doc, get_pair. cbn. destruct (decide (k = (field, v))) as [->|].
  - by rewrite lookup_insert.
  - by rewrite lookup_insert_ne.
Qed.

(** Every recorded key has a document (between documents). *)
Definition no_phantom (a : accum) : Prop := forall k, k ∈ dom (a_batch a) -> docs_in a k ≠ ∅.

Lemma add_docs_spec field doc vs a x k :
  x ∈ docs_in (foldl (add_doc field doc) a vs) k <->
  x ∈ docs_in a k \/ (x = doc /\ k.1 = field /\ k.2 ∈ vs).
Proof.
  revert a. induction vs as [|v vs IH]; intros a; cbn [foldl].
  - split; [by left|]. intros [?|(_ & _ & ?%elem_of_nil)]; done.
  - rewrite IH, docs_add_doc, elem_of_cons. destruct k as [kf kv]. cbn. case_decide as H.
    + injection H as -> ->. rewrite elem_of_union, elem_of_singleton. tauto.
    + split; [tauto|]. intros [?|(-> & -> & [->|?])]; auto. done.
Qed.
Lemma add_docs_poss field doc vs a k : poss_in (foldl (add_doc field doc) a vs) k = poss_in a k.
Proof. revert a. induction vs as [|v vs IH]; intros a; [done|]. cbn. by rewrite IH, poss_add_doc. Qed.
Lemma add_docs_starts field doc vs a : a_starts (foldl (add_doc field doc) a vs) = a_starts a.
Proof. revert a. induction vs as [|v vs IH]; intros a; [done|]. cbn. by rewrite IH. Qed.
Lemma add_docs_dom field doc vs a k :
  k ∈ dom (a_batch (foldl (add_doc field doc) a vs)) <->
  k ∈ dom (a_batch a) \/ (k.1 = field /\ k.2 ∈ vs).
Proof.
  revert a. induction vs as [|v vs IH]; intros a; cbn [foldl].
  - split; [by left|]. intros [?|(_ & ?%elem_of_nil)]; done.
  - rewrite IH. cbn. rewrite dom_insert, elem_of_union, elem_of_singleton, elem_of_cons.
    destruct k as [kf kv]. cbn. split.
    + intros [[[= -> ->]|?]|[? ?]]; tauto.
    + intros [?|[-> [->|?]]]; tauto.
Qed.

Lemma add_positions_spec field vs p a a' :
  add_positions field vs p a = Ok a' ->
  a_starts a' = a_starts a /\
  (forall k, docs_in a' k = docs_in a k) /\
  (forall k, k ∈ dom (a_batch a') <-> k ∈ dom (a_batch a) \/ (k.1 = field /\ Some k.2 ∈ vs)) /\
  (forall k x, x ∈ poss_in a' k <-> x ∈ poss_in a k \/
     (k.1 = field /\ exists i, vs !! i = Some (Some k.2) /\ x = (p + N.of_nat i)%N)).
Proof.
  revert p a. induction vs as [|[v|] vs IH]; intros p a; cbn [add_positions]; [| |done].
  - intros [= <-]. split_and!; [done|done| |].
    + intros k. split; [by left|]. intros [?|[_ ?%elem_of_nil]]; done.
    + intros k x. split; [by left|]. intros [?|(_ & i & H & _)]; [done|]. by rewrite lookup_nil in H.
  - intros H. apply IH in H as (H1 & H2 & H3 & H4). split_and!.
    + by rewrite H1.
    + intros k. by rewrite H2, docs_add_position.
    + intros [kf kv]. rewrite H3. cbn. rewrite dom_insert, elem_of_union, elem_of_singleton, elem_of_cons.
      split.
      * intros [[[= -> ->]|?]|[? ?]]; tauto.
      * intros [?|[-> [[= ->]|?]]]; tauto.
    + intros [kf kv] x. rewrite H4, poss_add_position. cbn. case_decide as Hk.
      * injection Hk as -> ->. rewrite elem_of_union, elem_of_singleton. split.
        -- intros [[->|?]|(_ & i & Hi & ->)]; [right|by left|right].
           ++ split; [done|]. exists 0. split; [done|]. lia.
           ++ split; [done|]. exists (S i). split; [done|]. lia.
        -- intros [?|(_ & [|i] & Hi & ->)]; [tauto| |].
           ++ left. left. cbn in Hi. lia.
           ++ right. split; [done|]. exists i. split; [done|]. lia.
      * split.
        -- intros [?|(-> & i & Hi & ->)]; [by left|right]. split; [done|]. exists (S i). split; [done|]. lia.
        -- intros [?|(-> & [|i] & Hi & ->)]; [by left| |].
           ++ cbn in Hi. injection Hi as ->. done.
           ++ right. split; [done|]. exists i. split; [done|]. lia.
Qed.

Lemma elem_of_omap_id {A} (l : list (option A)) v : v ∈ omap id l <-> Some v ∈ l.
Proof.
  rewrite elem_of_list_omap. split.
  - intros (x & Hx & H). cbn in H. by subst.
  - intros H. by exists (Some v).
Qed.

Lemma index_field_docs positions doc a fv a' :
  index_field positions doc a fv = Ok a' ->
  (forall x k, x ∈ docs_in a' k <->
     x ∈ docs_in a k \/ (x = doc /\ k.1 = fv.1 /\ Some k.2 ∈ values_of fv.2)) /\
  (no_phantom a -> no_phantom a').
Proof.
  destruct fv as [field values]. unfold index_field.
  assert (forall a0, (forall k, docs_in a0 k = docs_in a k) ->
    (no_phantom a -> forall k, k ∈ dom (a_batch a0) ->
        docs_in a k ≠ ∅ \/ (k.1 = field /\ Some k.2 ∈ values_of values)) ->
    let a1 := foldl (add_doc field doc) a0 (omap id (values_of values)) in
    (forall x k, x ∈ docs_in a1 k <->
     x ∈ docs_in a k \/ (x = doc /\ k.1 = field /\ Some k.2 ∈ values_of values)) /\
    (no_phantom a -> no_phantom a1)) as Hfin.
  { intros a0 H0 Hd a1.
    assert (forall x k, x ∈ docs_in a1 k <->
       x ∈ docs_in a k \/ (x = doc /\ k.1 = field /\ Some k.2 ∈ values_of values)) as H1.
    { intros x k. unfold a1. rewrite add_docs_spec, H0, elem_of_omap_id. done. }
    split; [done|]. intros Hnp k Hk. unfold a1 in Hk. apply add_docs_dom in Hk.
    rewrite elem_of_omap_id in Hk.
    assert (docs_in a k ≠ ∅ \/ (k.1 = field /\ Some k.2 ∈ values_of values)) as [Hne|[? ?]].
    { destruct Hk as [Hk|Hk]; [by apply Hd|by right]. }
    - apply set_choose_L in Hne as [x Hx]. intros He.
      assert (x ∈ docs_in a1 k) as Hx' by (apply H1; by left). rewrite He in Hx'. set_solver.
    - intros He. assert (doc ∈ docs_in a1 k) as Hx' by (apply H1; by right). rewrite He in Hx'. set_solver. }
  destruct positions; [destruct values as [vs|vs]|].
  - destruct (get_starts field a) as [docs starts] eqn:Es.
    set (a0 := Accum (a_batch a) (<[field := (docs, starts)]> (a_starts a))).
    destruct (add_positions field vs (bm_last starts) a0) as [a1|e] eqn:Ea; [|done]. cbn.
    apply add_positions_spec in Ea as (H1 & H2 & H3 & H4).
    assert (no_phantom a -> forall k, k ∈ dom (a_batch a1) ->
        docs_in a k ≠ ∅ \/ (k.1 = field /\ Some k.2 ∈ vs)) as Hd.
    { intros Hnp k Hk. apply H3 in Hk as [Hk|?]; [|by right]. left. by apply Hnp. }
    destruct vs as [|v vs].
    + intros [= <-]. split.
      * intros x k. rewrite H2. split; [by left|]. intros [?|(_ & _ & ?%elem_of_nil)]; done.
      * intros Hnp k Hk. rewrite H2. destruct (Hd Hnp k Hk) as [?|[_ ?%elem_of_nil]]; done.
    + intros [= <-]. apply Hfin; [exact H2|exact Hd].
  - intros [= <-]. apply Hfin; [done|]. intros Hnp k Hk. left. by apply Hnp.
  - destruct values; intros [= <-]; (apply Hfin; [done|]; intros Hnp k Hk; left; by apply Hnp).
Qed.

Lemma index_doc_docs positions a d a' :
  index_doc positions a d = Ok a' ->
  exists fs, d.2 = Ok fs /\
  (forall x k, x ∈ docs_in a' k <-> x ∈ docs_in a k \/ (x = d.1 /\ doc_has fs k.1 k.2)) /\
  (no_phantom a -> no_phantom a').
Proof.
  unfold index_doc. destruct d as [doc [fs|e]]; cbn; [|done]. intros H. exists fs. split; [done|].
  revert a H. induction fs as [|fv fs IH]; intros a H; cbn in H.
  - injection H as <-. split; [|done]. intros x k. split; [by left|].
    intros [?|(_ & fv & Hfv & _)]; [done|]. by apply elem_of_nil in Hfv.
  - destruct (index_field positions doc a fv) as [a1|e] eqn:E; [|done]. cbn in H.
    apply index_field_docs in E as [E1 E2]. apply IH in H as [H1 H2]. split; [|auto].
    intros x k. rewrite H1, E1. unfold doc_has. destruct fv as [f v]. cbn. split.
    + intros [[?|(-> & -> & ?)]|(-> & fv & Hfv & Hv)]; [by left|right|right].
      * split; [done|]. exists v. split; [left|done].
      * split; [done|]. exists fv. split; [by right|done].
    + intros [?|(-> & fv & Hfv & Hv)]; [tauto|]. apply elem_of_cons in Hfv as [[= -> ->]|Hfv].
      * left. right. done.
      * right. split; [done|]. eauto.
Qed.

Lemma index_batch_docs positions b a a' :
  rfold (index_doc positions) b a = Ok a' ->
  (forall d, d ∈ b -> exists fs, d.2 = Ok fs) /\
  (forall x k, x ∈ docs_in a' k <->
     x ∈ docs_in a k \/ exists fs, (x, Ok fs) ∈ b /\ doc_has fs k.1 k.2) /\
  (no_phantom a -> no_phantom a').
Proof.
  revert a. induction b as [|d b IH]; intros a; cbn.
  - intros [= <-]. split_and!; [by intros d ?%elem_of_nil| |done]. intros x k. split; [by left|].
    intros [?|(fs & ?%elem_of_nil & _)]; done.
  - intros H. destruct (index_doc positions a d) as [a1|e] eqn:E; [|done]. cbn in H.
    apply index_doc_docs in E as (fs & Hfs & E1 & E2). apply IH in H as (H1 & H2 & H3).
    split_and!; [|intros x k; rewrite H2, E1|auto].
    + intros d' [->|Hd]%elem_of_cons; eauto.
    + destruct d as [doc r]. cbn in Hfs. subst r. cbn. split.
      * intros [[?|[-> ?]]|(fs' & ? & ?)]; [by left|right|right].
        -- exists fs. split; [left|done].
        -- exists fs'. split; [by right|done].
      * intros [?|(fs' & Hin & ?)]; [tauto|]. apply elem_of_cons in Hin as [[= -> ->]|Hin].
        -- left. right. done.
        -- right. eauto.
Qed.

Lemma docs_in_empty k : docs_in empty_accum k = ∅.
Proof. unfold docs_in, get_pair. cbn. by rewrite lookup_empty. Qed.

(** What one segment says about documents. *)
Record segment_docs (b : batch) (s : segment) : Prop := SegmentDocs {
  sd_rows : forall r x, r ∈ s.1 -> x ∈ s_docs r <->
     exists fs, (x, Ok fs) ∈ b /\ doc_has fs (s_field r) (s_value r);
  sd_count : forall r, r ∈ s.1 -> s_docs_count r = N.of_nat (size (s_docs r)) /\ s_docs r ≠ ∅;
  sd_has : forall x fs field v, (x, Ok fs) ∈ b -> doc_has fs field v ->
     exists r, r ∈ s.1 /\ seg_key r = (field, v);
  sd_keys : NoDup (seg_key <$> s.1) }.

Lemma index_docs_docs positions b s :
  index_docs positions b = Ok s -> segment_docs b s /\ forall d, d ∈ b -> exists fs, d.2 = Ok fs.
Proof.
  unfold index_docs. destruct (rfold (index_doc positions) b empty_accum) as [a|e] eqn:E; [|done].
  cbn. apply index_batch_docs in E as (H1 & H2 & H3).
  destruct b as [|[first r0] b0]; [done|]. intros [= <-]. split; [|done].
  assert (no_phantom a) as Hnp.
  { apply H3. intros k Hk. cbn in Hk. by rewrite dom_empty_L in Hk. }
  constructor; cbn.
  - intros r x Hr. apply elem_of_list_fmap in Hr as ([k [ds ps]] & -> & Hin). cbn.
    apply elem_of_map_to_list in Hin. specialize (H2 x k). unfold docs_in at 1, get_pair in H2.
    rewrite Hin in H2. cbn in H2. rewrite H2, docs_in_empty. split; [|by right].
    intros [?%elem_of_empty|?]; done.
  - intros r Hr. apply elem_of_list_fmap in Hr as ([k [ds ps]] & -> & Hin). cbn. split; [done|].
    apply elem_of_map_to_list in Hin. specialize (Hnp k ltac:(by apply elem_of_dom_2 in Hin)).
    unfold docs_in, get_pair in Hnp. by rewrite Hin in Hnp.
  - intros x fs field v Hin Hv.
    assert (x ∈ docs_in a (field, v)) as Hx by (apply H2; right; eauto).
    unfold docs_in, get_pair in Hx. destruct (a_batch a !! (field, v)) as [[ds ps]|] eqn:Ek.
    + eexists. split; [apply elem_of_list_fmap; exists ((field, v), (ds, ps)); split; [done|]|done].
      by apply elem_of_map_to_list.
    + cbn in Hx. by apply elem_of_empty in Hx.
  - rewrite <- list_fmap_compose.
    rewrite (list_fmap_ext _ fst) by (by intros i [[? ?] [? ?]]). apply NoDup_fst_map_to_list.
Qed.

(** ** Batches *)
Lemma make_batches_concat size pending docs :
  concat (make_batches size pending docs) = pending ++ docs.
Proof.
  revert pending. induction docs as [|x docs IH]; intros pending; cbn.
  - destruct pending; [done|]. cbn. by rewrite !app_nil_r.
  - destruct (size <=? length (pending ++ [x])); cbn; rewrite IH; by rewrite <- app_assoc.
Qed.

Lemma make_batches_length size pending docs b :
  length pending < max 1 size -> b ∈ make_batches size pending docs -> 1 <= length b <= max 1 size.
Proof.
  revert pending. induction docs as [|x docs IH]; intros pending Hp; cbn.
  - destruct pending as [|y p]; [by intros ?%elem_of_nil|]. intros ->%elem_of_list_singleton. cbn in *. lia.
  - destruct (Nat.leb_spec size (length (pending ++ [x]))) as [Hle|Hgt];
      rewrite app_length in *; cbn in *.
    + intros [->|Hb]%elem_of_cons; [rewrite app_length; cbn; lia|]. apply (IH []); [cbn; lia|done].
    + intros Hb. apply (IH (pending ++ [x])); [rewrite app_length; cbn; lia|done].
Qed.

(** ** Running the batches *)
Lemma omap_lookup_seq {A} (l : list A) : omap (fun i => l !! i) (seq 0 (length l)) = l.
Proof.
  assert (forall n (pre : list A), n = length pre ->
    omap (fun i => (pre ++ l) !! i) (seq n (length l)) = l) as H; [|by apply (H 0 [])].
  induction l as [|x l IH]; intros n pre ->; [done|]. cbn [length seq].
  rewrite (list_omap_cons _ (length pre)) || cbn. 
  rewrite lookup_app_r, Nat.sub_diag by lia. cbn. f_equal.
  rewrite <- (IH (S (length pre)) (pre ++ [x])) at 2; [|rewrite app_length; cbn; lia].
  by rewrite <- app_assoc.
Qed.

Lemma run_batches_ok positions bs s segs :
  complete s (length bs) -> run_batches positions bs s = Ok segs ->
  exists bs', bs' ≡ₚ bs /\ Forall2 (fun b seg => index_docs positions b = Ok seg) bs' segs.
Proof.
  intros Hc Hr. apply rtraverse_ok_iff in Hr. exists (omap (fun i => bs !! i) (finish_order s)).
  split. { unfold complete in Hc. rewrite Hc. by rewrite omap_lookup_seq. }
  clear Hc. induction Hr as [|i seg l segs Hi _ IH]; [constructor|]. cbn.
  destruct (fault s i); [done|]. destruct (bs !! i); [|done]. by constructor.
Qed.

(** ** Groups *)
Lemma elem_of_enumerate {A} (l : list A) i x : (i, x) ∈ enumerate l <-> l !! N.to_nat i = Some x.
Proof.
  unfold enumerate. split.
  - intros [n Hn]%elem_of_list_lookup. apply lookup_zip_with_Some in Hn as (i' & x' & Heq & Hi & Hx).
    injection Heq as <- <-. rewrite list_lookup_fmap in Hi.
    destruct (seq 0 (length l) !! n) as [m|] eqn:E; [|done]. injection Hi as <-.
    apply lookup_seq in E as [-> _]. by rewrite Nat2N.id.
  - intros Hx. apply elem_of_list_lookup. exists (N.to_nat i). apply lookup_zip_with_Some.
    exists i, x. split; [done|]. split; [|done]. rewrite list_lookup_fmap.
    rewrite (proj2 (lookup_seq 0 (length l) (N.to_nat i) (N.to_nat i))).
    + cbn. by rewrite N2Nat.id.
    + split; [done|]. by eapply lookup_lt_Some.
Qed.

Lemma enumerate_fst {A} (l : list A) : (enumerate l).*1 = N.of_nat <$> seq 0 (length l).
Proof. unfold enumerate. apply fst_zip. by rewrite fmap_length, seq_length. Qed.
Lemma enumerate_snd {A} (l : list A) : (enumerate l).*2 = l.
Proof. unfold enumerate. apply snd_zip. by rewrite fmap_length, seq_length. Qed.
Lemma NoDup_enumerate {A} (l : list A) : NoDup (enumerate l).*1.
Proof. rewrite enumerate_fst. apply NoDup_fmap_2; [apply _|apply NoDup_seq]. Qed.

Lemma elem_of_group_keys rows k : k ∈ group_keys rows <-> exists r, r ∈ rows /\ seg_key r = k.
Proof.
  unfold group_keys. rewrite merge_sort_Permutation, elem_of_elements, elem_of_list_to_set,
    elem_of_list_fmap. split; intros (r & H1 & H2); eauto.
Qed.
Lemma NoDup_group_keys rows : NoDup (group_keys rows).
Proof. unfold group_keys. rewrite merge_sort_Permutation. apply NoDup_elements. Qed.

Lemma elem_of_union_rows (l : list seg_row) x : x ∈ ⋃ (s_docs <$> l) <-> exists r, r ∈ l /\ x ∈ s_docs r.
Proof.
  induction l as [|r l IH]; cbn.
  - split; [by intros ?%elem_of_empty|]. by intros (r & ?%elem_of_nil & _).
  - rewrite elem_of_union, IH. split.
    + intros [?|(r' & ? & ?)]; [exists r|exists r']; split; try done; [left|by right].
    + intros (r' & [->|?]%elem_of_cons & ?); [by left|right; eauto].
Qed.

Lemma group_union positions bs segs k x :
  Forall2 (fun b seg => index_docs positions b = Ok seg) bs segs ->
  x ∈ f_doc_ids (group_row (concat segs.*1) k) <->
  exists fs, (x, Ok fs) ∈ concat bs /\ doc_has fs k.1 k.2.
Proof.
  intros HF. unfold group_row. cbn. rewrite elem_of_union_rows. split.
  - intros (r & Hr & Hx). unfold group_rows in Hr. apply elem_of_list_filter in Hr as [<- Hr].
    apply elem_of_concat in Hr as (l & Hl & Hin). apply elem_of_list_fmap in Hin as (seg & -> & Hseg).
    apply elem_of_list_lookup in Hseg as [i Hi].
    destruct (Forall2_lookup_r _ _ _ _ _ HF Hi) as (b & Hb & Hok).
    apply index_docs_docs in Hok as [Hsd _].
    destruct (proj1 (sd_rows _ _ Hsd r x Hl) Hx) as (fs & Hfs & Hh). exists fs. split; [|done].
    apply elem_of_concat. exists b. split; [done|]. by eapply elem_of_list_lookup_2.
  - intros (fs & Hin & Hh). apply elem_of_concat in Hin as (b & Hb & Hin).
    apply elem_of_list_lookup in Hin as [i Hi].
    destruct (Forall2_lookup_l _ _ _ _ _ HF Hi) as (seg & Hseg & Hok).
    apply index_docs_docs in Hok as [Hsd _]. destruct k as [field v].
    destruct (sd_has _ _ Hsd _ _ _ _ Hb Hh) as (r & Hr & Hk). exists r. split.
    + unfold group_rows. apply elem_of_list_filter. split; [done|]. apply elem_of_concat.
      exists seg.1. split; [done|]. apply elem_of_list_fmap. exists seg. split; [done|].
      by eapply elem_of_list_lookup_2.
    + unfold seg_key in Hk. injection Hk as <- <-. apply (sd_rows _ _ Hsd); eauto.
Qed.

Lemma filter_key (l : list seg_row) k : NoDup (seg_key <$> l) ->
  filter (fun r => seg_key r = k) l = [] \/
  exists r, filter (fun r => seg_key r = k) l = [r] /\ r ∈ l.
Proof.
  induction l as [|r l IH]; intros Hk; [by left|].
  cbn in Hk. apply NoDup_cons in Hk as [Hr Hk]. rewrite filter_cons. case_decide as E.
  - right. exists r. split; [|left]. f_equal.
    destruct (filter (fun r => seg_key r = k) l) as [|r' l'] eqn:Ef; [done|].
    assert (r' ∈ filter (fun r => seg_key r = k) l) as Hin by (rewrite Ef; left).
    apply elem_of_list_filter in Hin as [Hk' Hin]. exfalso. apply Hr.
    apply elem_of_list_fmap. exists r'. split; [congruence|done].
  - destruct (IH Hk) as [H|(r' & H & ?)]; [by left|right]. exists r'. split; [done|by right].
Qed.

Lemma group_count positions bs segs k :
  Forall2 (fun b seg => index_docs positions b = Ok seg) bs segs -> NoDup (concat bs).*1 ->
  f_docs_count (group_row (concat segs.*1) k) = N.of_nat (size (f_doc_ids (group_row (concat segs.*1) k))).
Proof.
  intros HF Hnd. induction HF as [|b seg bs segs Hb HF IH]; [done|].
  cbn in Hnd. rewrite fmap_app in Hnd. apply NoDup_app in Hnd as (_ & Hdis & Hnd).
  specialize (IH Hnd). cbn [fmap list_fmap concat]. unfold group_row, group_rows in *. cbn in *.
  rewrite filter_app.
  pose proof (index_docs_docs _ _ _ Hb) as [Hsd _].
  destruct (filter_key seg.1 k (sd_keys _ _ Hsd)) as [->|(r & -> & Hr)].
  - done.
  - cbn. rewrite IH. destruct (sd_count _ _ Hsd r Hr) as [-> _].
    rewrite size_union; [lia|]. intros x Hx Hx'.
    destruct (proj1 (sd_rows _ _ Hsd r x Hr) Hx) as (fs & Hfs & _).
    assert (x ∈ f_doc_ids (group_row (concat segs.*1) k)) as Hx2 by exact Hx'.
    destruct (proj1 (group_union positions bs segs k x HF) Hx2) as (fs' & Hfs' & _).
    apply (Hdis x).
    + apply elem_of_list_fmap. by exists (x, Ok fs).
    + apply elem_of_list_fmap. by exists (x, Ok fs').
Qed.

(** ** The merge *)
Definition row_key (r : feature_row) : string * value := (f_field r, f_value r).

Lemma find_feature_Some ii k f :
  find_feature ii k = Some f -> exists row, ii !! f = Some row /\ row_key row = k.
Proof.
  unfold find_feature. intros H.
  assert (f ∈ bm_list (dom (filter (fun kv : N * feature_row => (f_field kv.2, f_value kv.2) = k) ii))) as Hin.
  { destruct (bm_list _); [done|]. injection H as <-. left. }
  apply elem_of_bm_list, elem_of_dom in Hin as [row Hrow].
  apply map_filter_lookup_Some in Hrow as [H1 H2]. eauto.
Qed.
Lemma find_feature_None ii k : find_feature ii k = None <-> forall f row, ii !! f = Some row -> row_key row <> k.
Proof.
  unfold find_feature. split.
  - intros H f row Hf Hk.
    assert (f ∈ bm_list (dom (filter (fun kv : N * feature_row => (f_field kv.2, f_value kv.2) = k) ii))) as Hin.
    { apply elem_of_bm_list, elem_of_dom. exists row. by apply map_filter_lookup_Some. }
    destruct (bm_list _); [by apply elem_of_nil in Hin|done].
  - intros H. destruct (bm_list _) as [|f l] eqn:E; [done|]. exfalso.
    assert (f ∈ bm_list (dom (filter (fun kv : N * feature_row => (f_field kv.2, f_value kv.2) = k) ii))) as Hin.
    { rewrite E. left. }
    apply elem_of_bm_list, elem_of_dom in Hin as [row Hrow].
    apply map_filter_lookup_Some in Hrow as [H1 H2]. by eapply H.
Qed.
Lemma find_feature_iff ii k f : features_unique ii ->
  find_feature ii k = Some f <-> exists row, ii !! f = Some row /\ row_key row = k.
Proof.
  intros Hu. split; [apply find_feature_Some|]. intros (row & Hf & Hk).
  destruct (find_feature ii k) as [g|] eqn:E.
  - apply find_feature_Some in E as (row' & Hg & Hk'). f_equal. subst k.
    unfold row_key in Hk'. injection Hk' as H1 H2. by eapply Hu.
  - rewrite find_feature_None in E. exfalso. by eapply E.
Qed.

Lemma next_rowid_fresh ii : ii !! next_rowid ii = None.
Proof.
  apply not_elem_of_dom. intros Hin. unfold next_rowid in Hin.
  destruct (last (bm_list (dom ii))) as [m|] eqn:E.
  - assert (forall x, x ∈ dom ii -> (x <= m)%N) as Hle.
    { intros x Hx. apply last_Some in E as [l' E]. pose proof (sorted_bm_list (dom ii)) as Hs.
      apply elem_of_bm_list in Hx. rewrite E in Hx, Hs.
      apply elem_of_app in Hx as [Hx|Hx]; [|apply elem_of_list_singleton in Hx; lia].
      clear E. induction l' as [|a l' IH]; [by apply elem_of_nil in Hx|].
      cbn in Hs. inversion Hs as [|? ? Hs' Hf]; subst.
      apply elem_of_cons in Hx as [->|Hx]; [|auto].
      rewrite Forall_forall in Hf. specialize (Hf m ltac:(set_solver)). lia. }
    specialize (Hle _ Hin). lia.
  - apply last_None in E. apply elem_of_bm_list in Hin. rewrite E in Hin. by apply elem_of_nil in Hin.
Qed.

(** The result of merging the groups [ks] into [old]. *)
Record merged (rows : list seg_row) (old : gmap N feature_row) (ks : list (string * value))
    (ii : gmap N feature_row) : Prop := Merged {
  mg_unique : features_unique ii;
  mg_old : forall f row, old !! f = Some row -> exists row', ii !! f = Some row' /\ row_key row' = row_key row;
  mg_row : forall f row, ii !! f = Some row ->
     (row_key row ∈ ks /\ row = group_row rows (row_key row)) \/ (row_key row ∉ ks /\ old !! f = Some row);
  mg_has : forall k, k ∈ ks -> exists f, find_feature ii k = Some f }.

Lemma merge_features_spec rows old : features_unique old ->
  merged rows old (group_keys rows) (merge_features rows old).
Proof.
  intros Hu. unfold merge_features.
  assert (forall ks2 ks1 ii, NoDup (ks1 ++ ks2) -> merged rows old ks1 ii ->
    merged rows old (ks1 ++ ks2) (foldl (fun ii k =>
           let id := match find_feature old k with Some f => f | None => next_rowid ii end in
           <[id := group_row rows k]> ii) ii ks2)) as Hgen.
  { induction ks2 as [|k ks2 IH]; intros ks1 ii Hnd Hm; [by rewrite app_nil_r|].
    cbn [foldl]. rewrite cons_middle, app_assoc. apply IH; [by rewrite <- app_assoc|].
    rewrite cons_middle, app_assoc in Hnd. apply NoDup_app in Hnd as (Hnd & _ & _).
    apply NoDup_app in Hnd as (_ & Hk & _).
    assert (k ∉ ks1) as Hkn. { intros ?. eapply Hk; [done|]. by left. }
    clear IH Hk. destruct Hm as [M1 M2 M3 M4].
    set (id := match find_feature old k with Some f => f | None => next_rowid ii end).
    assert (row_key (group_row rows k) = k) as Hgk by (by destruct k).
    (* any row of ii with key k sits at id *)
    assert (forall f row, ii !! f = Some row -> row_key row = k -> f = id) as Hat.
    { intros f row Hf Hrk. destruct (M3 f row Hf) as [[? _]|[_ Ho]]; [congruence|].
      unfold id. destruct (find_feature old k) as [g|] eqn:E.
      - apply (find_feature_iff old k g Hu) in E as (rg & Hg & Hgk').
        rewrite <- Hrk in Hgk'. unfold row_key in Hgk'. injection Hgk' as Hg1 Hg2. symmetry. by eapply Hu.
      - rewrite find_feature_None in E. exfalso. by eapply E. }
    assert (forall row, ii !! id = Some row -> row_key row = k) as Hid.
    { intros row Hrow. unfold id in Hrow. destruct (find_feature old k) as [g|] eqn:E.
      - apply (find_feature_iff old k g Hu) in E as (rg & Hg & Hgk').
        destruct (M2 g rg Hg) as (row' & Hr' & Hk'). rewrite Hrow in Hr'. injection Hr' as <-. congruence.
      - by rewrite next_rowid_fresh in Hrow. }
    cbv zeta. split.
    - intros f g rf rg. destruct (decide (f = id)) as [->|Hf], (decide (g = id)) as [->|Hg];
        rewrite ?lookup_insert, ?lookup_insert_ne by done; [done| | |].
      + intros [= <-] Hg' E1 E2. exfalso. apply Hg. apply (Hat g rg Hg').
        unfold row_key. rewrite <- E1, <- E2. exact Hgk.
      + intros Hf' [= <-] E1 E2. exfalso. apply Hf. apply (Hat f rf Hf').
        unfold row_key. rewrite E1, E2. exact Hgk.
      + apply M1.
    - intros f row Ho. destruct (M2 f row Ho) as (row' & Hr' & Hk').
      destruct (decide (f = id)) as [->|Hf].
      + exists (group_row rows k). rewrite lookup_insert. split; [done|].
        rewrite Hgk, <- Hk'. symmetry. by apply Hid.
      + exists row'. by rewrite lookup_insert_ne.
    - intros f row. destruct (decide (f = id)) as [->|Hf].
      + rewrite lookup_insert. intros [= <-]. left. rewrite Hgk. split; [|done].
        apply elem_of_app. right. by left.
      + rewrite lookup_insert_ne by done. intros Hr.
        destruct (M3 f row Hr) as [[H1 H2]|[H1 H2]]; [left|right].
        * split; [|done]. apply elem_of_app. by left.
        * split; [|done]. rewrite elem_of_app, elem_of_list_singleton. intros [?|He]; [done|].
          apply Hf. by apply (Hat f row).
    - intros k' Hk'. apply elem_of_app in Hk' as [Hk'|Hk'].
      + destruct (M4 k' Hk') as [f Hf]. apply find_feature_Some in Hf as (row & Hf & Hrk).
        destruct (find_feature (<[id:=group_row rows k]> ii) k') as [g|] eqn:E; [eauto|].
        rewrite find_feature_None in E. exfalso. apply (E f row); [|done].
        rewrite lookup_insert_ne; [done|]. intros ->. apply Hid in Hf. congruence.
      + apply elem_of_list_singleton in Hk' as ->.
        destruct (find_feature (<[id:=group_row rows k]> ii) k) as [g|] eqn:E; [eauto|].
        rewrite find_feature_None in E. exfalso. apply (E id (group_row rows k)); [|done].
        by rewrite lookup_insert. }
  apply (Hgen (group_keys rows) [] old); [apply NoDup_group_keys|]. split.
  - done.
  - eauto.
  - intros f row Hf. right. split; [|done]. by intros ?%elem_of_nil.
  - by intros k ?%elem_of_nil.
Qed.
