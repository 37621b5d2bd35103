(** LookupProofs.v: reading an index. *)
From Verif Require Export PositionProofs.

(** ** The order of values *)
Lemma string_le_total a b : string_le a b = true \/ string_le b a = true.
Proof.
  revert b. induction a as [|x a IH]; intros [|y b]; cbn; auto.
  destruct (N.ltb_spec (Ascii.N_of_ascii x) (Ascii.N_of_ascii y)); [by left|].
  destruct (N.ltb_spec (Ascii.N_of_ascii y) (Ascii.N_of_ascii x)); [by right|]. apply IH.
Qed.
Lemma string_le_trans a b c : string_le a b = true -> string_le b c = true -> string_le a c = true.
Proof.
  revert b c. induction a as [|x a IH]; intros [|y b] [|z c]; cbn; try done.
  repeat match goal with |- context [(?a <? ?b)%N] => destruct (N.ltb_spec a b) end; try done; try lia. apply IH.
Qed.
Lemma string_le_antisym a b : string_le a b = true -> string_le b a = true -> a = b.
Proof.
  revert b. induction a as [|x a IH]; intros [|y b]; cbn; try done.
  repeat match goal with |- context [(?a <? ?b)%N] => destruct (N.ltb_spec a b) end; try done; try lia.
  intros H1 H2. f_equal; [|by apply IH].
  rewrite <- (Ascii.ascii_N_embedding x), <- (Ascii.ascii_N_embedding y). f_equal. lia.
Qed.
#[global] Instance value_le_total : Total value_le.
Proof.
  intros [x|x] [y|y]; unfold value_le; cbn; auto using string_le_total.
  rewrite !Z.leb_le. lia.
Qed.
#[global] Instance value_le_trans : Transitive value_le.
Proof.
  intros [x|x] [y|y] [z|z]; unfold value_le; cbn; try done.
  - rewrite !Z.leb_le. lia.
  - apply string_le_trans.
Qed.
Lemma value_le_antisym a b : value_le a b -> value_le b a -> a = b.
Proof.
  destruct a as [x|x], b as [y|y]; unfold value_le; cbn; try done.
  - rewrite !Z.leb_le. intros. f_equal. lia.
  - intros. f_equal. by apply string_le_antisym.
Qed.
Lemma value_le_refl a : value_le a a.
Proof. by destruct (value_le_total a a). Qed.

(** ** Features *)
Lemma getitem_exact c old d field v : index_exact c old (inverted_index d) ->
  exists docs, getitem d (KFeature (field, v)) = Some docs /\
    forall x, x ∈ docs <-> doc_matches c field v x.
Proof.
  intros [E1 E2 E3 E4 E5 E6]. unfold getitem. eexists. split; [done|]. intros x.
  destruct (find_feature (inverted_index d) (field, v)) as [f|] eqn:E.
  - apply find_feature_Some in E as (row & H1 & H2). rewrite H1. rewrite (E3 f row x H1).
    unfold row_key in H2. by injection H2 as -> ->.
  - split; [by intros ?%elem_of_empty|]. intros Hm. destruct (E5 _ _ _ Hm). congruence.
Qed.

Lemma lookup_feature_ok d f k : lookup_feature d f = Ok k <->
  exists row, inverted_index d !! f = Some row /\ row_key row = k.
Proof.
  unfold lookup_feature. destruct (inverted_index d !! f) as [row|].
  - split; [intros [= <-]; eauto|]. intros (row' & [= <-] & <-). done.
  - split; [done|]. by intros (? & ? & _).
Qed.
Lemma lookup_feature_id_ok d f k : features_unique (inverted_index d) ->
  lookup_feature_id d k = Ok f <-> lookup_feature d f = Ok k.
Proof.
  intros Hu. rewrite lookup_feature_ok. rewrite <- (find_feature_iff _ _ _ Hu). unfold lookup_feature_id.
  destruct (find_feature _ k); split; congruence.
Qed.

(** ** Document keys *)
Lemma doc_key_enumerate {A} (l : list A) i :
  (list_to_map (enumerate l) : gmap N A) !! i = l !! N.to_nat i.
Proof.
  apply option_eq. intros x. rewrite <- elem_of_list_to_map by apply NoDup_enumerate. apply elem_of_enumerate.
Qed.

Lemma convert_ok (d : db) q :
  (forall i j k, doc_key d !! i = Some k -> doc_key d !! j = Some k -> i = j) ->
  (forall doc, doc ∈ q -> is_Some (doc_key d !! doc)) ->
  exists m, convert_query_to_keys d q = Ok m /\
    forall k doc, m !! k = Some doc <-> doc ∈ q /\ doc_key d !! doc = Some k.
Proof.
  intros Hinj Hs. unfold convert_query_to_keys.
  assert (forall l (m0 : gmap value N), (forall doc, doc ∈ l -> is_Some (doc_key d !! doc)) -> 
    exists m, rfold (fun m doc => match doc_key d !! doc with Some k => Ok (<[k := doc]> m) | None => Err IndexError end) l m0 = Ok m /\
    forall k doc, m !! k = Some doc <-> (doc ∈ l /\ doc_key d !! doc = Some k) \/
      ((forall x, x ∈ l -> doc_key d !! x <> Some k) /\ m0 !! k = Some doc)) as Hgen.
  { induction l as [|x l IH]; intros m0 Hl; cbn.
    - exists m0. split; [done|]. intros k doc. split.
      + intros H. right. split; [by intros ? ?%elem_of_nil|done].
      + by intros [[?%elem_of_nil _]|[_ ?]].
    - destruct (Hl x) as [kx Hkx]; [left|]. rewrite Hkx. cbn.
      destruct (IH (<[kx := x]> m0)) as (m & Hm & Hrest); [intros; apply Hl; by right|].
      exists m. split; [done|]. intros k doc. rewrite Hrest. split.
      + intros [[? ?]|[H1 H2]]; [left; split; [by right|done]|].
        destruct (decide (k = kx)) as [->|Hne].
        * rewrite lookup_insert in H2. injection H2 as <-. left. split; [left|done].
        * rewrite lookup_insert_ne in H2 by done. right. split; [|done].
          intros y [->|Hy]%elem_of_cons; [congruence|by apply H1].
      + intros [[[->|Hin]%elem_of_cons Hk]|[H1 H2]].
        * rewrite Hkx in Hk. injection Hk as ->. rewrite lookup_insert.
          destruct (decide (x ∈ l)); [by left|]. right. split; [|done].
          intros y Hy Hk. assert (y = x) as -> by (by eapply Hinj). done.
        * by left.
        * right. split; [intros; apply H1; by right|]. rewrite lookup_insert_ne; [done|]. intros ->.
          apply (H1 x); [left|done]. }
  destruct (Hgen (bm_list q) ∅) as (m & Hm & Hiff).
  { intros doc Hd. apply Hs. by apply elem_of_bm_list. }
  exists m. split; [done|]. intros k doc. rewrite Hiff, elem_of_bm_list, lookup_empty. split; [|by left].
  by intros [?|[_ ?]].
Qed.
Lemma convert_err (d : db) q doc : doc ∈ q -> doc_key d !! doc = None ->
  convert_query_to_keys d q = Err IndexError.
Proof.
  intros Hin Hn. unfold convert_query_to_keys. apply elem_of_bm_list in Hin. revert Hin. generalize (∅ : gmap value N).
  induction (bm_list q) as [|x l IH]; intros m Hin; [by apply elem_of_nil in Hin|]. cbn.
  destruct (doc_key d !! x) as [k|] eqn:E; [|done]. cbn. apply IH.
  apply elem_of_cons in Hin as [->|?]; [congruence|done].
Qed.

Lemma docs_query_ok (d : db) (c : corpus) q :
  (forall i j k, doc_key d !! i = Some k -> doc_key d !! j = Some k -> i = j) ->
  (forall doc, doc ∈ q -> is_Some (doc_key d !! doc)) ->
  exists out, docs_query d c q = Ok out /\
    Sorted value_le out.*1.*2 /\ NoDup out.*1.*1 /\
    (forall doc k r, (doc, k, r) ∈ out <-> doc ∈ q /\ doc_key d !! doc = Some k /\ r = corpus_lookup c k).
Proof.
  intros Hinj Hs. destruct (convert_ok d q Hinj Hs) as (m & Hm & Hiff).
  unfold docs_query. rewrite Hm. cbn.
  set (ks := merge_sort value_le (map_to_list m).*1).
  assert (forall k, k ∈ ks <-> is_Some (m !! k)) as Hks.
  { intros k. unfold ks. rewrite merge_sort_Permutation. rewrite elem_of_list_fmap. split.
    - intros ([k' x] & -> & H%elem_of_map_to_list). by exists x.
    - intros [x Hx]. exists (k, x). split; [done|]. by apply elem_of_map_to_list. }
  eexists. split; [done|].
  assert ((omap (fun k => (fun doc => (doc, k, corpus_lookup c k)) <$> m !! k) ks).*1.*2 = ks) as Eks.
  { assert (forall k, k ∈ ks -> is_Some (m !! k)) as H by (intros; by apply Hks). clear Hks.
    induction ks as [|k ks IH]; [done|]. cbn. destruct (H k) as [x Hx]; [left|]. rewrite Hx. cbn.
    f_equal. apply IH. intros; apply H; by right. }
  split_and!.
  - rewrite Eks. apply Sorted_merge_sort. apply _.
  - assert (NoDup ks) as Hnd. { unfold ks. rewrite merge_sort_Permutation. apply NoDup_fst_map_to_list. }
    clear Eks Hks. induction ks as [|k ks IH]; [constructor|]. apply NoDup_cons in Hnd as [Hk Hnd]. cbn.
    destruct (m !! k) as [x|] eqn:E; cbn; [|by apply IH]. constructor; [|by apply IH].
    intros Hin. apply elem_of_list_fmap in Hin as ([x' k'] & Hx' & Hin). cbn in Hx'. subst x'.
    apply elem_of_list_fmap in Hin as ([[x2 k2] r] & He & Hin). cbn in He. injection He as <- <-.
    apply elem_of_list_omap in Hin as (k3 & Hk3 & Ho).
    destruct (m !! k3) as [x3|] eqn:E3; [|done]. cbn in Ho. injection Ho as -> <- _.
    apply Hiff in E as [_ E]. apply Hiff in E3 as [_ E3]. rewrite E in E3. injection E3 as ->. done.
  - intros doc k r. rewrite elem_of_list_omap. split.
    + intros (k' & Hk' & Ho). destruct (m !! k') as [x|] eqn:E; [|done]. cbn in Ho. injection Ho as -> -> <-.
      apply Hiff in E as [? ?]. done.
    + intros (Hq & Hk & ->). exists k. assert (m !! k = Some doc) as E by (by apply Hiff).
      split; [apply Hks; by exists doc|]. by rewrite E.
Qed.

(** ** The field summary *)
Lemma value_min_spec l : l ≠ [] -> value_min l ∈ l /\ forall v, v ∈ l -> value_le (value_min l) v.
Proof.
  intros Hl. unfold value_min.
  assert (forall x0 l', (foldr (fun a b => if value_leb a b then a else b) x0 l' = x0 \/
      foldr (fun a b => if value_leb a b then a else b) x0 l' ∈ l') /\
      value_le (foldr (fun a b => if value_leb a b then a else b) x0 l') x0 /\
      forall v, v ∈ l' -> value_le (foldr (fun a b => if value_leb a b then a else b) x0 l') v) as Hg.
  { intros x0 l'. induction l' as [|a l' (IH1 & IH2 & IH3)]; cbn.
    - split_and!; [by left|apply value_le_refl|by intros ? ?%elem_of_nil].
    - destruct (value_leb a _) eqn:E.
      + split_and!.
        * right. left.
        * by etrans; [exact E|].
        * intros v [->|Hv]%elem_of_cons; [apply value_le_refl|]. etrans; [exact E|]. by apply IH3.
      + assert (value_le (foldr (fun a b => if value_leb a b then a else b) x0 l') a) as Ha.
        { destruct (value_le_total a (foldr (fun a b => if value_leb a b then a else b) x0 l')) as [H|H]; [|done].
          unfold value_le in H. congruence. }
        split_and!.
        * destruct IH1 as [->|?]; [by left|right; by right].
        * done.
        * intros v [->|Hv]%elem_of_cons; [done|]. by apply IH3. }
  destruct l as [|x l]; [done|]. destruct (Hg x (x :: l)) as (H1 & H2 & H3). cbn [List.hd].
  split; [|done]. destruct H1 as [->|?]; [left|done].
Qed.
Lemma value_max_spec l : l ≠ [] -> value_max l ∈ l /\ forall v, v ∈ l -> value_le v (value_max l).
Proof.
  intros Hl. unfold value_max.
  assert (forall x0 l', (foldr (fun a b => if value_leb a b then b else a) x0 l' = x0 \/
      foldr (fun a b => if value_leb a b then b else a) x0 l' ∈ l') /\
      value_le x0 (foldr (fun a b => if value_leb a b then b else a) x0 l') /\
      forall v, v ∈ l' -> value_le v (foldr (fun a b => if value_leb a b then b else a) x0 l')) as Hg.
  { intros x0 l'. induction l' as [|a l' (IH1 & IH2 & IH3)]; cbn.
    - split_and!; [by left|apply value_le_refl|by intros ? ?%elem_of_nil].
    - destruct (value_leb a _) eqn:E.
      + split_and!.
        * destruct IH1 as [->|?]; [by left|right; by right].
        * done.
        * intros v [->|Hv]%elem_of_cons; [done|]. by apply IH3.
      + assert (value_le (foldr (fun a b => if value_leb a b then b else a) x0 l') a) as Ha.
        { destruct (value_le_total a (foldr (fun a b => if value_leb a b then b else a) x0 l')) as [H|H]; [|done].
          unfold value_le in H. congruence. }
        split_and!.
        * right. left.
        * by etrans.
        * intros v [->|Hv]%elem_of_cons; [apply value_le_refl|]. etrans; [|exact Ha]. by apply IH3. }
  destruct l as [|x l]; [done|]. destruct (Hg x (x :: l)) as (H1 & H2 & H3). cbn [List.hd].
  split; [|done]. destruct H1 as [->|?]; [left|done].
Qed.

Lemma elem_of_field_rows d F f row :
  (f, row) ∈ field_rows d F <-> inverted_index d !! f = Some row /\ f_field row = F.
Proof.
  unfold field_rows. rewrite elem_of_list_filter, elem_of_map_to_list. cbn. tauto.
Qed.
Lemma field_values_nodup d F : features_unique (inverted_index d) ->
  NoDup ((fun kv : N * feature_row => f_value kv.2) <$> field_rows d F).
Proof.
  intros Hu. assert (NoDup (field_rows d F)) as Hnd by (apply NoDup_filter, NoDup_map_to_list).
  assert (forall f row, (f, row) ∈ field_rows d F -> inverted_index d !! f = Some row /\ f_field row = F) as H.
  { intros f row. apply elem_of_field_rows. }
  induction (field_rows d F) as [|[f row] l IH]; [constructor|]. apply NoDup_cons in Hnd as [Hn Hnd]. cbn.
  constructor; [|apply IH; [done|]; intros; apply H; by right].
  intros Hin. apply elem_of_list_fmap in Hin as ([g rg] & Hv & Hin). cbn in Hv.
  destruct (H f row) as [H1 H2]; [left|]. destruct (H g rg) as [H3 H4]; [by right|].
  assert (f = g) as <- by (eapply Hu; [done|done|congruence|done]). congruence.
Qed.

Lemma elem_of_fields_of d F : F ∈ fields_of d <-> exists f row, inverted_index d !! f = Some row /\ f_field row = F.
Proof.
  unfold fields_of. rewrite elem_of_list_to_set, elem_of_list_fmap. split.
  - intros ([f row] & -> & H%elem_of_map_to_list). eauto.
  - intros (f & row & H & <-). exists (f, row). split; [done|]. by apply elem_of_map_to_list.
Qed.

Lemma summary_lookup d F : field_summary (write_field_summary d) !! F =
  if decide (F ∈ fields_of d) then Some (summary_of_field d F) else None.
Proof.
  cbn [field_summary write_field_summary set_field_summary].
  assert (NoDup ((fun f => (f, summary_of_field d f)) <$> elements (fields_of d)).*1) as Hnd.
  { rewrite <- list_fmap_compose. rewrite (list_fmap_ext _ id) by done. rewrite list_fmap_id. apply NoDup_elements. }
  case_decide as H.
  - apply elem_of_list_to_map; [done|]. apply elem_of_list_fmap. exists F. split; [done|]. by apply elem_of_elements.
  - apply not_elem_of_list_to_map. rewrite <- list_fmap_compose. rewrite (list_fmap_ext _ id) by done.
    rewrite list_fmap_id. by rewrite elem_of_elements.
Qed.

(** ** Independence of the batch size *)
Lemma merge_batch_size bsz bsz' pos pos' c bs bs' segs segs' old :
  bs ≡ₚ batches bsz c -> Forall2 (fun b seg => index_docs pos b = Ok seg) bs segs ->
  bs' ≡ₚ batches bsz' c -> Forall2 (fun b seg => index_docs pos' b = Ok seg) bs' segs' ->
  merge_features (concat segs.*1) old = merge_features (concat segs'.*1) old.
Proof.
  intros Hp HF Hp' HF'.
  assert (forall bsz pos bs segs, bs ≡ₚ batches bsz c -> Forall2 (fun b seg => index_docs pos b = Ok seg) bs segs ->
    (forall x k, x ∈ f_doc_ids (group_row (concat segs.*1) k) <-> doc_matches c k.1 k.2 x) /\
    (forall k, k ∈ group_keys (concat segs.*1) <-> exists x, doc_matches c k.1 k.2 x)) as Hg.
  { clear. intros bsz pos bs segs Hp HF.
    assert (forall x k, x ∈ f_doc_ids (group_row (concat segs.*1) k) <-> doc_matches c k.1 k.2 x) as Hg.
    { intros x k. rewrite (group_union pos bs segs k x HF). unfold doc_matches. split.
      - intros (fs & Hin & Hh). apply (batch_docs bsz c x (Ok fs) bs Hp) in Hin as [key Hin]. eauto.
      - intros (key & fs & Hin & Hh). exists fs. split; [|done]. apply (batch_docs bsz c x (Ok fs) bs Hp). eauto. }
    split; [done|]. intros k. rewrite elem_of_group_keys. split.
    - intros (r & Hr & <-).
      assert (s_docs r ≠ ∅) as Hne.
      { apply elem_of_concat in Hr as (l & Hl & Hin). apply elem_of_list_fmap in Hin as (seg & -> & Hseg).
        apply elem_of_list_lookup in Hseg as [i Hi].
        destruct (Forall2_lookup_r _ _ _ _ _ HF Hi) as (b & Hb & Hok).
        apply index_docs_docs in Hok as [Hsd _]. by apply (sd_count _ _ Hsd r Hl). }
      apply set_choose_L in Hne as [x Hx]. exists x. apply (Hg x (seg_key r)).
      apply elem_of_union_rows. exists r. split; [|done]. by apply elem_of_list_filter.
    - intros (x & Hx). apply Hg in Hx. apply elem_of_union_rows in Hx as (r & Hr & _).
      apply elem_of_list_filter in Hr as [? ?]. eauto. }
  destruct (Hg bsz pos bs segs Hp HF) as [G1 G2]. destruct (Hg bsz' pos' bs' segs' Hp' HF') as [G1' G2'].
  apply merge_features_ext.
  - unfold group_keys. do 2 f_equal. apply set_eq. intros k.
    specialize (G2 k). specialize (G2' k). unfold group_keys in G2, G2'.
    rewrite merge_sort_Permutation, elem_of_elements in G2, G2'. by rewrite G2, G2'.
  - intros k _. 
    assert (f_doc_ids (group_row (concat segs.*1) k) = f_doc_ids (group_row (concat segs'.*1) k)) as Hd.
    { apply set_eq. intros x. by rewrite G1, G1'. }
    pose proof (group_count pos bs segs k HF (batch_ids_nodup _ _ _ Hp)) as C.
    pose proof (group_count pos' bs' segs' k HF' (batch_ids_nodup _ _ _ Hp')) as C'.
    rewrite Hd, <- C' in C. unfold group_row in *. cbn in *. by rewrite C, Hd.
Qed.

(** ** The dispatch loop *)
Lemma collect_length pick step l : l ≠ [] -> length (collect pick step l) < length l.
Proof.
  intros Hl. unfold collect. destruct (Nat.eqb_spec (length (filter (fun b => pick step b = false) l)) (length l)) as [E|E].
  - destruct l; [done|]. cbn. lia.
  - pose proof (filter_length (fun b => pick step b = false) l). lia.
Qed.
Lemma collect_sub pick step l x : x ∈ collect pick step l -> x ∈ l.
Proof.
  unfold collect. destruct (_ =? _).
  - destruct l; [done|]. cbn. by right.
  - by intros [_ ?]%elem_of_list_filter.
Qed.
Lemma dispatch_spec workers pick full final :
  let st := dispatch_all workers pick full final in
  submitted st = seq 0 (full + if final then 1 else 0) /\ peak st <= workers + 1.
Proof.
  unfold dispatch_all.
  assert (forall n, let st := foldl (submit workers pick false) (Dispatch [] [] 0) (seq 0 n) in
    submitted st = seq 0 n /\ peak st <= workers + 1 /\ length (in_flight st) <= workers) as H.
  { induction n as [|n IH]; [cbn; split_and!; [done|lia|lia]|]. rewrite seq_S, foldl_app. cbn [foldl]. cbv zeta in *.
    destruct (foldl _ _ (seq 0 n)) as [sb fl pk]. cbn in IH. destruct IH as (-> & Hpk & Hfl).
    unfold submit. cbn [negb andb submitted in_flight peak].
    destruct (Nat.leb_spec (workers + 1) (length (fl ++ [0 + n]))) as [Hge|Hlt]; cbn [submitted in_flight peak];
      rewrite app_length in *; cbn [length] in *.
    - split_and!; [done|lia|]. pose proof (collect_length pick (0 + n) (fl ++ [0 + n]) ltac:(by destruct fl)) as Hc.
      rewrite app_length in Hc. cbn [length] in Hc. lia.
    - split_and!; [done|lia|lia]. }
  specialize (H full). cbv zeta in *. destruct (foldl _ _ (seq 0 full)) as [sb fl pk]. cbn in H.
  destruct H as (-> & Hpk & Hfl). destruct final; cbn.
  - rewrite app_length. cbn. rewrite seq_app. split; [done|lia].
  - rewrite Nat.add_0_r. split; [done|lia].
Qed.

(** A checker for concrete corpora. *)
Definition wf_check (pos : bool) (c : corpus) : bool :=
  bool_decide (c ≠ []) && bool_decide (NoDup (fst <$> c)) &&
  forallb (fun kr => match kr.2 with
    | Ok fs => negb pos || forallb (fun fv => match fv.2 with Seq vs => bool_decide (None ∉ vs) | Coll _ => true end) fs
    | Err _ => false end) c.
Lemma wf_check_ok pos c : wf_check pos c = true -> well_formed pos c.
Proof.
  unfold wf_check. rewrite !andb_true_iff, !bool_decide_eq_true, forallb_forall. intros [[H1 H2] H3].
  split_and!; [done|done|]. intros k r Hin. specialize (H3 (k, r) (proj1 (elem_of_list_In _ _) Hin)).
  cbn in H3. destruct r as [fs|e]; [|done]. exists fs. split; [done|]. intros -> field vs Hv. cbn in H3.
  rewrite forallb_forall in H3. specialize (H3 _ (proj1 (elem_of_list_In _ _) Hv)). cbn in H3.
  by apply bool_decide_eq_true in H3.
Qed.
