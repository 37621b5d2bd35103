(** PropertiesReports.v: C80-C83: concordances, sampled tables of passages, the overview of
    the model, and the exported sample. Vocabulary: Reports.v, SpecReports.v, SpecQuery.v. *)
From Verif Require Import SpecReports ReportProofs HistoryProofs QueryProofs SampleProofs LookupProofs WebProofs SampleDb
  PropertiesIndexing PropertiesCluster PropertiesRefine PropertiesQuery PropertiesPassages PropertiesWeb PropertiesPages PropertiesMigrate.

(** ** C80 *)
(** One entry per sampled document, and in it, for every requested value that occurs in it,
    one line per occurrence: the texts around it joined by [sep]. *)
Theorem C80_concordances : forall sep d c q refs w sample g,
  keys_distinct d -> available d c q -> (forall r, r ∈ refs -> exists F v, names d r F v) ->
  (forall k, sample = Some k -> (0 <= k)%Z) -> textual d c q refs ->
  exists out, concordance_table sep d c q refs w sample g = Ok out /\
    NoDup out.*1.*2 /\ (forall doc, doc ∈ out.*1.*2 -> doc ∈ q) /\ length out = sample_of sample (size q) /\
    forall k doc lines, (k, doc, lines) ∈ out ->
      doc_key d !! doc = Some k /\ exists fs, corpus_lookup c k = Some (Ok fs) /\
      concordance_lines d refs sep w fs lines.
Proof. exact concordance_ok. Qed.
Print Assumptions C80_concordances.

(** An integer within the window of an occurrence makes the call raise. *)
Theorem C80_integer_raises : forall sep d c q refs w,
  keys_distinct d -> available d c q -> (forall r, r ∈ refs -> exists F v, names d r F v) ->
  (exists doc k fs F v vs i n, doc ∈ q /\ doc_key d !! doc = Some k /\ corpus_lookup c k = Some (Ok fs) /\
     (exists r, r ∈ refs /\ names d r F v) /\ (F, Seq vs) ∈ fs /\
     i ∈ positions_of vs (Some v) /\ Some (VInt n) ∈ around vs w i) ->
  forall g, concordance_table sep d c q refs w None g = Err TypeError.
Proof. exact concordance_int. Qed.
Print Assumptions C80_integer_raises.

(** ** C81 *)
Lemma chunks_length {A} fuel size (l : list A) : 0 < size -> length l <= fuel ->
  length (chunks fuel size l) = (length l + size - 1) / size.
Proof.
  intros Hs. revert l. induction fuel as [|fuel IH]; intros l Hl.
  - destruct l; [|cbn in Hl; lia]. cbn. symmetry. apply Nat.div_small. lia.
  - destruct l as [|x l]; [cbn; symmetry; apply Nat.div_small; lia|]. cbn [chunks length]. rewrite IH; rewrite drop_length; [|cbn [length] in *; lia].
    cbn [length]. destruct (decide (S (length l) <= size)).
    + replace (S (length l) - size + size - 1) with (size - 1) by lia. rewrite Nat.div_small by lia.
      replace (S (length l) + size - 1) with (1 * size + length l) by lia. rewrite Nat.div_add_l by lia. rewrite Nat.div_small by lia. lia.
    + replace (S (length l) + size - 1) with (1 * size + (S (length l) - size + size - 1)) by lia. rewrite Nat.div_add_l by lia. lia.
Qed.

(** As C51 for the sampled documents: as many as asked for, each one of the scored
    documents with all its passages. *)
Theorem C81_sampled_passages : forall d c scored overhang batch_size sample g arrival,
  renderable d c scored -> 0 < batch_size ->
  all_done arrival ((sample_of sample (length scored) + batch_size - 1) / batch_size) ->
  exists chosen rows, chosen ⊆+ scored /\ length chosen = sample_of sample (length scored) /\
    sampled_passages_table arrival d c overhang batch_size sample g scored = Ok rows /\
    rendered_table d c chosen (fun p => passage_start p - overhang) (fun p => passage_end p + overhang) rows.
Proof.
  intros d c scored o bs sample g arrival Hr Hb Ha. unfold sampled_passages_table.
  assert (exists chosen, (match sample with None => scored | Some k => sample_passages scored k g end) = chosen /\
    chosen ⊆+ scored /\ length chosen = sample_of sample (length scored)) as (chosen & -> & Hc & Hl).
  { destruct sample as [k|]; eexists; (split; [reflexivity|]); [apply sample_passages_spec|done]. }
  assert (renderable d c chosen) as Hr'.
  { destruct Hr as [H1 H2 H3]. split; [done| |].
    - assert (chosen.*1 ⊆+ scored.*1) as Hs by (by apply fmap_submseteq). apply submseteq_Permutation in Hs as [r Hp]. rewrite Hp in H2. by apply NoDup_app in H2 as [? _].
    - intros doc pl Hin. apply H3. by eapply elem_of_submseteq. }
  destruct (C51_rendered_partial d c chosen o bs arrival Hr' Hb) as (rows & Hrows & Ht).
  { rewrite chunks_length by lia. by rewrite Hl. }
  by exists chosen, rows.
Qed.
Print Assumptions C81_sampled_passages.

(** ** C82 *)
(** The documents the overview is about: those of the chosen feature, else those of the
    chosen cluster, else none. *)
Definition overview_documents (d : db) (feature : option N) (c : option Z) : gset N :=
  match feature, c with
  | Some f, _ => feature_docs d f
  | None, Some c => cluster_documents d c
  | None, None => ∅
  end.

(** A listed feature carries its field and value. *)
Definition described (d : db) (rows : list (N * string * value)) : Prop :=
  forall f field v, (f, field, v) ∈ rows ->
    exists row, inverted_index d !! f = Some row /\ f_field row = field /\ f_value row = v.

(** With documents: the clusters sharing documents with them, most similar first, each
    with its [k] most similar features. *)
Theorem C82_overview_of_documents : forall rnd workers arrival g d w feature c k n rt,
  rounding rnd -> quiet d -> 0 < workers -> arrival ≡ₚ seq 0 (workers * 2) -> 0 < k -> keys_distinct d ->
  let docs := overview_documents d feature c in
  docs <> ∅ -> (forall doc, doc ∈ docs -> is_Some (doc_key d !! doc)) ->
  dom (cluster d) <> ∅ -> (forall x, c = Some x -> x ∈ dom (cluster d)) ->
  (0 <= n)%Z -> result_kind rt <> "concordance" -> (forall x, w = Some x -> w_html x = true) ->
  exists o, overview_of rnd workers arrival g d w feature c k n rt = OverviewPage o /\
    Web.o_total o = size docs /\
    (o_clusters o).*1 ≡ₚ filter (fun x => docs ∩ cluster_documents d x ≠ ∅) (elements (dom (cluster d))) /\
    StronglySorted (fun a b => similarity rnd docs (cluster_documents d b) <= similarity rnd docs (cluster_documents d a))%Qc
      (o_clusters o).*1 /\
    (forall x rows, (x, rows) ∈ o_clusters o -> described d rows /\
       exists best, k_greatest score_le k (scored_features rnd d docs x) best /\ rows.*1.*1 ≡ₚ best.*2 /\
         StronglySorted (fun f h => similarity rnd docs (feature_docs d h) <= similarity rnd docs (feature_docs d f))%Qc rows.*1.*1) /\
    shows d w (result_kind rt) docs n
      [match feature, c with Some f, _ => {[f]} | None, Some x => members d x | None, None => ∅ end] (o_shown o).
Proof.
  intros rnd workers arrival g d w feature c k n rt Hr Hq Hw Ha Hk Hkeys docs Hne Hdk Hmodel Hc Hn Hkind Hh.
  unfold overview_of. destruct (cluster_ids d) as [|c0 cs] eqn:Eids.
  { exfalso. apply Hmodel. apply set_eq. intros x. rewrite <- elem_of_cluster_ids, Eids. set_solver. }
  clear Eids c0 cs.
  set (r := match feature, c with Some f, _ => _ | _, _ => _ end).
  assert (exists refs pq, r = Ok (Some (docs, refs, pq)) /\
    ((list_to_set <$> pq) : list (gset N)) = [match feature, c with Some f, _ => {[f]} | None, Some x => members d x | None, None => ∅ end])
    as (refs & pq & -> & Hpq).
  { subst r docs. destruct feature as [f|]; [|destruct c as [x|]; [|done]].
    - exists [ById f], [[f]]. split; [done|]. cbn. f_equal. set_solver.
    - rewrite (quiet_cluster_docs d x Hq (Hc _ eq_refl)). cbn [rbind fmap option_fmap option_map]. do 2 eexists. split; [reflexivity|].
      cbn [fmap list_fmap]. by rewrite (proj1 (cluster_features_set d x (proj1 Hq))). }
  cbn [rbind]. rewrite bool_decide_false by done.
  destruct (C40_pivot_covers_clusters rnd workers arrival d docs None k Hr Hq Hw Ha Hk) as (out & Ho & Hcov & Hsort & Hsim).
  { intros x. cbn. by rewrite elem_of_elements. }
  rewrite Ho. cbn [rbind requested] in *.
  destruct (results_shown d w (result_kind rt) docs refs pq n g _ Hkeys Hdk Hn Hkind Hh Hpq) as (v & -> & Hv).
  cbn [rbind]. eexists. split; [done|]. cbn [Web.o_total o_clusters o_shown].
  assert (((fun x : Z * Qc * list (N * string * value * Qc) => (x.1.1, x.2.*1)) <$> out).*1 = out.*1.*1) as E1.
  { rewrite <- !list_fmap_compose. done. }
  rewrite E1. split_and!; [done|done| | |done].
  - clear -Hsort Hsim. induction Hsort as [|x l Hs IH Hf]; [constructor|]. cbn. constructor.
    { apply IH. intros; eapply Hsim. by right. }
    rewrite Forall_forall in Hf. apply Forall_forall. intros y Hy. rewrite <- list_fmap_compose in Hy.
    apply elem_of_list_fmap in Hy as (y' & -> & Hy). cbn. destruct x as [[x sx] rx], y' as [[y sy] ry]. cbn in *.
    rewrite <- (Hsim x sx rx) by (by left). rewrite <- (Hsim y sy ry) by (by right). by apply (Hf (y, sy, ry)).
  - intros x rows Hin. apply elem_of_list_fmap in Hin as ([[x' s] rows'] & Heq & Hin). cbn in Heq. injection Heq as -> ->.
    destruct (C39_pivot_top_features _ _ _ _ _ _ _ _ x' s rows' Hr Hq Ho Hin) as (Hst & (best & Hbest & Hperm) & Hrow).
    split.
    + intros f field v' Hf. apply elem_of_list_fmap in Hf as ([[[f1 F1] v1] w1] & Heq & Hf). cbn in Heq. injection Heq as -> -> ->. by apply (Hrow _ _ _ w1).
    + exists best. split; [done|]. split.
      * rewrite <- Hperm. rewrite <- !list_fmap_compose. done.
      * assert (forall r, r ∈ rows' -> r.2 = similarity rnd docs (feature_docs d r.1.1.1)) as Hsc.
        { intros r' Hr'. assert ((r'.2, r'.1.1.1) ∈ best) as Hb.
          { rewrite <- Hperm. apply elem_of_list_fmap. by exists r'. }
          destruct Hbest as (_ & _ & rest & Hp & _).
          assert ((r'.2, r'.1.1.1) ∈ scored_features rnd d docs x') as Hsf by (rewrite <- Hp; apply elem_of_app; by left).
          unfold scored_features in Hsf. apply elem_of_list_filter in Hsf as [_ Hsf]. apply elem_of_list_fmap in Hsf as (y & Heq & _).
          by injection Heq as -> ->. }
        rewrite <- !list_fmap_compose. clear -Hst Hsc. induction Hst as [|r l Hs IH Hf]; [constructor|]. cbn. constructor.
        { apply IH. intros. apply Hsc. by right. }
        rewrite Forall_forall in Hf. apply Forall_forall. intros f (r' & -> & Hin)%elem_of_list_fmap. cbn.
        rewrite <- (Hsc r), <- (Hsc r'); [by apply Hf|by right|by left].
Qed.
Print Assumptions C82_overview_of_documents.

(** Without documents: every cluster, by number of documents, with [k] of its features
    with the most documents. *)
Theorem C82_overview_of_model : forall rnd workers arrival g d w feature c k n rt,
  quiet d -> overview_documents d feature c = ∅ ->
  dom (cluster d) <> ∅ -> (forall x, c = Some x -> x ∈ dom (cluster d)) ->
  exists o, overview_of rnd workers arrival g d w feature c k n rt = OverviewPage o /\
    Web.o_total o = 0 /\ o_shown o = NoResults /\
    (o_clusters o).*1 ≡ₚ elements (dom (cluster d)) /\
    StronglySorted (fun a b => size (cluster_documents d b) <= size (cluster_documents d a)) (o_clusters o).*1 /\
    (forall x rows, (x, rows) ∈ o_clusters o -> described d rows /\ NoDup rows.*1.*1 /\
       length rows = min k (size (members d x)) /\
       (forall f, f ∈ rows.*1.*1 -> f ∈ members d x) /\
       (forall f h, f ∈ rows.*1.*1 -> h ∈ members d x -> h ∉ rows.*1.*1 ->
          size (feature_docs d h) <= size (feature_docs d f))).
Proof.
  intros rnd workers arrival g d w feature c k n rt Hq Hdocs Hmodel Hc.
  unfold overview_of. destruct (cluster_ids d) as [|c0 cs] eqn:Eids.
  { exfalso. apply Hmodel. apply set_eq. intros x. rewrite <- elem_of_cluster_ids, Eids. set_solver. }
  clear Eids c0 cs.
  exists (Overview ((fun x => (x.1.1, x.2.*1)) <$> top_cluster_features d k) 0 NoResults). split.
  { destruct feature as [f|]; [|destruct c as [x|]; [|done]].
    - cbn [rbind]. rewrite bool_decide_true; [done|]. exact Hdocs.
    - rewrite (quiet_cluster_docs d x Hq (Hc _ eq_refl)). cbn [rbind fmap option_fmap option_map].
      rewrite bool_decide_true; [done|]. exact Hdocs. }
  cbn [Web.o_total o_shown o_clusters].
  destruct (C27_top_cluster_features d k) as (H1 & H2 & H3).
  assert (((fun x : Z * N * list (N * string * value * N) => (x.1.1, x.2.*1)) <$> top_cluster_features d k).*1 = (top_cluster_features d k).*1.*1) as E1.
  { rewrite <- !list_fmap_compose. done. }
  assert (forall x row, cluster d !! x = Some row -> N.to_nat (c_docs_count row) = size (cluster_documents d x)) as Hcount.
  { intros x row Hx. destruct Hq as [_ [Hcl _]]. destruct (Hcl _ _ Hx) as (_ & (docs & _ & He & Hn) & _).
    rewrite Hn, Nat2N.id. f_equal. apply set_eq. intros doc. rewrite He. unfold cluster_documents. unfold covered. rewrite elem_of_union_list. setoid_rewrite elem_of_list_fmap. setoid_rewrite elem_of_elements. naive_solver. }
  rewrite E1. split_and!; [done|done| | |].
  - rewrite H1. apply NoDup_Permutation; [apply NoDup_cluster_ids|apply NoDup_elements|]. intros x. by rewrite elem_of_cluster_ids, elem_of_elements.
  - clear E1 H1. induction H2 as [|x l Hs IH Hf]; [constructor|]. cbn. constructor.
    { apply IH. intros; apply H3. by right. }
    rewrite Forall_forall in Hf. apply Forall_forall. intros y Hy. rewrite <- list_fmap_compose in Hy.
    apply elem_of_list_fmap in Hy as (y' & -> & Hy). cbn.
    destruct (H3 x ltac:(by left)) as (rx & Hx & Hnx & _). destruct (H3 y' ltac:(by right)) as (ry & Hy' & Hny & _).
    rewrite <- (Hcount _ _ Hx), <- (Hcount _ _ Hy'). specialize (Hf _ Hy). rewrite Hnx, Hny in Hf. lia.
  - intros x rows Hin. apply elem_of_list_fmap in Hin as ([[x' m] rows'] & Heq & Hin). cbn in Heq. injection Heq as -> ->.
    destruct (H3 _ Hin) as (row & Hrow & _ & Hrows). cbn in Hrows. subst rows'.
    destruct (C27_cluster_features_top d x' k (proj1 Hq)) as (Hlen & Hnd & Htop).
    destruct (C27_cluster_features d x' (Some k) (proj1 Hq)) as (all & Hall & Hdesc & _ & Heq).
    assert (forall r, r ∈ cluster_features d x' (Some k) -> exists ii, inverted_index d !! r.1.1.1 = Some ii /\
       r = (r.1.1.1, f_field ii, f_value ii, f_docs_count ii)) as Hd.
    { intros r Hr. apply Hdesc. rewrite Heq in Hr. eapply elem_of_take in Hr as (i & Hi & _). by eapply elem_of_list_lookup_2. }
    assert (forall f ii, inverted_index d !! f = Some ii -> N.to_nat (f_docs_count ii) = size (feature_docs d f)) as Hfc.
    { intros f ii Hf. destruct Hq as [(_ & Hcnt & _) _]. rewrite (Hcnt _ _ Hf), Nat2N.id. unfold feature_docs. by rewrite Hf. }
    split_and!.
    + intros f field v Hf. apply elem_of_list_fmap in Hf as (r & Hr & Hf). destruct (Hd _ Hf) as (ii & Hii & E).
      rewrite E in Hr. cbn in Hr. injection Hr as -> -> ->. by exists ii.
    + done.
    + by rewrite fmap_length.
    + intros f Hf. rewrite <- !list_fmap_compose in Hf. apply elem_of_list_fmap in Hf as (r & -> & Hf). by apply Htop.
    + intros f h Hf Hh Hnh. rewrite <- !list_fmap_compose in Hf. apply elem_of_list_fmap in Hf as (r & -> & Hf). cbn.
      destruct (Htop r Hf) as [_ Ht]. destruct (Hd r Hf) as (ii & Hii & E).
      assert (exists ih, inverted_index d !! h = Some ih) as [ih Hih].
      { destruct Hq as [(Href & _ & _) _]. unfold members in Hh. apply elem_of_dom in Hh as [fr Hfr].
        apply map_filter_lookup_Some in Hfr as [Hfr _]. destruct (Href _ _ Hfr) as [(ii' & Hii' & _) _]. by exists ii'. }
      rewrite <- (Hfc _ _ Hih), <- (Hfc _ _ Hii). specialize (Ht h ih Hh Hih Hnh). rewrite E in Ht. cbn in Ht. lia.
Qed.
Print Assumptions C82_overview_of_model.

Theorem C82_no_model : forall rnd workers arrival g d w feature c k n rt,
  dom (cluster d) = ∅ -> overview_of rnd workers arrival g d w feature c k n rt = ToDetails.
Proof.
  intros. unfold overview_of. destruct (cluster_ids d) as [|x l] eqn:E; [done|].
  assert (x ∈ cluster_ids d) as Hx by (rewrite E; by left). apply elem_of_cluster_ids in Hx. set_solver.
Qed.
Print Assumptions C82_no_model.

(** ** C83 *)
(** The exported sample. [written]: the (cluster, document) pairs, one row each. A document
    is written at most once, for a cluster it belongs to; without a limit ([per] <= 0) every
    document of the model is; with one, a cluster has fewer rows than the limit only if all
    its documents are in the file. The cluster columns are right. *)
Theorem C83_sample_file : forall f (render : renderer) fields per g,
  let d := rows f in
  application_id f = MAGIC_APPLICATION_ID -> user_version f = 10%Z -> tables f !! "settings" = Some ["key"; "value"] ->
  quiet d -> keys_distinct d ->
  (forall c doc, c ∈ dom (cluster d) -> doc ∈ cluster_documents d c ->
     exists k content, doc_key d !! doc = Some k /\ render k = Ok content) ->
  exists header table written clusters, cli_sample f render fields per g = Ok (header, table) /\
    header = [ColKey; ColSampled] ++ (ColField <$> fields) ++ (ColCluster <$> clusters) /\
    StronglySorted Z.le clusters /\ NoDup clusters /\
    (forall c, c ∈ clusters <-> c ∈ dom (cluster d) /\ exists doc, doc ∈ written.*2 /\ doc ∈ cluster_documents d c) /\
    length table = length written /\ NoDup written.*2 /\
    (forall c doc, (c, doc) ∈ written -> c ∈ dom (cluster d) /\ doc ∈ cluster_documents d c) /\
    ((per <= 0)%Z -> forall c doc, c ∈ dom (cluster d) -> doc ∈ cluster_documents d c -> doc ∈ written.*2) /\
    ((0 < per)%Z -> forall c, c ∈ dom (cluster d) ->
       length (filter (fun p => p.1 = c) written) <= Z.to_nat per /\
       (length (filter (fun p => p.1 = c) written) < Z.to_nat per ->
        forall doc, doc ∈ cluster_documents d c -> doc ∈ written.*2)) /\
    forall i c doc row, written !! i = Some (c, doc) -> table !! i = Some row ->
      exists key content, doc_key d !! doc = Some key /\ render key = Ok content /\
        length row = length header /\
        forall j col, header !! j = Some col -> exists x, row !! j = Some x /\
          match col with
          | ColKey => x = CKey key
          | ColSampled => x = CCluster c
          | ColField s => x = default CBlank (CText <$> content !! s)
          | ColCluster k => x = if bool_decide (doc ∈ cluster_documents d k) then CMark else CBlank
          end.
Proof.
  intros f render fields per g d Happ Hver Hset Hq Hkeys Hren.
  unfold cli_sample. rewrite Happ, Z.eqb_refl. rewrite (C58_current_version f Hver Hset).
  change (rows (set_wal f)) with d.
  destruct (C43_structured_sample d per None g Hq) as (samples & labels & -> & Hnd & Hsel & _ & Heach & Hdisj & Hlnd & Hlab).
  cbn [rbind].
  assert (forall c docs, (c, docs) ∈ samples -> c ∈ dom (cluster d) /\ docs ⊆ cluster_documents d c) as Hsub.
  { intros c docs Hin. split; [apply Hsel; apply elem_of_list_fmap; by exists (c, docs)|].
    apply elem_of_list_split in Hin as (l1 & l2 & ->). destruct (Heach l1 c docs l2 eq_refl) as [H _]. set_solver. }
  destruct (C44_export d render fields samples labels Hkeys) as (header & table & clusters & written & -> & Hh & Hso & Hcnd & Hcl & Hw & Hlen & Hrows).
  { intros c docs doc Hin Hd. destruct (Hsub _ _ Hin) as [H1 H2]. eapply Hren; [done|]. by apply H2. }
  assert (forall c doc, (c, doc) ∈ written <-> exists docs, (c, docs) ∈ samples /\ doc ∈ docs) as Hwin.
  { intros c doc. rewrite Hw, elem_of_concat. split.
    - intros (l & Hin & Hl). apply elem_of_list_fmap in Hl as ([c' docs] & -> & Hl). cbn in Hin.
      apply elem_of_list_fmap in Hin as (doc' & [= -> ->] & Hin). apply elem_of_bm_list in Hin. by exists docs.
    - intros (docs & Hin & Hd). exists (pair c <$> bm_list docs). split.
      + apply elem_of_list_fmap. exists doc. split; [done|]. by apply elem_of_bm_list.
      + apply elem_of_list_fmap. by exists (c, docs). }
  assert (forall doc, doc ∈ written.*2 <-> doc ∈ ⋃ samples.*2) as Hwdocs.
  { intros doc. rewrite elem_of_list_fmap, elem_of_union_list. split.
    - intros ([c doc'] & -> & Hin). apply Hwin in Hin as (docs & Hin & Hd). exists docs. split; [|done]. apply elem_of_list_fmap. by exists (c, docs).
    - intros (docs & Hin & Hd). apply elem_of_list_fmap in Hin as ([c docs'] & -> & Hin). exists (c, doc). split; [done|]. apply Hwin. by exists docs'. }
  assert (forall l : list (Z * bitmap), (forall i j c s c' s', l !! i = Some (c, s) -> l !! j = Some (c', s') -> i <> j -> s ## s') ->
     NoDup (concat ((fun cd : Z * bitmap => pair cd.1 <$> bm_list cd.2) <$> l)).*2) as Hndw.
  { clear. induction l as [|[c s] l IH]; intros H; [constructor|]. cbn [fmap list_fmap concat fst snd]. rewrite fmap_app. apply NoDup_app. split_and!.
    - rewrite <- list_fmap_compose. rewrite (list_fmap_ext _ id) by done. rewrite list_fmap_id. apply NoDup_bm_list.
    - intros doc Hin Hin2. rewrite <- list_fmap_compose, (list_fmap_ext _ id), list_fmap_id in Hin by done. apply elem_of_bm_list in Hin.
      apply elem_of_list_fmap in Hin2 as ([c2 doc2] & -> & Hin2). apply elem_of_concat in Hin2 as (l' & Hin2 & Hl').
      apply elem_of_list_fmap in Hl' as ([c3 s3] & -> & Hl'). cbn in Hin2. apply elem_of_list_fmap in Hin2 as (y & [= -> ->] & Hy).
      apply elem_of_bm_list in Hy. apply elem_of_list_lookup in Hl' as [j Hj].
      apply (H 0 (S j) c s c3 s3 eq_refl Hj ltac:(done) y); done.
    - apply IH. intros i j c1 s1 c2 s2 Hi Hj Hne. apply (H (S i) (S j) c1 s1 c2 s2 Hi Hj). lia. }
  assert (forall c s, (c, s) ∈ samples -> length (filter (fun p => p.1 = c) written) = size s) as Hfl.
  { intros c s Hin. rewrite Hw. clear -Hin Hnd. induction samples as [|[c' s'] l IH]; [by apply elem_of_nil in Hin|].
    cbn in Hnd. apply NoDup_cons in Hnd as [Hn Hnd]. cbn [fmap list_fmap concat fst snd]. rewrite filter_app, app_length.
    assert (forall (c c' : Z) (xs : list N), length (filter (fun p : Z * N => p.1 = c) (pair c' <$> xs)) = if decide (c' = c) then length xs else 0) as Hp.
    { intros c1 c2 xs. induction xs as [|x xs IHx]; [by case_decide|]. rewrite fmap_cons, filter_cons. cbn [fst]. case_decide; [|done]. cbn. by rewrite IHx. }
    rewrite Hp, length_bm_list. apply elem_of_cons in Hin as [[= -> ->]|Hin].
    - rewrite decide_True by done. replace (length (filter _ _)) with 0; [lia|]. symmetry.
      clear -Hn Hp. induction l as [|[c s] l IH]; [done|]. cbn [fmap list_fmap concat fst snd] in *. rewrite filter_app, app_length, Hp, IH by set_solver.
      rewrite decide_False by set_solver. done.
    - rewrite (IH Hnd Hin). rewrite decide_False; [done|]. intros ->. apply Hn. apply elem_of_list_fmap. by exists (c, s). }
  exists header, table, written, clusters. split; [done|]. split; [done|]. split; [done|]. split; [done|].
  split_and!.
  - intros c. rewrite Hcl, elem_of_list_fmap. split.
    + intros ([c' s] & -> & Hin). cbn. apply Hlab in Hin as (H1 & H2 & H3). split; [done|].
      apply set_choose_L in H3 as [doc Hd]. exists doc. rewrite Hwdocs. set_solver.
    + intros (H1 & doc & H2 & H3). exists (c, cluster_documents d c ∩ ⋃ samples.*2). split; [done|]. apply Hlab.
      split_and!; [done|done|]. rewrite Hwdocs in H2. set_solver.
  - done.
  - rewrite Hw. by apply Hndw.
  - intros c doc Hin. apply Hwin in Hin as (docs & Hin & Hd). destruct (Hsub _ _ Hin). set_solver.
  - intros Hper c doc Hc Hd. rewrite Hwdocs. assert (c ∈ samples.*1) as Hin.
    { apply Hsel. split; [done|]. cbn. by apply elem_of_elements. }
    apply elem_of_list_fmap in Hin as ([c' s] & -> & Hin). cbn in *. apply elem_of_list_split in Hin as (l1 & l2 & Hs).
    destruct (Heach l1 c' s l2 Hs) as [H1 H2]. rewrite (proj2 (Z.ltb_ge 0 per) Hper) in H2.
    assert (s = cluster_documents d c' ∖ ⋃ l1.*2) as Es.
    { apply set_eq. intros x. split; [apply H1|]. intros Hx. destruct (decide (x ∈ s)) as [|Hns]; [done|]. exfalso.
      assert (size ({[x]} ∪ s) <= size (cluster_documents d c' ∖ ⋃ l1.*2)) as Hle by (apply subseteq_size; set_solver).
      rewrite size_union, size_singleton in Hle by set_solver. lia. }
    rewrite Hs, fmap_app, union_list_app. cbn. destruct (decide (doc ∈ ⋃ l1.*2)); [set_solver|]. subst s. set_solver.
  - intros Hper c Hc. assert (c ∈ samples.*1) as Hin.
    { apply Hsel. split; [done|]. cbn. by apply elem_of_elements. }
    apply elem_of_list_fmap in Hin as ([c' s] & -> & Hin). cbn [fst] in *. rewrite (Hfl _ _ Hin).
    apply elem_of_list_split in Hin as (l1 & l2 & Hs).
    destruct (Heach l1 c' s l2 Hs) as [H1 H2]. rewrite (proj2 (Z.ltb_lt 0 per) Hper) in H2. split; [lia|].
    intros Hlt doc Hd. rewrite Hwdocs.
    assert (s = cluster_documents d c' ∖ ⋃ l1.*2) as Es.
    { apply set_eq. intros x. split; [apply H1|]. intros Hx. destruct (decide (x ∈ s)) as [|Hns]; [done|]. exfalso.
      assert (size ({[x]} ∪ s) <= size (cluster_documents d c' ∖ ⋃ l1.*2)) as Hle by (apply subseteq_size; set_solver).
      rewrite size_union, size_singleton in Hle by set_solver. lia. }
    rewrite Hs, fmap_app, union_list_app. cbn. destruct (decide (doc ∈ ⋃ l1.*2)); [set_solver|]. subst s. set_solver.
  - intros i c doc row Hi Hrow. destruct (Hrows i c doc row Hi Hrow) as (key & content & Hk & Hr & Hl & Hcols).
    exists key, content. split_and!; [done..|]. intros j col Hj. destruct (Hcols j col Hj) as (x & Hx & Hm). exists x. split; [done|].
    destruct col as [| | |k]; [done..|].
    assert (doc ∈ ⋃ samples.*2) as Hdoc.
    { apply Hwdocs. apply elem_of_list_fmap. exists (c, doc). split; [done|]. by eapply elem_of_list_lookup_2. }
    assert (k ∈ dom (cluster d)) as Hkd.
    { rewrite Hh in Hj. assert (ColCluster k ∈ [ColKey; ColSampled] ++ (ColField <$> fields) ++ (ColCluster <$> clusters)) as He by (by eapply elem_of_list_lookup_2).
      rewrite !elem_of_app, !elem_of_list_fmap in He. destruct He as [He|[(? & ? & _)|(k' & [= <-] & Hk')]]; [|done|].
      - rewrite !elem_of_cons in He. destruct He as [?|[?|?%elem_of_nil]]; done.
      - apply Hcl in Hk'. apply elem_of_list_fmap in Hk' as ([k2 s2] & -> & Hk'). by apply Hlab in Hk' as [? _]. }
    destruct Hm as [[-> (docs & Hin & Hd)]|[-> Hno]].
    + apply Hlab in Hin as (_ & -> & _). rewrite bool_decide_true by set_solver. done.
    + rewrite bool_decide_false; [done|]. intros Hd. apply Hno. exists (cluster_documents d k ∩ ⋃ samples.*2). split; [|set_solver].
      apply Hlab. split_and!; [done|done|set_solver].
Qed.
Print Assumptions C83_sample_file.

(** ** Examples *)
Lemma corpus1_available : keys_distinct (disk conn1) /\ available (disk conn1) corpus1 {[0; 2]}%N /\
  textual (disk conn1) corpus1 {[0; 2]}%N [ByKey "text" (t "b")].
Proof.
  assert (doc_key (disk conn1) = list_to_map [(0%N, t "k0"); (1%N, t "k1"); (2%N, t "k2")]) as E by by_computation.
  generalize dependent (disk conn1). intros D E.
  assert (forall i k, doc_key (D) !! i = Some k -> (i, k) ∈ [(0%N, t "k0"); (1%N, t "k1"); (2%N, t "k2")]) as Hin.
  { intros i k H. rewrite E in H. by apply elem_of_list_to_map_2 in H. }
  assert (forall doc k fs, doc ∈ ({[0; 2]}%N : gset N) -> doc_key (D) !! doc = Some k -> corpus_lookup corpus1 k = Some (Ok fs) ->
    NoDup fs.*1 /\ forall vs x, ("text", Seq vs) ∈ fs -> Some x ∈ vs -> exists s, x = VText s) as Hfs.
  { intros doc k fs Hd Hk Hc. apply Hin in Hk. rewrite !elem_of_cons in Hk.
    destruct Hk as [[= -> ->]|[[= -> ->]|[[= -> ->]|?%elem_of_nil]]]; [| |  |done]; try set_solver;
      cbn in Hc; injection Hc as <-; (split; [by_computation|]); intros vs x Hvs Hx.
    - rewrite !elem_of_cons in Hvs. destruct Hvs as [[= ->]|[Hc|?%elem_of_nil]]; [|discriminate Hc|done].
      rewrite !elem_of_cons in Hx. destruct Hx as [[= ->]|[[= ->]|[[= ->]|?%elem_of_nil]]]; try done; by eexists.
    - rewrite !elem_of_cons in Hvs. destruct Hvs as [[= ->]|?%elem_of_nil]; [|done].
      rewrite !elem_of_cons in Hx. destruct Hx as [[= ->]|[[= ->]|?%elem_of_nil]]; try done; by eexists. }
  split_and!.
  - intros i j k Hi%Hin Hj%Hin. rewrite !elem_of_cons in Hi, Hj.
    destruct Hi as [Hi|[Hi|[Hi|?%elem_of_nil]]]; try done;
    destruct Hj as [Hj|[Hj|[Hj|?%elem_of_nil]]]; try done; unfold t in *; injection Hi as ? ?; injection Hj as ? ?; subst; done.
  - intros doc Hd. assert (exists k fs, doc_key (D) !! doc = Some k /\ corpus_lookup corpus1 k = Some (Ok fs)) as (k & fs & H1 & H2).
    { rewrite E. apply elem_of_union in Hd as [->%elem_of_singleton| ->%elem_of_singleton]; do 2 eexists; split; reflexivity. }
    exists k, fs. split_and!; [done|done|]. by eapply Hfs.
  - intros doc k fs F v vs x Hd Hk Hc (r & Hr & Hn) HF Hx. apply elem_of_list_singleton in Hr as ->. destruct Hn as [<- _].
    destruct (Hfs doc k fs Hd Hk Hc) as [_ H]. by eapply H.
Qed.
Example C80_example :
  keys_distinct (disk conn1) /\ available (disk conn1) corpus1 {[0; 2]}%N /\
  textual (disk conn1) corpus1 {[0; 2]}%N [ByKey "text" (t "b")] /\
  concordance_table "-" (disk conn1) corpus1 {[0; 2]}%N [ByKey "text" (t "b")] 1 None rng0 =
    Ok [(t "k0", 0%N, [("text", {[t "b" := ["a-b-a"]]})]); (t "k2", 2%N, [("text", {[t "b" := ["b-c"]]})])] /\
  rmap length (concordance_table "-" (disk conn1) corpus1 {[0; 2]}%N [ByKey "text" (t "b")] 1 (Some 1%Z) rng0) = Ok 1.
Proof. destruct corpus1_available as (H1 & H2 & H3). split; [done|]. split; [done|]. split; [done|]. split; by_computation. Qed.

Example C81_example : renderable db3 corpus3 scored3 /\
  all_done [] ((sample_of (Some 0%Z) (length scored3) + 10 - 1) / 10) /\
  all_done [0] ((sample_of (Some 5%Z) (length scored3) + 10 - 1) / 10) /\
  rmap length (sampled_passages_table [] db3 corpus3 1 10 (Some 0%Z) rng0 scored3) = Ok 0 /\
  rmap (fun l => l.*1.*1) (sampled_passages_table [0] db3 corpus3 1 10 (Some 5%Z) rng0 scored3) = Ok [2%N].
Proof. split; [apply renderable3|]. unfold all_done. split; [vm_compute; reflexivity|]. split; [vm_compute; reflexivity|]. split; vm_compute; reflexivity. Qed.

Definition overview_content (a : overview_answer) : option (list (Z * list N) * nat * view) :=
  match a with OverviewPage o => Some ((fun x => (x.1, x.2.*1.*1)) <$> o_clusters o, Web.o_total o, o_shown o) | _ => None end.
Example C82_example :
  quiet page_db /\ keys_distinct page_db /\ dom (cluster page_db) <> ∅ /\
  overview_documents page_db (Some 1%N) None = {[0;1;2]}%N /\
  overview_content (overview_of exact_division 1 [1;0] rng0 page_db page_corpus (Some 1%N) None 2 1 None) =
    Some ([(1%Z, [1%N]); (0%Z, [5%N; 2%N])], 3, Documents [(VInt 0, 0%N)]) /\
  overview_content (overview_of exact_division 1 [1;0] rng0 page_db page_corpus None None 1 1 None) =
    Some ([(0%Z, [5%N]); (1%Z, [1%N])], 0, NoResults).
Proof.
  split; [apply page_db_quiet|]. split; [exact page_keys_unique|]. split; [by_computation|]. split; [by_computation|]. split; by_computation.
Qed.

Definition sample_file : file :=
  File 10 MAGIC_APPLICATION_ID true {["settings" := ["key"; "value"]]} ∅ ∅ page_db.
Definition page_render : renderer := fun k => Ok {["text" := match k with VInt 0 => "zero" | _ => "more" end]}.
Example C83_example :
  quiet (rows sample_file) /\ keys_distinct (rows sample_file) /\
  (forall c doc, c ∈ dom (cluster page_db) -> doc ∈ cluster_documents page_db c ->
     exists k content, doc_key page_db !! doc = Some k /\ page_render k = Ok content) /\
  rmap (fun x : list column * list (list cell) => (x.1, length x.2, take 2 x.2)) (cli_sample sample_file page_render ["text"] 0 rng0) =
    Ok ([ColKey; ColSampled; ColField "text"; ColCluster 0; ColCluster 1], 6,
        [[CKey (VInt 0); CCluster 1; CText "zero"; CMark; CMark]; [CKey (VInt 10); CCluster 1; CText "more"; CMark; CMark]]) /\
  rmap (fun x : list column * list (list cell) => length x.2) (cli_sample sample_file page_render ["text"] 2 rng0) = Ok 4.
Proof.
  split; [apply page_db_quiet|]. split; [exact page_keys_unique|]. split; [|split; by_computation].
  assert (set_Forall (fun c => set_Forall (fun doc => is_Some (doc_key page_db !! doc)) (cluster_documents page_db c)) (dom (cluster page_db))) as H by by_computation.
  intros c doc Hc Hd. destruct (H c Hc doc Hd) as [k Hk]. exists k. eexists. split; [done|]. reflexivity.
Qed.
