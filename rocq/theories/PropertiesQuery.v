(** PropertiesQuery.v: C38 (the rest), C39-C45, C52 (statements; proofs in
    QueryProofs.v and SampleProofs.v). Vocabulary: SpecQuery.v, SpecRefine.v,
    SpecCluster.v. [rnd] is the rounding of floating point division; [workers] the size
    of the worker pool, [arrival] the order in which its first jobs complete. *)
From Verif Require Import SpecIndexing SpecQuery Query QueryProofs SampleProofs SampleDb PropertiesIndexing.

Lemma sample_db_quiet : quiet sample_db.
Proof. apply sample_conn2_ready. Qed.
Definition exact_division (x : Qc) : Qc := x.
Lemma exact_rounding : rounding exact_division.
Proof. split; [done|done]. Qed.
Definition Qfrac (a : Z) (b : positive) : Qc := Q2Qc (QArith_base.Qmake a b).

(** C39 *)
Theorem C39_pivot_top_features : forall rnd workers arrival d q sel k out c s rows,
  rounding rnd -> quiet d ->
  pivot_clusters_by_query rnd workers arrival d q sel k = Ok out -> (c, s, rows) ∈ out ->
  StronglySorted (fun a b => b.2 <= a.2)%Qc rows /\
  (exists best, k_greatest score_le k (scored_features rnd d q c) best /\
     (fun r => (r.2, r.1.1.1)) <$> rows ≡ₚ best) /\
  (forall f field v w, (f, field, v, w) ∈ rows ->
     exists row, inverted_index d !! f = Some row /\ f_field row = field /\ f_value row = v).
Proof.
  intros rnd workers arrival d q sel k out c s rows Hr Hq Ho Hin.
  pose proof (pivot_output _ _ _ _ _ _ _ _ Hr Hq Ho) as Hf. rewrite Forall_forall in Hf.
  destruct (Hf _ Hin) as (_ & H). exact H.
Qed.
Print Assumptions C39_pivot_top_features.

Example C39_example :
  rounding exact_division /\ quiet sample_db /\
  pivot_clusters_by_query exact_division 2 [3;1;0;2] sample_db {[0;1;3]}%N None 1 = Ok [
    (1%Z, Qfrac 3 5, [(1%N, "text", t "a", Qfrac 1 2)]);
    (0%Z, Qfrac 1 2, [(2%N, "text", t "b", Qfrac 2 3)])].
Proof. split_and!; [apply exact_rounding|apply sample_db_quiet|by_computation]. Qed.

(** C40 *)
Theorem C40_pivot_covers_clusters : forall rnd workers arrival d q sel k,
  rounding rnd -> quiet d -> 0 < workers -> arrival ≡ₚ seq 0 (workers * 2) -> 0 < k ->
  (forall c, c ∈ requested d sel -> c ∈ dom (cluster d)) ->
  exists out, pivot_clusters_by_query rnd workers arrival d q sel k = Ok out /\
    out.*1.*1 ≡ₚ filter (fun c => q ∩ cluster_documents d c ≠ ∅) (requested d sel) /\
    StronglySorted (fun a b => b.1.2 <= a.1.2)%Qc out /\
    (forall c s rows, (c, s, rows) ∈ out -> s = similarity rnd q (cluster_documents d c)).
Proof.
  intros rnd workers arrival d q sel k Hr Hq Hw Ha Hk Hs.
  destruct (pivot_total rnd workers arrival d q sel k Hq Hw Ha Hk Hs) as (out & Ho & H1 & H2).
  exists out. split_and!; [done|done|done|]. intros c s rows Hin.
  pose proof (pivot_output _ _ _ _ _ _ _ _ Hr Hq Ho) as Hf. rewrite Forall_forall in Hf.
  by destruct (Hf _ Hin) as (-> & _).
Qed.
Print Assumptions C40_pivot_covers_clusters.

(** The two ways it raises: an unknown cluster id, and top_k = 0. *)
Theorem C40_pivot_unknown_cluster : forall rnd workers arrival d q sel k c,
  quiet d -> 0 < workers -> arrival ≡ₚ seq 0 (workers * 2) ->
  c ∈ requested d sel -> c ∉ dom (cluster d) ->
  pivot_clusters_by_query rnd workers arrival d q sel k = Err IndexError.
Proof. exact pivot_unknown. Qed.
Print Assumptions C40_pivot_unknown_cluster.
Theorem C40_pivot_top_k_zero : forall rnd workers arrival d q sel c,
  quiet d -> 0 < workers -> arrival ≡ₚ seq 0 (workers * 2) ->
  (forall c, c ∈ requested d sel -> c ∈ dom (cluster d)) ->
  c ∈ requested d sel -> q ∩ cluster_documents d c ≠ ∅ ->
  pivot_clusters_by_query rnd workers arrival d q sel 0 = Err IndexError.
Proof. exact pivot_top_k_zero. Qed.
Print Assumptions C40_pivot_top_k_zero.

Example C40_example :
  [3;1;0;2] ≡ₚ seq 0 (2 * 2) /\ requested sample_db (Some [0%Z]) = [0%Z] /\ 0%Z ∈ dom (cluster sample_db) /\
  rmap (fun l => l.*1.*1) (pivot_clusters_by_query exact_division 2 [3;1;0;2] sample_db {[5]}%N (Some [1;0]%Z) 3) = Ok [0]%Z.
Proof.
  split; [|by_computation]. cbn.
  rewrite (Permutation_app_comm [3] [1;0;2]). cbn. rewrite (Permutation_swap 1 0 [2;3]). done.
Qed.

(** C41 *)
Theorem C41_field_intersections : forall d queries field values totals inters,
  references_ok d -> features_unique (inverted_index d) ->
  intersect_queries_with_field d queries field = (values, totals, inters) ->
  StronglySorted (fun a b => value_le a b /\ a <> b) values /\
  (forall v, v ∈ values <-> exists f row, inverted_index d !! f = Some row /\
     f_field row = field /\ f_value row = v /\ f_doc_ids row ≠ ∅) /\
  length totals = length values /\
  (forall i v f row, values !! i = Some v -> inverted_index d !! f = Some row ->
     f_field row = field -> f_value row = v -> totals !! i = Some (N.of_nat (size (f_doc_ids row)))) /\
  (values <> [] -> inters.*1 = queries.*1) /\
  (forall j name counts, inters !! j = Some (name, counts) ->
     length counts = length values /\
     exists q, queries !! j = Some (name, q) /\
     forall i v f row, values !! i = Some v -> inverted_index d !! f = Some row ->
       f_field row = field -> f_value row = v -> counts !! i = Some (size (q ∩ f_doc_ids row))).
Proof.
  intros d queries field values totals inters Hr Hu. unfold intersect_queries_with_field.
  set (rows := iter_field_docs d field 1).
  intros [= <- <- Hint].
  pose proof (iter_field_sorted d field Hr Hu) as Hs.
  assert (forall i v n docs f row, rows !! i = Some (v, n, docs) -> inverted_index d !! f = Some row ->
    f_field row = field -> f_value row = v -> n = N.of_nat (size (f_doc_ids row)) /\ docs = f_doc_ids row) as Hrow.
  { intros i v n docs f row Hi Hf Hfield Hv. apply elem_of_list_lookup_2 in Hi.
    apply (elem_of_iter_field d field v n docs Hr) in Hi as (g & rg & Hg & Hgf & Hgv & -> & -> & _).
    assert (g = f) as -> by (eapply Hu; eauto; congruence). rewrite Hf in Hg. by injection Hg as ->. }
  assert (forall i v, rows.*1.*1 !! i = Some v -> exists n docs, rows !! i = Some (v, n, docs)) as Hlk.
  { intros i v. rewrite !list_lookup_fmap. destruct (rows !! i) as [[[? ?] ?]|]; cbn; [|done]. intros [= ->]. eauto. }
  split_and!.
  - exact Hs.
  - intros v. split.
    + intros Hv. apply elem_of_list_fmap in Hv as ([v' n] & -> & Hv). apply elem_of_list_fmap in Hv as ([[v2 n2] docs] & [= -> ->] & Hv).
      apply (elem_of_iter_field d field _ _ _ Hr) in Hv as (f & row & ? & ? & ? & -> & _ & ?). exists f, row. done.
    + intros (f & row & Hf & H1 & H2 & H3).
      apply elem_of_list_fmap. exists (v, N.of_nat (size (f_doc_ids row))). split; [done|].
      apply elem_of_list_fmap. exists (v, N.of_nat (size (f_doc_ids row)), f_doc_ids row). split; [done|].
      apply (elem_of_iter_field d field _ _ _ Hr). exists f, row. done.
  - by rewrite !fmap_length.
  - intros i v f row Hv Hf H1 H2. destruct (Hlk _ _ Hv) as (n & docs & Hi).
    destruct (Hrow _ _ _ _ _ _ Hi Hf H1 H2) as [-> _]. by rewrite !list_lookup_fmap, Hi.
  - intros Hne. destruct rows as [|r rows]; [done|]. subst inters. rewrite <- list_fmap_compose. by apply list_fmap_ext.
  - intros j name counts Hj. destruct rows as [|r rows'] eqn:E; [by subst|]. rewrite <- E in *.
    subst inters. rewrite list_lookup_fmap in Hj. destruct (queries !! j) as [[name' q]|] eqn:Eq; [|done].
    cbn in Hj. injection Hj as <- <-. split.
    { by rewrite !fmap_length. }
    exists q. split; [done|]. intros i v f row Hv Hf H1 H2. destruct (Hlk _ _ Hv) as (n & docs & Hi).
    destruct (Hrow _ _ _ _ _ _ Hi Hf H1 H2) as [_ ->]. by rewrite list_lookup_fmap, Hi.
Qed.
Print Assumptions C41_field_intersections.

Example C41_example :
  references_ok sample_db /\
  intersect_queries_with_field sample_db [("q", {[0;1;3]}%N); ("none", ∅)] "text" =
  ([t "a"; t "b"; t "c"; t "d"], [3;2;2;1]%N, [("q", [2;2;1;0]); ("none", [0;0;0;0])]).
Proof. split; [apply sample_db_quiet|by_computation]. Qed.

(** C42 *)
Theorem C42_sample_bitmap : forall b k g, (0 <= k)%Z ->
  exists s, (sample_bitmap b k g).1 = Ok s /\ s ⊆ b /\ size s = min (Z.to_nat k) (size b).
Proof. exact sample_bitmap_spec. Qed.
Print Assumptions C42_sample_bitmap.
Theorem C42_negative_size_raises : forall b k g, (k < 0)%Z -> (sample_bitmap b k g).1 = Err ValueError.
Proof. exact sample_bitmap_negative. Qed.
Print Assumptions C42_negative_size_raises.

Example C42_example :
  rmap (fun s => (size s, bool_decide (s ⊆ {[1;5;7;9]}%N))) (sample_bitmap {[1;5;7;9]}%N 2 rng0).1 = Ok (2, true) /\
  (sample_bitmap {[1;5]}%N 2 rng0).1 = Ok {[1;5]}%N.
Proof. by_computation. Qed.

(** C43. [⋃ before.*2]: the documents sampled for the clusters listed before [c]. *)
Theorem C43_structured_sample : forall d per sel g, quiet d ->
  exists samples labels, structured_doc_sample d per sel g = Ok (samples, labels) /\
    NoDup samples.*1 /\ (forall c, c ∈ samples.*1 <-> c ∈ dom (cluster d) /\ c ∈ requested d sel) /\
    StronglySorted (fun a b => size (cluster_documents d a) <= size (cluster_documents d b)) samples.*1 /\
    (forall before c s after, samples = before ++ (c, s) :: after ->
       let available := cluster_documents d c ∖ ⋃ before.*2 in
       s ⊆ available /\
       size s = if (0 <? per)%Z then min (Z.to_nat per) (size available) else size available) /\
    (forall i j c s c' s', samples !! i = Some (c, s) -> samples !! j = Some (c', s') -> i <> j -> s ## s') /\
    NoDup labels.*1 /\
    (forall c s, (c, s) ∈ labels <->
       c ∈ dom (cluster d) /\ s = cluster_documents d c ∩ ⋃ samples.*2 /\ s ≠ ∅).
Proof.
  intros d per sel g Hq.
  destruct (structured_sample_spec d per sel g Hq) as (samples & labels & H1 & H2 & H3 & H4 & H5 & H6 & H7).
  exists samples, labels. split_and!; try done.
  assert (forall i j c s c' s', samples !! i = Some (c, s) -> samples !! j = Some (c', s') -> i < j -> s ## s') as Hlt.
  { intros i j c s c' s' Hi Hj Hij.
    assert (samples = take j samples ++ (c', s') :: drop (S j) samples) as Hsp by (by rewrite take_drop_middle).
    destruct (H5 _ _ _ _ Hsp) as [Hsub _].
    assert (s ⊆ ⋃ (take j samples).*2) as Hs; [|set_solver].
    intros x Hx. apply elem_of_union_list. exists s. split; [|done]. apply elem_of_list_fmap. exists (c, s). split; [done|].
    apply elem_of_list_lookup. exists i. by rewrite lookup_take. }
  intros i j c s c' s' Hi Hj Hne. destruct (Nat.lt_total i j) as [H|[H|H]]; [by eapply Hlt|done|].
  symmetry. by eapply Hlt.
Qed.
Print Assumptions C43_structured_sample.

Example C43_example :
  quiet sample_db /\
  rmap (fun r => ((fun cd => (cd.1, size cd.2)) <$> r.1, (fun cd => (cd.1, size cd.2)) <$> r.2))
    (structured_doc_sample sample_db 2 None rng0) = Ok ([(1%Z, 2); (0%Z, 2)], [(0%Z, 4); (1%Z, 4)]).
Proof. split; [apply sample_db_quiet|by_computation]. Qed.

(** C38 for pivoting and sampling, refuted: an empty selection selects everything ... *)
Theorem C38_pivot_sample_refuted :
  ~ (forall rnd workers arrival d q k out, quiet d -> 0 < k ->
      pivot_clusters_by_query rnd workers arrival d q (Some []) k = Ok out -> out = []) /\
  ~ (forall d per g samples labels, quiet d ->
      structured_doc_sample d per (Some []) g = Ok (samples, labels) -> samples = []).
Proof.
  split; intros H.
  - assert (pivot_clusters_by_query exact_division 2 [3;1;0;2] sample_db {[5]}%N (Some []) 1 =
      Ok [(0%Z, Qfrac 1 6, [(4%N, "text", t "d", Qfrac 1 1)])]) as E by by_computation.
    apply H in E; [discriminate|apply sample_db_quiet|lia].
  - destruct (structured_doc_sample sample_db 2 (Some []) rng0) as [[samples labels]|] eqn:E.
    + pose proof (H _ _ _ _ _ sample_db_quiet E) as ->.
      assert (rmap (fun r => length r.1) (structured_doc_sample sample_db 2 (Some []) rng0) = Ok 2) as E2 by by_computation.
      rewrite E in E2. discriminate E2.
    + assert (rmap (fun r => length r.1) (structured_doc_sample sample_db 2 (Some []) rng0) = Ok 2) as E2 by by_computation.
      rewrite E in E2. discriminate E2.
Qed.
Print Assumptions C38_pivot_sample_refuted.
(** ... exactly as no selection does. *)
Theorem C38_pivot_sample_is_none_partial :
  (forall rnd workers arrival d q k, pivot_clusters_by_query rnd workers arrival d q (Some []) k =
     pivot_clusters_by_query rnd workers arrival d q None k) /\
  (forall d per g, structured_doc_sample d per (Some []) g = structured_doc_sample d per None g).
Proof. done. Qed.
Print Assumptions C38_pivot_sample_is_none_partial.

(** C44. [pairs]: the sampled (cluster, document) pairs in the order of the sample. *)
Theorem C44_export : forall d (render : renderer) fields samples labels,
  (forall i j k, doc_key d !! i = Some k -> doc_key d !! j = Some k -> i = j) ->
  (forall c docs doc, (c, docs) ∈ samples -> doc ∈ docs ->
     exists k content, doc_key d !! doc = Some k /\ render k = Ok content) ->
  exists header rows clusters pairs, export_document_sample d render fields samples labels = Ok (header, rows) /\
    header = [ColKey; ColSampled] ++ (ColField <$> fields) ++ (ColCluster <$> clusters) /\
    StronglySorted Z.le clusters /\ NoDup clusters /\ (forall c, c ∈ clusters <-> c ∈ labels.*1) /\
    pairs = concat ((fun cd => pair cd.1 <$> bm_list cd.2) <$> samples) /\
    length rows = length pairs /\
    forall i c doc row, pairs !! i = Some (c, doc) -> rows !! i = Some row ->
      exists key content, doc_key d !! doc = Some key /\ render key = Ok content /\
        length row = length header /\
        forall j col, header !! j = Some col -> exists x, row !! j = Some x /\
          match col with
          | ColKey => x = CKey key
          | ColSampled => x = CCluster c
          | ColField s => x = default CBlank (CText <$> content !! s)
          | ColCluster k => x = CMark /\ (exists docs, (k, docs) ∈ labels /\ doc ∈ docs) \/
                            x = CBlank /\ ~ (exists docs, (k, docs) ∈ labels /\ doc ∈ docs)
          end.
Proof.
  intros d render fields samples labels Hinj Hren.
  destruct (export_spec d render fields samples labels Hinj Hren) as (rows & Hr & Hf).
  exists (export_header fields labels), rows, (z_list (list_to_set labels.*1)), (concat ((fun cd => pair cd.1 <$> bm_list cd.2) <$> samples)).
  split_and!; [done|done|apply ClusterProofs.sorted_z_list|apply ClusterProofs.NoDup_z_list| |done| |].
  - intros c. by rewrite ClusterProofs.elem_of_z_list, elem_of_list_to_set.
  - symmetry. eapply Forall2_length, Hf.
  - intros i c doc row Hi Hrow.
    destruct (Forall2_lookup_lr _ _ _ _ _ _ Hf Hi Hrow) as (key & content & Hk & Hc & ->). cbn [fst snd] in *.
    exists key, content. split_and!; [done|done|by rewrite fmap_length|].
    intros j col Hj. eexists. split; [by rewrite list_lookup_fmap, Hj|].
    destruct col as [| |s|k]; cbn [export_cell]; [done|done|by destruct (content !! s)|].
    assert (Exists (fun cd : Z * bitmap => cd.1 = k /\ doc ∈ cd.2) labels <-> exists docs, (k, docs) ∈ labels /\ doc ∈ docs) as Hiff.
    { rewrite Exists_exists. split.
      - intros ([k' docs] & Hin & <- & Hd). eauto.
      - intros (docs & Hin & Hd). by exists (k, docs). }
    case_bool_decide as H; rewrite Hiff in H; [left|right]; done.
Qed.
Print Assumptions C44_export.

Example C44_example :
  let render := fun v : value => match v with VText s => Ok {["text" := s]} | _ => Err IndexError end in
  (forall doc, doc ∈ [0;1;2]%N -> is_Some (doc_key (disk conn1) !! doc)) /\
  export_document_sample (disk conn1) render ["text"] [(4, {[0;2]}%N); (7, {[1]}%N)]%Z [(7, {[1;2]}%N)]%Z =
  Ok ([ColKey; ColSampled; ColField "text"; ColCluster 7],
      [[CKey (t "k0"); CCluster 4; CText "k0"; CBlank];
       [CKey (t "k2"); CCluster 4; CText "k2"; CMark];
       [CKey (t "k1"); CCluster 7; CText "k1"; CMark]]).
Proof.
  cbv zeta. split; [|by_computation]. apply Forall_forall. by_computation.
Qed.

(** C45. [around vs w i]: the values at most [w] positions away from position [i];
    [positions_of vs x]: the positions of [x], increasing. *)
Theorem C45_feature_windows : forall d c q refs w,
  (forall i j k, doc_key d !! i = Some k -> doc_key d !! j = Some k -> i = j) ->
  (forall doc, doc ∈ q -> exists k fs, doc_key d !! doc = Some k /\ corpus_lookup c k = Some (Ok fs) /\ NoDup fs.*1) ->
  let refers r F v := match r with
    | ById f => exists row, inverted_index d !! f = Some row /\ f_field row = F /\ f_value row = v
    | ByKey F' v' => F' = F /\ v' = v
    end in
  (forall r, r ∈ refs -> exists F v, refers r F v) ->
  exists out, feature_windows d c q refs w = Ok out /\
    NoDup out.*1.*2 /\ (forall doc, doc ∈ q <-> doc ∈ out.*1.*2) /\
    (forall k doc wins, (k, doc, wins) ∈ out ->
       doc_key d !! doc = Some k /\ exists fs, corpus_lookup c k = Some (Ok fs) /\
       forall F v ws, (exists m, (F, m) ∈ wins /\ m !! v = Some ws) <->
         (exists r, r ∈ refs /\ refers r F v) /\
         (exists fv, (F, fv) ∈ fs /\
            match fv with
            | Seq vs => positions_of vs (Some v) <> [] /\ ws = around vs w <$> positions_of vs (Some v)
            | Coll vs => Some v ∈ vs /\ ws = []
            end)).
Proof. exact feature_windows_spec. Qed.
Print Assumptions C45_feature_windows.

Example C45_example :
  let x := Some (t "a") in let y := Some (t "b") in let z := Some (t "c") in
  feature_windows (disk conn1) corpus1 {[0;2]}%N [ByKey "text" (t "b"); ByKey "text" (t "a")] 1 =
  Ok [(t "k0", 0%N, [("text", <[t "b" := [[x; y; x]]]> {[t "a" := [[x; y]; [y; x]]]})]);
      (t "k2", 2%N, [("text", {[t "b" := [[y; z]]]})])] /\
  positions_of [x; y; x] x = [0; 2] /\ around [x; y; x] 1 2 = [y; x].
Proof. by_computation. Qed.

(** C52 *)
Theorem C52_graph_partial : forall rnd d top_k with_field arrival,
  quiet d -> arrival ≡ₚ seq 0 (size (dom (cluster d))) ->
  with_field = true \/ (forall c r, c ∈ dom (cluster d) -> r ∈ cluster_features d c (Some top_k) -> exists s, r.1.2 = VText s) ->
  exists g, cooccurrence_graph rnd d top_k with_field arrival = Ok g /\
    (forall c n label, g_nodes g !! c = Some (n, label) <->
       c ∈ dom (cluster d) /\ n = N.of_nat (size (cluster_documents d c)) /\
       label = (fun r => (if with_field then Some r.1.1.2 else None, r.1.2)) <$> cluster_features d c (Some top_k)) /\
    (forall a b w, g_edges g !! (a, b) = Some w <->
       (a < b)%Z /\ a ∈ dom (cluster d) /\ b ∈ dom (cluster d) /\
       cluster_documents d a ∩ cluster_documents d b ≠ ∅ /\
       w = similarity rnd (cluster_documents d a) (cluster_documents d b)).
Proof. exact graph_spec. Qed.
Print Assumptions C52_graph_partial.
(** It raises in the only other case: a label that shows a value which is not a text, without
    the field names. *)
Theorem C52_raises_otherwise : forall rnd d top_k arrival c r,
  c ∈ dom (cluster d) -> r ∈ cluster_features d c (Some top_k) -> (forall s, r.1.2 <> VText s) ->
  cooccurrence_graph rnd d top_k false arrival = Err TypeError.
Proof. exact graph_raises. Qed.
Print Assumptions C52_raises_otherwise.

(** The hypothesis on labels is needed: without the field names an integer value raises. *)
Definition int_index : db := set_inverted_index {[1%N := FeatureRow "n" (VInt 3) 1 {[0]}%N]} empty_db.
Definition int_conn : conn := (create_cluster_from_features [1%N] (open_index int_index pool_ok)).1.
Theorem C52_integer_labels_refuted :
  ~ (forall rnd d top_k with_field arrival, quiet d -> arrival ≡ₚ seq 0 (size (dom (cluster d))) ->
      exists g, cooccurrence_graph rnd d top_k with_field arrival = Ok g).
Proof.
  intros H.
  assert (quiet int_index) as Hq0 by (apply quiet_unclustered; by_computation).
  assert (quiet (disk int_conn)) as Hq.
  { assert (forall f, f ∈ [1%N] -> is_Some (inverted_index int_index !! f)) as Hk.
    { intros f Hf. apply elem_of_list_singleton in Hf as ->. by_computation. }
    destruct (create_call [1%N] (open_index int_index pool_ok) (idle_open _ _) (quiet_usable _ Hq0) eq_refl Hk)
      as (id & _ & c' & Hc & _ & Hq' & _). unfold int_conn. by rewrite Hc. }
  destruct (H exact_division (disk int_conn) 1 false [0] Hq) as [g Hg].
  { assert (size (dom (cluster (disk int_conn))) = 1) as -> by by_computation. done. }
  assert (rmap (fun _ => 0) (cooccurrence_graph exact_division (disk int_conn) 1 false [0]) = Err TypeError) as E by by_computation.
  rewrite Hg in E. discriminate E.
Qed.
Print Assumptions C52_integer_labels_refuted.

Example C52_example :
  quiet sample_db /\ size (dom (cluster sample_db)) = 2 /\
  rmap (fun g => (g_edges g, fst <$> g_nodes g)) (cooccurrence_graph exact_division sample_db 2 false [1;0]) =
  Ok ({[(0, 1)%Z := Qfrac 5 6]}, <[0%Z := 6%N]> {[1%Z := 5%N]}).
Proof. split; [apply sample_db_quiet|by_computation]. Qed.
