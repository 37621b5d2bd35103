(** PropertiesScript.v: C65 (a new model is always finished) and C116: create, index and
    model, one after another. Vocabulary: SpecCommands.v, SpecScript.v. *)
From stdpp Require Import pretty.
From Verif Require Import SampleDb PropertiesIndexing PropertiesCorpus PropertiesCsv CorpusCalls CommandProofs
  RefineCount PropertiesCluster PropertiesRefine PropertiesCount PropertiesCli PropertiesCommands SpecScript.

Lemma length_cluster_ids d : length (cluster_ids d) = size (dom (cluster d)).
Proof.
  unfold cluster_ids. rewrite <- (size_list_to_set (C := gset Z)) by apply NoDup_z_list. f_equal. apply set_eq. intros x.
  by rewrite elem_of_list_to_set, elem_of_z_list.
Qed.

(** Without a model, or with --restart confirmed, the command ends normally, with at most
    as many clusters as asked for. *)
Theorem C65_new_model_succeeds : forall o yes g1 g2 c,
  idle c -> quiet (disk c) -> (forall n, pool c n = None) ->
  ~ has_model (disk c) \/ (m_restart o = true /\ yes = true) ->
  NoDup (m_include_fields o) -> (match m_clusters o with Some n => 0 <= n | None => True end)%Z ->
  (1 <= m_iterations o)%Z -> 1 <= m_top_k o \/ m_batches o = Some 0 ->
  exists c', cli_model o yes g1 g2 c = (c', Finished) /\
    (Z.of_nat (length (cluster_ids (disk c'))) <=
     match m_clusters o with Some n => if (n =? 0)%Z then 64 else n | None => 64 end)%Z.
Proof.
  intros o yes g1 g2 c Hi Hq Hp Hcase Hnd Hn Hit Hk.
  assert (cli_model o yes g1 g2 c = run_initialise o g1 g2 c) as ->.
  { unfold cli_model. destruct Hcase as [Hm|[Hr ->]].
    - rewrite (has_model_iff c Hi Hq) in Hm. by rewrite bool_decide_eq_false_2.
    - rewrite Hr. by case_bool_decide. }
  unfold run_initialise. change (match m_clusters o with Some n => if (n =? 0)%Z then 64 else n | None => 64 end)%Z
    with (clusters_or_default (m_clusters o)).
  assert (1 <= clusters_or_default (m_clusters o))%Z as Hc1.
  { unfold clusters_or_default. destruct (m_clusters o) as [n|]; [|lia]. destruct (n =? 0)%Z eqn:E; [lia|]. apply Z.eqb_neq in E. lia. }
  set (t := clusters_or_default (m_clusters o)) in *.
  destruct (C22_initialise_clusters (Z.to_nat t) (m_min_docs o) (m_include_fields o) g1 c Hi (quiet_usable _ Hq) (Hp _) ltac:(lia) Hnd)
    as (c1 & Ec1 & Hi1 & Hq1 & Hs & (B1 & B2 & _ & B4 & B5) & _).
  pose proof (HistoryProofs.pool_run_write (Initialise (Z.to_nat t) (m_min_docs o) (m_include_fields o) g1) c) as Hpool. cbn [run_write] in Hpool.
  rewrite Ec1 in Hpool |- *. cbn in Hpool.
  assert (pool_works c1) as Hp1 by (unfold pool_works; rewrite Hpool; apply Hp).
  set (d1 := disk c1) in *.
  assert (forall x, x ∈ dom (cluster d1) -> members d1 x ≠ ∅) as Hmem.
  { intros x Hx. destruct Hq1 as (_ & _ & Hm & _). apply Hm. by apply elem_of_dom. }
  assert (selected_clusters d1 None = dom (cluster d1)) as Hsel.
  { apply set_eq. intros x. unfold selected_clusters. rewrite elem_of_filter. split; [by intros [_ ?]|]. intros Hx.
    split; [|done]. split; [by apply Hmem|by left]. }
  assert (free_clusters d1 None = selected_clusters d1 None) as Hfree.
  { apply set_eq. intros x. unfold free_clusters. rewrite elem_of_filter. split; [by intros [_ ?]|]. intros Hx. split; [apply B5|done]. }
  assert (Z.of_nat (size (dom (cluster d1))) <= t)%Z as Hsz.
  { assert (dom (cluster d1) ⊆ (list_to_set (z_range 0 t) : gset Z)) as Hsub.
    { intros x Hx. apply elem_of_list_to_set, elem_of_z_range. pose proof (Hmem x Hx) as Hne.
      apply set_choose_L in Hne as [f Hf]. apply assigned_members in Hf. apply B2 in Hf. lia. }
    apply subseteq_size in Hsub. rewrite size_list_to_set, length_z_range in Hsub by apply NoDup_z_range. lia. }
  set (a := refine_options o (Some t)).
  assert (r_selection a = None) as Esel by done. assert (r_target a = Some t) as Etar by done.
  assert (1 <= r_iterations a) as Hita by (unfold a, refine_options; cbn; lia).
  destruct (C115_raising_target a g2 c1 t Hi1 (quiet_usable _ Hq1) Hp1 Hita Hk Etar) as (c2 & Ec2 & _).
  { fold d1. by rewrite Esel, Hsel. }
  { fold d1. rewrite Esel. destruct (decide (dom (cluster d1) = ∅)) as [He|Hne]; [right; by rewrite Hsel|left].
    apply set_choose_L in Hne as [x Hx]. pose proof (Hmem x Hx) as Hne. apply set_choose_L in Hne as [f Hf].
    exists f, x. split; [by apply assigned_members|]. split; [by rewrite Hfree, Hsel|apply B4]. }
  unfold run_refine. fold a. exists c2. rewrite Ec2. split; [done|].
  destruct (C115_at_most_target_partial a g2 c1 t ∅ Hi1 (quiet_usable _ Hq1) Hp1 Etar) as [(e & c3 & E & _)|(c3 & E & _ & _ & _ & Hcount & _)].
  - fold d1. rewrite Esel, Hfree. lia.
  - fold d1. rewrite Esel. intros x. split; [by intros ?%elem_of_empty|]. intros [_ [Hx|(f & _ & Hf)]]; [by rewrite B5 in Hx|by rewrite B4 in Hf].
  - rewrite Ec2 in E. discriminate E.
  - rewrite Ec2 in E. injection E as <-. fold d1 in Hcount. rewrite Esel, Hsel, size_empty in Hcount. rewrite (length_cluster_ids d1) in Hcount. lia.
Qed.
Print Assumptions C65_new_model_succeeds.

(** ** C116 *)

(** What an index command leaves, besides the searches: every feature with a document is
    a word, and its field is summarised. *)
Lemma plain_features bsz pos tok m s cn cn' : index_ready cn -> complete s (length (batches bsz (pt_corpus tok m))) ->
  run_index bsz pos (pt_corpus tok m) s cn = (cn', Ok tt) -> features_unique (inverted_index (disk cn')) ->
  forall f row, inverted_index (disk cn') !! f = Some row ->
    is_Some (field_summary (disk cn') !! f_field row) /\
    (f_doc_ids row ≠ ∅ -> f_field row = "text" /\ exists w, f_value row = VText w).
Proof.
  intros Hr Hc Hrun Hu f row Hf. split.
  - destruct (C13_field_summary_partial bsz pos _ s cn cn' Hr Hc Hrun) as [_ HF]. specialize (HF (f_field row)).
    destruct (field_summary (disk cn') !! f_field row); [by eexists|]. exfalso. apply (HF (f_value row)).
    exists f. unfold lookup_feature. by rewrite Hf.
  - intros Hne. apply set_choose_L in Hne as [doc Hdoc].
    destruct (C06_boolean_index_exact bsz pos _ s cn cn' Hr Hc Hrun (f_field row) (f_value row)) as (docs & Hg & Hiff & _).
    unfold getitem in Hg. rewrite (proj2 (find_feature_iff _ (f_field row, f_value row) f Hu)) in Hg by (exists row; done).
    rewrite Hf in Hg. injection Hg as <-. apply Hiff in Hdoc as (key & fs & Hl & fv & Hin & Hv).
    apply pt_corpus_lookup in Hl as (k & txt & _ & _ & _ & H3). destruct txt as [z|txt]; cbn in H3; [discriminate H3|]. injection H3 as ->.
    apply elem_of_list_singleton in Hin as [= -> ->]. split; [done|]. cbn in Hv.
    apply elem_of_list_fmap in Hv as (w & [= ->] & _). eauto.
Qed.

(** The documents of a word and their keys. *)
Lemma word_docs tok d m w (keys docs : gset N) : is_index_of tok d m ->
  (forall k, k ∈ keys <-> exists txt, m !! k = Some (VText txt) /\ w ∈ tok txt) ->
  (forall doc, doc ∈ docs <-> exists k txt, doc_key d !! doc = Some (VInt (Z.of_N k)) /\ m !! k = Some (VText txt) /\ w ∈ tok txt) ->
  size keys = size docs.
Proof.
  intros (H1 & H2 & _) Hk Hd.
  set (key := fun doc => match doc_key d !! doc with Some (VInt z) => Z.to_N z | _ => 0%N end).
  assert (keys = set_map key docs) as ->.
  { apply set_eq. intros k. rewrite elem_of_map, Hk. split.
    - intros (txt & Hm & Hw). destruct (proj1 (H1 k) ltac:(eauto)) as [doc Hdoc]. exists doc. split.
      + unfold key. rewrite Hdoc. lia.
      + apply Hd. eauto.
    - intros (doc & -> & Hdoc). apply Hd in Hdoc as (k & txt & Hkey & Hm & Hw). unfold key. rewrite Hkey, N2Z.id. eauto. }
  assert (forall a b, a ∈ docs -> b ∈ docs -> key a = key b -> a = b) as Hinj.
  { intros a b Ha Hb. apply Hd in Ha as (ka & _ & Ea & _), Hb as (kb & _ & Eb & _). unfold key. rewrite Ea, Eb, !N2Z.id.
    intros ->. by apply (H2 a b (VInt (Z.of_N kb))). }
  clear -Hinj. induction docs as [|x X Hx IH] using set_ind_L; [by rewrite set_map_empty|].
  rewrite set_map_union_L, set_map_singleton_L, !size_union.
  - rewrite IH; [by rewrite !size_singleton|]. intros a b Ha Hb. apply Hinj; set_solver.
  - set_solver.
  - intros y Hy1 Hy2. apply elem_of_singleton in Hy1 as ->. apply elem_of_map in Hy2 as (z & Hz & Hzx).
    assert (x = z) as -> by (apply Hinj; set_solver). done.
Qed.

Lemma text_to_index limit tok parse linesep lines l text corpus index bsz pos sched p garbage fs :
  fs !! text = Some (PlainFile l) -> text_file lines l ->
  (forall x, x ∈ lines -> one_line x /\ quote ∉ chars x /\ String.length x <= limit) ->
  filter (fun x => ~ only_whitespace x) (before_comma <$> lines) ≠ [] ->
  (absent fs corpus \/ exists f docs, fs !! corpus = Some (DbFile f docs)) ->
  (absent fs index \/ exists d, index_at fs index d /\ quiet d /\ features_unique (inverted_index d)) ->
  corpus ≠ index ->
  (forall n, complete (sched n) n) -> (forall n i, fault (sched n) i = None) -> p 0 = None ->
  exists fs' m cn cn',
    run_commands limit tok parse linesep [Create text corpus garbage; BuildIndex corpus index bsz pos sched p] fs
      = (fs', [Done; Done]) /\
    documents_at fs' corpus m /\ numbered (VText <$> filter (fun x => ~ only_whitespace x) (before_comma <$> lines)) m /\
    index_at fs' index (disk cn') /\ quiet (disk cn') /\ index_ready cn /\ index_ready cn' /\
    complete (sched (length (batches bsz (pt_corpus tok m)))) (length (batches bsz (pt_corpus tok m))) /\
    run_index bsz pos (pt_corpus tok m) (sched (length (batches bsz (pt_corpus tok m)))) cn = (cn', Ok tt) /\
    (absent fs index -> disk cn = empty_db).
Proof.
  intros Ht Hl Hlines Hne Hcor Hidx Hdiff Hs Hf Hp.
  cbn [run_commands run_command]. unfold run_create. rewrite Ht.
  assert (exists f docs, as_database (fs !! corpus) = Some (f, docs)) as (f & docs & ->).
  { destruct Hcor as [[-> | ->]|(f & docs & ->)]; eexists _, _; reflexivity. }
  destruct (C62_first_column limit lines l (PtDb (doc_table_of f docs) None) eq_refl Hl Hlines) as (m & Em & Hn).
  unfold plaintext_create_file in Em. rewrite Em. cbn [pt_disk end_of].
  set (fs1 := <[corpus := _]> fs).
  assert (exists fi di, open_path index fs1 = (<[index := DbFile fi di]> fs1, inl (fi, di)) /\ is_current fi /\
    quiet (rows fi) /\ features_unique (inverted_index (rows fi)) /\ (absent fs index -> rows fi = empty_db)) as (fi & di & Ho & Hc & Hq & Hu & He).
  { assert (fs1 !! index = fs !! index) as E by (unfold fs1; by rewrite lookup_insert_ne).
    destruct Hidx as [Ha|(d & (fi & di & E1 & Hc & <-) & Hq & Hu)].
    - destruct (open_path_absent index fs1) as (fi & Ho & Hc & Hr); [unfold absent; by rewrite E|].
      exists fi, ∅. rewrite Hr. split; [exact Ho|]. split; [exact Hc|].
      destruct conn0_ready as ((_ & _ & H2) & H1 & _). split; [exact H1|]. split; [exact H2|done].
    - exists (set_wal fi), di. split; [apply open_path_current; [by rewrite E|exact Hc]|]. split; [exact Hc|]. split; [exact Hq|].
      split; [exact Hu|]. intros [Ha|Ha]; rewrite E1 in Ha; discriminate Ha. }
  unfold run_index_command. unfold fs1 at 1. rewrite lookup_insert, Ho.
  assert (<[index := DbFile fi di]> fs1 !! corpus = fs1 !! corpus) as -> by (by rewrite lookup_insert_ne).
  assert (exists fc, fs1 !! corpus = Some (DbFile fc m) /\ tables fc !! "doc" = Some doc_columns) as (fc & Efc & Hfc).
  { unfold fs1. rewrite lookup_insert. eexists. split; [reflexivity|]. cbn [tables set_tables]. by rewrite lookup_insert. }
  rewrite Efc. cbn [as_database]. unfold doc_table_of at 1. rewrite bool_decide_eq_true_2 by exact Hfc. cbv zeta.
  set (s := sched (length (batches bsz (pt_corpus tok m)))).
  assert (complete s (length (batches bsz (pt_corpus tok m)))) as Hcomp by apply Hs.
  assert (index_ready (open_index (rows fi) p)) as Hready.
  { split; [apply idle_open|]. split; [by apply quiet_usable|exact Hu]. }
  destruct (C06_indexing_succeeds bsz pos (pt_corpus tok m) s (open_index (rows fi) p) Hready Hq Hp
    (plain_well_formed tok _ m pos Hne Hn) Hcomp (Hf _)) as (cn' & Hrun & Hr' & Hq').
  rewrite Hrun. cbn [end_of]. eexists _, m, (open_index (rows fi) p), cn'. split; [reflexivity|]. split.
  { exists fc. unfold store. rewrite !lookup_insert_ne by done. done. }
  split; [exact Hn|]. split.
  { exists (set_rows (disk cn') fi), di. unfold store. rewrite lookup_insert. split; [done|]. split; [exact Hc|done]. }
  split; [exact Hq'|]. split; [exact Hready|]. split; [exact Hr'|]. split; [exact Hcomp|]. split; [exact Hrun|exact He].
Qed.

(** From a text file to a model. *)
Theorem C116_text_to_model : forall limit tok parse linesep lines l text corpus index bsz pos sched p garbage o yes g1 g2 p2 fs,
  fs !! text = Some (PlainFile l) -> text_file lines l ->
  (forall x, x ∈ lines -> one_line x /\ quote ∉ chars x /\ String.length x <= limit) ->
  filter (fun x => ~ only_whitespace x) (before_comma <$> lines) ≠ [] ->
  (absent fs corpus \/ exists f docs, fs !! corpus = Some (DbFile f docs)) ->
  absent fs index \/
    (m_restart o = true /\ yes = true /\ exists d, index_at fs index d /\ quiet d /\ features_unique (inverted_index d)) ->
  corpus ≠ index ->
  (forall n, complete (sched n) n) -> (forall n i, fault (sched n) i = None) -> p 0 = None -> (forall n, p2 n = None) ->
  (1 <= m_iterations o)%Z -> 1 <= m_top_k o \/ m_batches o = Some 0 -> (1 <= m_min_docs o)%Z ->
  (match m_clusters o with Some n => 0 < n | None => True end)%Z ->
  NoDup (m_include_fields o) -> m_include_fields o = [] \/ "text" ∈ m_include_fields o ->
  exists fs' m d,
    run_commands limit tok parse linesep
      [Create text corpus garbage; BuildIndex corpus index bsz pos sched p; Model index o yes g1 g2 p2] fs
      = (fs', [Done; Done; Done]) /\
    documents_at fs' corpus m /\ numbered (VText <$> filter (fun x => ~ only_whitespace x) (before_comma <$> lines)) m /\
    index_at fs' index d /\ quiet d /\ features_unique (inverted_index d) /\ is_index_of tok d m /\
    models_words tok d m (m_min_docs o) (match m_clusters o with Some n => n | None => 64 end).
Proof.
  intros limit tok parse linesep lines l text corpus index bsz pos sched p garbage o yes g1 g2 p2 fs Ht Hl Hlines Hne Hcor Hidx Hdiff Hs Hf Hp Hp2
    Hit Hk Hmd Hcl Hnd Hinc.
  destruct (text_to_index limit tok parse linesep lines l text corpus index bsz pos sched p garbage fs Ht Hl Hlines Hne Hcor)
    as (fs1 & m & cn & cn' & Hrun & Hdocs & Hnum & (fi & di & Efi & Hcur & Hrows) & Hq & Hready & (_ & _ & Hu) & Hcomp & Hindex & Hnew);
    [destruct Hidx as [?|(_ & _ & ?)]; [by left|by right]|done|done|done|done|].
  change [Create text corpus garbage; BuildIndex corpus index bsz pos sched p; Model index o yes g1 g2 p2]
    with ([Create text corpus garbage; BuildIndex corpus index bsz pos sched p] ++ [Model index o yes g1 g2 p2]).
  rewrite run_commands_app, Hrun. cbn [run_commands run_command]. unfold run_model. rewrite Efi.
  rewrite (open_path_current index fs1 fi di Efi Hcur). change (rows (set_wal fi)) with (rows fi). rewrite Hrows.
  set (d0 := disk cn') in *. set (c0 := open_index d0 p2).
  assert (idle c0) as Hi0 by apply idle_open. assert (disk c0 = d0) as Hd0 by done.
  assert (~ has_model (disk c0) \/ (m_restart o = true /\ yes = true)) as Hcase.
  { destruct Hidx as [Ha|(? & ? & _)]; [left|by right]. intros [f Hf0]. rewrite Hd0 in Hf0.
    destruct (C71_reindexing_keeps_the_model bsz pos _ _ cn cn' (Ok tt) d0 Hready Hcomp Hindex ltac:(by left)) as [Hkeep _].
    rewrite Hkeep, (Hnew Ha) in Hf0. unfold assigned in Hf0. change (feature_cluster empty_db) with (∅ : gmap N fc_row) in Hf0.
    rewrite lookup_empty in Hf0. by destruct Hf0. }
  assert (match m_clusters o with Some n => (0 <= n)%Z | None => True end) as Hcl0 by (destruct (m_clusters o); [lia|done]).
  destruct (C65_new_model_succeeds o yes g1 g2 c0 Hi0 Hq Hp2 Hcase Hnd Hcl0 Hit Hk) as (c' & Ec & Hcount).
  destruct (C65_new_model o yes g1 g2 c0 c' Finished Hi0 Hq Hp2 Hcase Hnd Hcl0 Ec) as (_ & Hq' & Hsame & Helig & _).
  rewrite Ec. exists (store index (set_wal fi) di (disk c') (<[index:=DbFile (set_wal fi) di]> fs1)), m, (disk c').
  split; [reflexivity|]. split.
  { destruct Hdocs as (fc & H1 & H2). exists fc. unfold store. rewrite !lookup_insert_ne by done. done. }
  split; [done|]. split.
  { exists (set_rows (disk c') (set_wal fi)), di. unfold store. rewrite lookup_insert. split; [done|]. split; [exact Hcur|done]. }
  split; [done|].
  pose proof (indexed_is_index bsz pos tok m _ cn cn' Hready Hcomp Hindex) as Hidx0. fold d0 in Hidx0.
  assert (is_index_of tok (disk c') m) as Hidx' by (by eapply is_index_of_same).
  split; [destruct Hsame as (_ & -> & _); rewrite Hd0; exact Hu|].
  split; [done|].
  (* features and words *)
  set (d := disk c') in *. rewrite Hd0 in Hsame, Helig. pose proof Hsame as (Ekey & Eii & _ & _ & Efs).
  pose proof (plain_features bsz pos tok m _ cn cn' Hready Hcomp Hindex Hu) as Hfeat. fold d0 in Hfeat. fold d0 in Hu.
  assert (forall f row, inverted_index d0 !! f = Some row -> f_docs_count row = N.of_nat (size (f_doc_ids row))) as Hcnt.
  { destruct Hq as ((_ & H & _) & _). exact H. }
  assert (forall f x, assigned d f = Some x -> exists w, lookup_feature_id d ("text", VText w) = Ok f) as Hword.
  { intros f x Hx. destruct (proj1 (Helig f) ltac:(by rewrite Hx)) as (row & Hrow & Hmin & _).
    destruct (Hfeat f row Hrow) as [_ Hw]. destruct Hw as (Efield & w & Ev).
    { intros Hemp. rewrite (Hcnt f row Hrow), Hemp, size_empty in Hmin. lia. }
    exists w. unfold lookup_feature_id. rewrite Eii.
    rewrite (proj2 (find_feature_iff _ ("text", VText w) f Hu)); [done|]. exists row. split; [done|]. unfold row_key. by rewrite Efield, Ev. }
  assert (forall w f, lookup_feature_id d ("text", VText w) = Ok f -> exists row, inverted_index d0 !! f = Some row /\ f_field row = "text" /\
    forall doc, doc ∈ f_doc_ids row <-> exists k txt, doc_key d !! doc = Some (VInt (Z.of_N k)) /\ m !! k = Some (VText txt) /\ w ∈ tok txt) as Hlook.
  { intros w f Hf0. unfold lookup_feature_id in Hf0. rewrite Eii in Hf0.
    destruct (find_feature (inverted_index d0) ("text", VText w)) as [f'|] eqn:Eff; [|discriminate Hf0]. injection Hf0 as ->.
    destruct (proj1 (find_feature_iff _ _ f Hu) Eff) as (row & Hrow & Hkey). exists row. split; [done|].
    split; [by injection Hkey as -> _|]. destruct Hidx' as (_ & _ & Hget). destruct (Hget w) as (docs & Hg & Hiff).
    unfold getitem in Hg. rewrite Eii, Eff, Hrow in Hg. injection Hg as <-. exact Hiff. }
  assert (forall x, x ∈ cluster_ids d <-> members d x ≠ ∅) as Hids by (intros x; exact (quiet_cluster_ids d x (proj2 Hq'))).
  split.
  - intros w keys Hkeys. split.
    + intros (x & f & Hf0 & Hx). destruct (Hlook w f Hf0) as (row & Hrow & _ & Hiff).
      destruct (proj1 (Helig f) ltac:(by rewrite Hx)) as (row' & Hrow' & Hmin & _). rewrite Hrow in Hrow'. injection Hrow' as <-.
      rewrite (word_docs tok d m w keys (f_doc_ids row) Hidx' Hkeys Hiff). rewrite (Hcnt f row Hrow) in Hmin. lia.
    + intros Hmin. destruct Hidx' as (I1 & I2 & I3). destruct (I3 w) as (docs & Hg & Hiff).
      pose proof (word_docs tok d m w keys docs (conj I1 (conj I2 I3)) Hkeys Hiff) as Hsize.
      unfold getitem in Hg. rewrite Eii in Hg.
      destruct (find_feature (inverted_index d0) ("text", VText w)) as [f|] eqn:Eff.
      2:{ injection Hg as <-. rewrite size_empty in Hsize. lia. }
      destruct (proj1 (find_feature_iff _ _ f Hu) Eff) as (row & Hrow & Hkey). rewrite Hrow in Hg. injection Hg as Hg.
      assert (eligible d0 (m_min_docs o) (m_include_fields o) f) as Hel.
      { exists row. split; [done|]. split; [rewrite (Hcnt f row Hrow), Hg, <- Hsize; lia|].
        assert (f_field row = "text") as Efield by (by injection Hkey as -> _).
        destruct (m_include_fields o) as [|F Fs]; [by apply (Hfeat f row)|]. destruct Hinc as [?|Hin]; [done|]. by rewrite Efield. }
      apply Helig in Hel as [x Hx]. exists x, f. split; [|done]. unfold lookup_feature_id. by rewrite Eii, Eff.
  - intros f x Hx. destruct (Hword f x Hx) as [w Hw]. exists w. split; [by exists f|done].
  - intros w x y (f & Hf1 & Hx) (f' & Hf2 & Hy). congruence.
  - intros x. rewrite Hids. split.
    + intros Hm. apply set_choose_L in Hm as [f Hfm]. apply assigned_members in Hfm. destruct (Hword f x Hfm) as [w Hw]. by exists w, f.
    + intros (w & f & _ & Hx). apply assigned_members in Hx. intros He. rewrite He in Hx. set_solver.
  - destruct (m_clusters o) as [n|]; [|exact Hcount]. destruct (n =? 0)%Z eqn:E0; [apply Z.eqb_eq in E0; lia|exact Hcount].
  - intros x Hx. unfold cluster_ids in Hx. apply elem_of_z_list, elem_of_dom in Hx as [row Hrow].
    destruct (proj1 (proj2 Hq') x row Hrow) as (_ & (docs & Edocs & Hdoc & _) & _).
    exists docs. unfold cluster_docs. rewrite Hrow, Edocs. split; [done|]. intros doc. rewrite Hdoc. split.
    + intros (f & Hfm & Hfd). apply assigned_members in Hfm. destruct (Hword f x Hfm) as [w Hw].
      destruct (Hlook w f Hw) as (r & Hr & _ & Hiff). unfold feature_docs in Hfd. rewrite Eii, Hr in Hfd.
      destruct (proj1 (Hiff doc) Hfd) as (k & txt & H1 & H2 & H3). exists w, k, txt. split; [by exists f|]. done.
    + intros (w & k & txt & (f & Hw & Hx) & H1 & H2 & H3). exists f. split; [by apply assigned_members|].
      destruct (Hlook w f Hw) as (r & Hr & _ & Hiff). unfold feature_docs. rewrite Eii, Hr. apply Hiff. eauto.
Qed.
Print Assumptions C116_text_to_model.

(** A case: three lines, one of them blank; a first model, and one more with --restart. *)
Definition shop_model (restart : bool) : list command :=
  [Create "notes.txt" "notes.db" []; shop_index "notes.db";
   Model "notes.idx" (ModelOptions 2 (Some 2%Z) 1 ["text"] restart (Qof 1 / Qof 20)%Qc 1 None 2) true rng0 rng0 pool_ok].
Example C116_example :
  absent shop "notes.idx" /\
  (run_shop (shop_model false ++ shop_model true) shop).2 = [Done; Done; Done; Done; Done; Done] /\
  (match (run_shop (shop_model false) shop).1 !! "notes.idx" with
   | Some (DbFile f _) => (length (cluster_ids (rows f)), size (feature_cluster (rows f)))
   | _ => (0, 0) end) = (2, 3).
Proof. split; [by left|]. split; vm_compute; reflexivity. Qed.
