(** PropertiesPostTable.v: C123, exported StackExchange posts read back as the posts; C121 for
    posts that were found. *)
From Verif Require Import SampleDb PropertiesIndexing ScoreProofs ReportProofs PostsProofs CsvProofs PropertiesCsv PropertiesQuery PropertiesReports PropertiesCorpus PropertiesRendered.
From stdpp Require Import pretty.

Lemma lookup_pairs (samples : list (Z * bitmap)) i c doc :
  concat ((fun cd => pair cd.1 <$> bm_list cd.2) <$> samples) !! i = Some (c, doc) -> exists docs, (c, docs) ∈ samples /\ doc ∈ docs.
Proof.
  intros H%elem_of_list_lookup_2%elem_of_list_In%in_concat. destruct H as (l & Hl & Hin).
  apply elem_of_list_In, elem_of_list_fmap in Hl as ([c' docs] & -> & Hs). apply elem_of_list_In, elem_of_list_fmap in Hin as (d & [= -> ->] & Hd).
  exists docs. split; [done|]. by apply elem_of_bm_list.
Qed.

(** ** C123: the file written for a sample is read back as one line for each sampled document:
    its key, the cluster it was sampled from, and the post as it was last. [all]: the keys of
    the corpus, in the order in which they were indexed. *)
Theorem C123_export : forall h order all d samples labels limit,
  orders_sets order -> sx_keys (made_by h) all ->
  (forall i, doc_key d !! N.of_nat i = (fun k => VInt (Z.of_N k)) <$> all !! i) ->
  (forall c docs doc, (c, docs) ∈ samples -> doc ∈ docs -> N.to_nat doc < length all) ->
  exists t, export_document_sample d (post_cells order (made_by h)) post_columns samples labels = Ok t /\
    (fits limit (sample_table t) ->
     exists header lines, csv_read limit (Csv.sample_file [lf] t) = (header :: lines, Ok tt) /\
       let pairs := concat ((fun cd => pair cd.1 <$> bm_list cd.2) <$> samples) in
       length lines = length pairs /\
       forall i c doc, pairs !! i = Some (c, doc) ->
         exists line k url x, lines !! i = Some line /\ all !! N.to_nat doc = Some k /\
           identifies (made_by h) k url (xp_id x) /\
           last_such (fun y => question_or_answer y /\ xp_id y = xp_id x) (posts_in url h) x /\
           let cell name s := exists j, header !! j = Some name /\ line !! j = Some s in
           cell "doc_key" (pretty (Z.of_N k)) /\ cell "sampled_cluster" (pretty c) /\ says_post h url x cell).
Proof.
  intros h order all d samples labels limit Ho Hall Hkeys Hin.
  assert (NoDup all) as Hnd by (unfold sx_keys in Hall; rewrite Hall; apply NoDup_elements).
  assert (forall doc, N.to_nat doc < length all -> exists k url id x, all !! N.to_nat doc = Some k /\ doc_key d !! doc = Some (VInt (Z.of_N k)) /\
    identifies (made_by h) k url id /\ last_such (fun y => question_or_answer y /\ xp_id y = id) (posts_in url h) x) as Hdoc.
  { intros doc Hlt. apply lookup_lt_is_Some_2 in Hlt as [k Hk]. exists k.
    assert (k ∈ all) as Hka by (by eapply elem_of_list_lookup_2). unfold sx_keys in Hall. rewrite Hall in Hka.
    apply made_row in Hka as (url & id & Hid). destruct (made_document h url id k Hid) as (x & _ & Hl & _). exists url, id, x.
    split; [done|]. split; [|done]. specialize (Hkeys (N.to_nat doc)). by rewrite N2Nat.id, Hk in Hkeys. }
  destruct (C44_export d (post_cells order (made_by h)) post_columns samples labels) as (header & rows & clusters & pairs & He & Hh & _ & Hcl & _ & Hp & Hlen & Hrows).
  { intros i j k Hi Hj. pose proof (Hkeys (N.to_nat i)) as Ei. pose proof (Hkeys (N.to_nat j)) as Ej. rewrite N2Nat.id in Ei, Ej.
    rewrite Hi in Ei. rewrite Hj in Ej. symmetry in Ei, Ej. apply fmap_Some in Ei as (a & Ha & ->). apply fmap_Some in Ej as (b & Hb & E).
    injection E as E. assert (a = b) as <- by lia. apply N2Nat.inj. eapply NoDup_lookup; eauto. }
  { intros c docs doc Hs Hd. destruct (Hdoc doc (Hin c docs doc Hs Hd)) as (k & url & id & x & _ & Hk & Hid & Hl).
    destruct (post_row_says h url id k x order Ho Hid Hl) as (content & Hc & _). eauto. }
  exists (header, rows). split; [done|]. intros Hfits.
  exists (show_column <$> header), ((fun row : list cell => show_cell <$> row) <$> rows).
  assert (forall i c doc, pairs !! i = Some (c, doc) -> exists row k url x, rows !! i = Some row /\ all !! N.to_nat doc = Some k /\
    identifies (made_by h) k url (xp_id x) /\ last_such (fun y => question_or_answer y /\ xp_id y = xp_id x) (posts_in url h) x /\
    let cell name s := exists j, (show_column <$> header) !! j = Some name /\ (show_cell <$> row) !! j = Some s in
    row ≠ [] /\ cell "doc_key" (pretty (Z.of_N k)) /\ cell "sampled_cluster" (pretty c) /\ says_post h url x cell) as Hline.
  { intros i c doc Hi. assert (is_Some (rows !! i)) as [row Hrow] by (apply lookup_lt_is_Some_2; rewrite Hlen; by eapply lookup_lt_Some).
    destruct (Hrows i c doc row Hi Hrow) as (key & content & Hkey & Hcontent & Hrl & Hcells).
    assert (exists docs, (c, docs) ∈ samples /\ doc ∈ docs) as (docs & Hs & Hd) by (eapply lookup_pairs; by rewrite <- Hp).
    destruct (Hdoc doc (Hin c docs doc Hs Hd)) as (k & url & id & x & Hk & Hdk & Hid & Hl).
    assert (key = VInt (Z.of_N k)) as -> by congruence.
    destruct (post_row_says h url id k x order Ho Hid Hl) as (content' & Hc & Hsays). assert (content' = content) as -> by congruence.
    assert (xp_id x = id) as Eid by (by destruct Hl as (? & ? & _ & [_ ?] & _)). subst id.
    exists row, k, url, x. split_and!; try done. cbv zeta.
    assert (header !! 0 = Some ColKey) as H0 by (by rewrite Hh). assert (header !! 1 = Some ColSampled) as H1 by (by rewrite Hh).
    assert (forall j name, post_columns !! j = Some name -> header !! (2 + j) = Some (ColField name)) as H2.
    { intros j name Hj. rewrite Hh.
      change (((ColField <$> post_columns) ++ (ColCluster <$> clusters)) !! j = Some (ColField name)). rewrite lookup_app_l by (rewrite fmap_length; by eapply lookup_lt_Some).
      by rewrite list_lookup_fmap, Hj. }
    split; [destruct (Hcells 0 _ H0) as (? & E & _); by intros ->|].
    split; [|split].
    - destruct (Hcells 0 _ H0) as (y & E & ->). exists 0. rewrite !list_lookup_fmap, H0, E. done.
    - destruct (Hcells 1 _ H1) as (y & E & ->). exists 1. rewrite !list_lookup_fmap, H1, E. done.
    - assert (forall name s, content !! name = Some s /\ name ∈ post_columns ->
        exists j, (show_column <$> header) !! j = Some name /\ (show_cell <$> row) !! j = Some s) as Hcell.
      { intros name s [Hv Hn]. apply elem_of_list_lookup in Hn as [j Hj]. specialize (H2 j name Hj).
        destruct (Hcells _ _ H2) as (y & E & Hy). cbv beta iota in Hy. rewrite Hv in Hy. cbn in Hy. subst y.
        exists (2 + j). rewrite !list_lookup_fmap, H2, E. done. }
      exact (says_mono _ _ _ _ _ Hcell Hsays). }
  split.
  - unfold Csv.sample_file. rewrite written_lf, sample_table_rows. rewrite <- sample_table_rows in Hfits |- *.
    apply read_rows; [|done]. intros line [->|Hl]%elem_of_cons; [rewrite Hh; done|].
    apply elem_of_list_fmap in Hl as (row & -> & Hrow). apply elem_of_list_lookup in Hrow as [i Hi].
    assert (is_Some (pairs !! i)) as [[c doc] Hpi] by (apply lookup_lt_is_Some_2; rewrite <- Hlen; by eapply lookup_lt_Some).
    destruct (Hline i c doc Hpi) as (row' & k & url & x & E & _ & _ & _ & Hne & _). assert (row' = row) as -> by congruence. by destruct row.
  - cbv zeta. split; [by rewrite fmap_length, Hlen, Hp|]. intros i c doc Hi. rewrite <- Hp in Hi.
    destruct (Hline i c doc Hi) as (row & k & url & x & E & H1 & H2 & H3 & _ & H4 & H5 & H6).
    exists (show_cell <$> row), k, url, x. split; [by rewrite list_lookup_fmap, E|]. done.
Qed.
Print Assumptions C123_export.

(** After indexing the corpus, the documents are the posts in the order of the keys. *)
Theorem C123_after_indexing : forall tokens parse dates h all bsz pos s cn order samples labels limit,
  sx_clean parse dates h -> sx_keys (made_by h) all -> all ≠ [] -> index_ready cn -> quiet (disk cn) -> pool_works cn ->
  (forall i, fault s i = None) -> SpecIndexing.complete s (length (batches bsz (sx_corpus tokens parse dates (made_by h) all))) ->
  orders_sets order ->
  exists cn', run_index bsz pos (sx_corpus tokens parse dates (made_by h) all) s cn = (cn', Ok tt) /\
    ((forall c docs doc, (c, docs) ∈ samples -> doc ∈ docs -> is_Some (doc_key (disk cn') !! doc)) ->
     exists t, export_document_sample (disk cn') (post_cells order (made_by h)) post_columns samples labels = Ok t /\
      (fits limit (sample_table t) ->
       exists header lines, csv_read limit (Csv.sample_file [lf] t) = (header :: lines, Ok tt) /\
         let pairs := concat ((fun cd => pair cd.1 <$> bm_list cd.2) <$> samples) in
         length lines = length pairs /\
         forall i c doc, pairs !! i = Some (c, doc) ->
           exists line k url x, lines !! i = Some line /\ all !! N.to_nat doc = Some k /\
             identifies (made_by h) k url (xp_id x) /\
             last_such (fun y => question_or_answer y /\ xp_id y = xp_id x) (posts_in url h) x /\
             let cell name s := exists j, header !! j = Some name /\ line !! j = Some s in
             cell "doc_key" (pretty (Z.of_N k)) /\ cell "sampled_cluster" (pretty c) /\ says_post h url x cell)).
Proof.
  intros tokens parse dates h all bsz pos s cn order samples labels limit Hcl Hall Hne Hr Hq Hp Hf Hc Ho.
  destruct (sx_search tokens parse dates h all bsz pos s cn Hcl Hall Hne Hr Hq Hp Hf Hc) as (cn' & H1 & H2 & _).
  exists cn'. split; [done|]. intros Hs. apply C123_export; try done. intros c docs doc Hin Hd.
  destruct (Hs c docs doc Hin Hd) as [v Hv]. specialize (H2 (N.to_nat doc)). rewrite N2Nat.id, Hv in H2.
  symmetry in H2. apply fmap_Some in H2 as (k & Hk & _). by eapply lookup_lt_Some.
Qed.
Print Assumptions C123_after_indexing.

(** The sample command (hyperreal stackexchange-corpus sample): what it writes. *)
Theorem C123_sample_command : forall f h order all per g limit,
  let d := rows f in
  application_id f = MAGIC_APPLICATION_ID -> user_version f = 10%Z -> tables f !! "settings" = Some ["key"; "value"] ->
  quiet d -> orders_sets order -> sx_keys (made_by h) all ->
  (forall i, doc_key d !! N.of_nat i = (fun k => VInt (Z.of_N k)) <$> all !! i) ->
  (forall c doc, doc ∈ cluster_documents d c -> is_Some (doc_key d !! doc)) ->
  exists t, cli_sample f (post_cells order (made_by h)) post_columns per g = Ok t /\
    (fits limit (sample_table t) ->
     exists header lines documents, csv_read limit (Csv.sample_file [lf] t) = (header :: lines, Ok tt) /\
       length lines = length documents /\ NoDup documents /\
       ((per <= 0)%Z -> forall c doc, c ∈ dom (cluster d) -> doc ∈ cluster_documents d c -> doc ∈ documents) /\
       forall i doc, documents !! i = Some doc ->
         exists line c k url x, lines !! i = Some line /\ c ∈ dom (cluster d) /\ doc ∈ cluster_documents d c /\
           all !! N.to_nat doc = Some k /\ identifies (made_by h) k url (xp_id x) /\
           last_such (fun y => question_or_answer y /\ xp_id y = xp_id x) (posts_in url h) x /\
           let cell name s := exists j, header !! j = Some name /\ line !! j = Some s in
           cell "doc_key" (pretty (Z.of_N k)) /\ cell "sampled_cluster" (pretty c) /\ says_post h url x cell /\
           forall c', c' ∈ dom (cluster d) -> doc ∈ cluster_documents d c' -> cell ("cluster_" +:+ pretty c')%string "1").
Proof.
  intros f h order all per g limit d Happ Hver Hset Hq Ho Hall Hkeys Hin.
  assert (NoDup all) as Hnd by (unfold sx_keys in Hall; rewrite Hall; apply NoDup_elements).
  assert (forall doc key, doc_key d !! doc = Some key -> exists k url id x, all !! N.to_nat doc = Some k /\ key = VInt (Z.of_N k) /\
    identifies (made_by h) k url id /\ last_such (fun y => question_or_answer y /\ xp_id y = id) (posts_in url h) x) as Hdoc.
  { intros doc key Hk. pose proof (Hkeys (N.to_nat doc)) as E. rewrite N2Nat.id, Hk in E. symmetry in E.
    apply fmap_Some in E as (k & Ha & ->). assert (k ∈ all) as Hka by (by eapply elem_of_list_lookup_2). unfold sx_keys in Hall. rewrite Hall in Hka.
    apply made_row in Hka as (url & id & Hid). destruct (made_document h url id k Hid) as (x & _ & Hl & _). by exists k, url, id, x. }
  destruct (C83_sample_file f (post_cells order (made_by h)) post_columns per g Happ Hver Hset Hq) as
    (header & table & written & clusters & Hc & Hh & _ & _ & Hcl & Hlen & Hnd' & Hw & Hevery & _ & Hrows).
  { intros i j k Hi Hj. destruct (Hdoc _ _ Hi) as (a & _ & _ & _ & Ha & -> & _), (Hdoc _ _ Hj) as (b & _ & _ & _ & Hb & E & _).
    assert (a = b) as <- by (injection E; lia). apply N2Nat.inj. eapply NoDup_lookup; eauto. }
  { intros c doc _ Hd. destruct (Hin c doc Hd) as [key Hk]. destruct (Hdoc _ _ Hk) as (k & url & id & x & _ & -> & Hid & Hl).
    destruct (post_row_says h url id k x order Ho Hid Hl) as (content & Hcont & _). eauto. }
  exists (header, table). split; [done|]. intros Hfits.
  exists (show_column <$> header), ((fun row : list cell => show_cell <$> row) <$> table), written.*2.
  assert (csv_read limit (Csv.sample_file [lf] (header, table)) = (sample_table (header, table), Ok tt)) as Hread by (by eapply C93_sample_file_partial).
  rewrite <- sample_table_rows in Hread. split; [done|]. split; [by rewrite !fmap_length|]. split; [done|]. split; [done|].
  intros i doc Hi. rewrite list_lookup_fmap in Hi. apply fmap_Some in Hi as ([c doc'] & Hi & ->). cbn [snd].
  assert (is_Some (table !! i)) as [row Hrow] by (apply lookup_lt_is_Some_2; rewrite Hlen; by eapply lookup_lt_Some).
  destruct (Hrows i c doc' row Hi Hrow) as (key & content & Hkey & Hcontent & Hrl & Hcells).
  destruct (Hw c doc') as [Hc1 Hc2]; [by eapply elem_of_list_lookup_2|].
  destruct (Hdoc _ _ Hkey) as (k & url & id & x & Hk & -> & Hid & Hl).
  destruct (post_row_says h url id k x order Ho Hid Hl) as (content' & Hcont & Hsays). assert (content' = content) as -> by congruence.
  assert (xp_id x = id) as Eid by (by destruct Hl as (? & ? & _ & [_ ?] & _)). subst id.
  exists (show_cell <$> row), c, k, url, x. split; [by rewrite list_lookup_fmap, Hrow|]. do 5 (split; [done|]). cbv zeta.
  assert (header !! 0 = Some ColKey) as H0 by (by rewrite Hh). assert (header !! 1 = Some ColSampled) as H1 by (by rewrite Hh).
  assert (forall j name, post_columns !! j = Some name -> header !! (2 + j) = Some (ColField name)) as H2.
  { intros j name Hj. rewrite Hh.
    change (((ColField <$> post_columns) ++ (ColCluster <$> clusters)) !! j = Some (ColField name)). rewrite lookup_app_l by (rewrite fmap_length; by eapply lookup_lt_Some).
    by rewrite list_lookup_fmap, Hj. }
  split; [|split; [|split]].
  - destruct (Hcells 0 _ H0) as (y & E & ->). exists 0. rewrite !list_lookup_fmap, H0, E. done.
  - destruct (Hcells 1 _ H1) as (y & E & ->). exists 1. rewrite !list_lookup_fmap, H1, E. done.
  - assert (forall name s, content !! name = Some s /\ name ∈ post_columns ->
      exists j, (show_column <$> header) !! j = Some name /\ (show_cell <$> row) !! j = Some s) as Hcell.
    { intros name s [Hv Hn]. apply elem_of_list_lookup in Hn as [j Hj]. specialize (H2 j name Hj).
      destruct (Hcells _ _ H2) as (y & E & Hy). cbv beta iota in Hy. rewrite Hv in Hy. cbn in Hy. subst y.
      exists (2 + j). rewrite !list_lookup_fmap, H2, E. done. }
    exact (says_mono _ _ _ _ _ Hcell Hsays).
  - intros c' Hc' Hd'. assert (c' ∈ clusters) as Hin'.
    { apply Hcl. split; [done|]. exists doc'. split; [|done]. apply elem_of_list_fmap. exists (c, doc'). split; [done|]. by eapply elem_of_list_lookup_2. }
    assert (ColCluster c' ∈ header) as Hcol.
    { rewrite Hh, !elem_of_app. right; right. by apply elem_of_list_fmap_1. }
    apply elem_of_list_lookup in Hcol as [j Hj]. destruct (Hcells j _ Hj) as (y & E & ->).
    exists j. rewrite !list_lookup_fmap, Hj, E. rewrite bool_decide_eq_true_2 by done. done.
Qed.
Print Assumptions C123_sample_command.

(** ** C121: posts found by a tag show that tag. *)
Theorem C121_found_shows_tag : forall tokens parse dates h all bsz pos s cn order,
  sx_clean parse dates h -> sx_keys (made_by h) all -> all ≠ [] -> index_ready cn -> quiet (disk cn) -> pool_works cn ->
  (forall i, fault s i = None) -> SpecIndexing.complete s (length (batches bsz (sx_corpus tokens parse dates (made_by h) all))) ->
  plain_history h -> orders_sets order ->
  exists cn', run_index bsz pos (sx_corpus tokens parse dates (made_by h) all) s cn = (cn', Ok tt) /\
    forall t docs i, getitem (disk cn') (KFeature ("Tag", VText t)) = Some docs -> i ∈ docs ->
      exists k html, doc_key (disk cn') !! i = Some (VInt (Z.of_N k)) /\
        render_posts order (made_by h) [k] = Ok [(k, html)] /\ is_shown t html.
Proof.
  intros tokens parse dates h all bsz pos s cn order Hcl Hall Hne Hr Hq Hp Hf Hc Hh Ho.
  destruct (C69_stackexchange_search tokens parse dates h all bsz pos s cn Hcl Hall Hne Hr Hq Hp Hf Hc) as (cn' & Hrun & Hkey & Htag).
  exists cn'. split; [done|]. intros t docs i Hd Hi. destruct (Htag t) as (docs' & Hd' & Hiff). rewrite Hd in Hd'. injection Hd' as <-.
  destruct (Hiff (N.to_nat i)) as [Hx _]. rewrite N2Nat.id in Hx. destruct (Hx Hi) as (k & url & x & Hk & Hid & Hl & Ht).
  destruct (C121_shown h url (xp_id x) k x order Hh Ho Hid Hl) as (html & E & _ & _ & _ & _ & _ & _ & Hshown).
  exists k, html. split; [|split; [done|by apply Hshown]]. specialize (Hkey (N.to_nat i)). by rewrite N2Nat.id, Hk in Hkey.
Qed.
Print Assumptions C121_found_shows_tag.

Example C121_found_example :
  sx_clean no_parse any_date sx_history /\ plain_history sx_history /\
  getitem (disk (run_index 2 true sx_example_corpus (in_order 2) conn0).1) (KFeature ("Tag", VText "c++")) = Some {[0; 1; 2]}%N.
Proof.
  split; [apply C69_example|]. split; [|apply C69_example].
  apply plain_dumps. repeat constructor; try (by vm_compute); intros s [= <-]; by vm_compute.
Qed.

(** The answer of [nasty_history], with markup, quotes and a comment. *)
Definition nasty_docs : db := Db {[0%N := VInt 2; 1%N := VInt 1]} ∅ ∅ ∅ ∅ ∅ ∅ ∅.
Definition nasty_sample : list (Z * bitmap) := [(5%Z, {[1%N]}); (6%Z, {[0%N; 1%N]})].
Example C123_example :
  (orders_sets (fun _ s => elements s) /\ sx_keys (made_by nasty_history) [2; 1]%N /\
   (forall i, doc_key nasty_docs !! N.of_nat i = (fun k => VInt (Z.of_N k)) <$> [2; 1]%N !! i) /\
   (forall c docs doc, (c, docs) ∈ nasty_sample -> doc ∈ docs -> N.to_nat doc < 2)) /\
  (exists t, export_document_sample nasty_docs (post_cells (fun _ s => elements s) (made_by nasty_history)) post_columns nasty_sample nasty_sample = Ok t /\
     fits 200 (sample_table t) /\
     sample_table t !! 1 = Some
       ["1"; "5"; "https://a.com"; "9"; ""; ""; ""; "Answer"; "<p>No</p>"; "7"; "Is <script> ""evil"" & 'bad'?"; "https://a.com/questions/9";
        "html, c++"; "[{""DisplayName"": ""Ann"", ""Text"": ""</li></ul></details> <b>"", ""ContentLicense"": null}]"; "1"; "1"]) /\
  json_of "[{""DisplayName"": ""Ann"", ""Text"": ""</li></ul></details> <b>"", ""ContentLicense"": null}]" =
    Some (JList [JObject [("DisplayName", JText "Ann"); ("Text", JText "</li></ul></details> <b>"); ("ContentLicense", JNull)]]).
Proof.
  split; [split_and!|split].
  - by intros ? ?.
  - unfold sx_keys. apply NoDup_Permutation; [by_computation|apply NoDup_elements|]. intros k. rewrite elem_of_elements.
    assert (dom (posts (made_by nasty_history)) = {[1; 2]}%N) as -> by by_computation. set_solver.
  - intros [|[|i]]; [done|done|]. cbn [lookup list_lookup fmap option_fmap option_map]. unfold nasty_docs. cbn [doc_key].
    rewrite lookup_insert_ne by lia. rewrite lookup_singleton_ne by lia. done.
  - intros c docs doc H Hd. unfold nasty_sample in H. rewrite !elem_of_cons, elem_of_nil in H.
    destruct H as [[= -> ->]|[[= -> ->]|[]]]; [apply elem_of_singleton in Hd as ->; cbn; lia|].
    apply elem_of_union in Hd as [->%elem_of_singleton| ->%elem_of_singleton]; cbn; lia.
  - eexists. split; [vm_compute; reflexivity|]. split; [|vm_compute; reflexivity]. unfold fits.
    intros row cell Hr Hc. match type of Hr with _ ∈ ?T => assert (Forall (Forall (fun c => String.length c <= 200)) T) as H by by_computation end.
    rewrite list.Forall_forall in H. specialize (H row Hr). rewrite list.Forall_forall in H. by apply H.
  - vm_compute. reflexivity.
Qed.

(** An index of the two posts, with a model of two clusters. *)
Definition nasty_index : db :=
  set_field_summary {["Tag" := FsumRow 1 (VText "c++") (VText "c++") 0; "Post" := FsumRow 1 (VText "no") (VText "no") 0]}
  (set_inverted_index {[1%N := FeatureRow "Tag" (VText "c++") 2 {[0;1]}%N; 2%N := FeatureRow "Post" (VText "no") 1 {[1]}%N]} nasty_docs).
Definition nasty_conn : conn := (initialise_clusters 2 1 [] rng0 (open_index nasty_index pool_ok)).1.
Definition nasty_file : file := File 10 MAGIC_APPLICATION_ID true {["settings" := ["key"; "value"]]} ∅ ∅ (disk nasty_conn).
Example C123_sample_example :
  quiet (rows nasty_file) /\
  (forall i, doc_key (rows nasty_file) !! N.of_nat i = (fun k => VInt (Z.of_N k)) <$> [2; 1]%N !! i) /\
  (forall c doc, doc ∈ cluster_documents (rows nasty_file) c -> is_Some (doc_key (rows nasty_file) !! doc)) /\
  rmap (fun t : list column * list (list cell) => (length t.2, take 4 <$> drop 1 (sample_table t)))
    (cli_sample nasty_file (post_cells (fun _ s => elements s) (made_by nasty_history)) post_columns 0 rng0) =
  Ok (2, [["1"; "0"; "https://a.com"; "9"]; ["2"; "1"; "https://a.com"; "7"]]).
Proof.
  assert (quiet nasty_index) as Hq0 by (apply quiet_unclustered; by_computation).
  split; [|split; [|split]].
  - destruct (initialise_call 2 1 [] rng0 (open_index nasty_index pool_ok) (idle_open _ _) (quiet_usable _ Hq0) ltac:(done) ltac:(lia) ltac:(constructor))
      as (c' & Hc & _ & Hq & _).
    unfold nasty_file, nasty_conn. cbn [rows]. rewrite Hc. done.
  - assert (doc_key (rows nasty_file) = doc_key nasty_docs) as -> by by_computation.
    intros [|[|i]]; [done|done|]. cbn [lookup list_lookup fmap option_fmap option_map]. unfold nasty_docs. cbn [doc_key].
    rewrite lookup_insert_ne by lia. rewrite lookup_singleton_ne by lia. done.
  - assert (set_Forall (fun f => set_Forall (fun doc => is_Some (doc_key (rows nasty_file) !! doc)) (feature_docs (rows nasty_file) f)) (dom (inverted_index (rows nasty_file)))) as H by by_computation.
    intros c doc Hd. unfold cluster_documents in Hd. apply covered_elem in Hd as (f & _ & Hd). apply (H f); [|done].
    unfold feature_docs in Hd. apply elem_of_dom. destruct (inverted_index (rows nasty_file) !! f); [by eexists|by apply elem_of_empty in Hd].
  - by_computation.
Qed.
