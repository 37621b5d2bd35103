(** PropertiesTables.v: C117: from a text file to the table of clusters and to a sample of
    the documents. Vocabulary: SpecCommands.v, SpecScript.v, SpecCsv.v. *)
From stdpp Require Import pretty.
From Verif Require Import SampleDb PropertiesIndexing PropertiesCorpus PropertiesCsv PropertiesPages PropertiesReports CorpusCalls
  CommandProofs SpecQuery SpecWeb SpecReports PropertiesCli PropertiesCommands SpecScript PropertiesScript.

Section tables.
  Context (tok : string -> list string) (d : db) (m : gmap N value) (least n : Z).
  Hypothesis Hq : quiet d.
  Hypothesis Hu : features_unique (inverted_index d).
  Hypothesis Hidx : is_index_of tok d m.
  Hypothesis Hmw : models_words tok d m least n.

  Lemma word_row w f : lookup_feature_id d ("text", VText w) = Ok f ->
    exists row, inverted_index d !! f = Some row /\ f_field row = "text" /\ f_value row = VText w /\
      forall doc, doc ∈ f_doc_ids row <-> exists k txt, doc_key d !! doc = Some (VInt (Z.of_N k)) /\ m !! k = Some (VText txt) /\ w ∈ tok txt.
  Proof.
    intros Hf. unfold lookup_feature_id in Hf.
    destruct (find_feature (inverted_index d) ("text", VText w)) as [f'|] eqn:E; [|discriminate Hf]. injection Hf as ->.
    destruct (proj1 (find_feature_iff _ _ f Hu) E) as (row & Hrow & Hkey). exists row. split; [done|].
    unfold row_key in Hkey. injection Hkey as E1 E2. split; [done|]. split; [done|].
    destruct Hidx as (_ & _ & Hget). destruct (Hget w) as (docs & Hg & Hiff). unfold getitem in Hg. rewrite E, Hrow in Hg. injection Hg as <-.
    exact Hiff.
  Qed.

  Lemma with_word_keys w : exists keys, with_word tok m w keys.
  Proof.
    exists (dom (filter (fun kv : N * value => (match kv.2 with VText txt => bool_decide (w ∈ tok txt) | VInt _ => false end) = true) m)).
    intros k. rewrite elem_of_dom. split.
    - intros [v Hv]. apply map_filter_lookup_Some in Hv as [H1 H2]. cbn in H2. destruct v as [|txt]; [done|].
      apply bool_decide_eq_true in H2. eauto.
    - intros (txt & H1 & H2). exists (VText txt). apply map_filter_lookup_Some. cbn. by rewrite bool_decide_eq_true_2.
  Qed.

  Lemma cluster_says x doc : doc ∈ cluster_documents d x <->
    exists k txt, doc_key d !! doc = Some (VInt (Z.of_N k)) /\ m !! k = Some (VText txt) /\ says tok d txt x.
  Proof.
    unfold cluster_documents. rewrite ScoreProofs.covered_elem. split.
    - intros (f & Hf & Hd). apply assigned_members in Hf. destruct (mw_only _ _ _ _ _ Hmw f x Hf) as (w & Hx & Hw).
      destruct (word_row w f Hw) as (row & Hrow & _ & _ & Hiff). unfold feature_docs in Hd. rewrite Hrow in Hd.
      destruct (proj1 (Hiff doc) Hd) as (k & txt & H1 & H2 & H3). exists k, txt. split_and!; [done|done|]. by exists w.
    - intros (k & txt & H1 & H2 & w & (f & Hw & Hx) & H3). exists f. split; [by apply assigned_members|].
      destruct (word_row w f Hw) as (row & Hrow & _ & _ & Hiff). unfold feature_docs. rewrite Hrow. apply Hiff. eauto.
  Qed.

  (** ** The table of clusters *)

  Lemma word_line x : export_line d x -> exists c f w k, x = (c, f, "text", VText w, k) /\
    lookup_feature_id d ("text", VText w) = Ok f /\ assigned d f = Some c /\
    exists keys, with_word tok m w keys /\ k = N.of_nat (size keys).
  Proof.
    destruct x as [[[[c f] F] v] k]. cbn. intros (Hx & row & Hrow & <- & <- & ->).
    destruct (mw_only _ _ _ _ _ Hmw f c Hx) as (w & _ & Hw).
    destruct (word_row w f Hw) as (row' & Hrow' & E1 & E2 & Hiff).
    rewrite Hrow in Hrow'. injection Hrow' as <-. rewrite E1, E2.
    exists c, f, w, (N.of_nat (size (f_doc_ids row))). split; [done|]. split; [done|]. split; [done|].
    destruct (with_word_keys w) as [keys Hk]. exists keys. split; [done|]. f_equal. symmetry. by apply (word_docs tok d m w).
  Qed.

  Definition words_of_rows (rows : list (Z * N * string * value * N)) : list (Z * N * string * N) :=
    (fun x : Z * N * string * value * N => let '(c, f, F, v, k) := x in (c, f, match v with VText w => w | VInt _ => "" end, k)) <$> rows.

  Lemma exported rows : (forall x, x ∈ rows <-> export_line d x) -> NoDup rows.*1.*1.*1.*2 ->
    words_listed tok d m (words_of_rows rows) /\ clusters_table rows = words_table (words_of_rows rows).
  Proof.
    intros Hr Hnd.
    assert (forall x, x ∈ rows -> exists c f w k, x = (c, f, "text", VText w, k) /\
      lookup_feature_id d ("text", VText w) = Ok f /\ assigned d f = Some c /\
      exists keys, with_word tok m w keys /\ k = N.of_nat (size keys)) as Hw by (intros x Hx; by apply word_line, Hr).
    split; [split|].
    - intros x f w k. unfold words_of_rows. rewrite elem_of_list_fmap. split.
      + intros (y & E & Hy). destruct (Hw y Hy) as (c' & f' & w' & k' & -> & H). cbn in E. injection E as -> -> -> ->. done.
      + intros (Hf & Hx & keys & Hk & ->). exists (x, f, "text", VText w, N.of_nat (size keys)). split; [done|]. apply Hr. cbn.
        split; [done|]. destruct (word_row w f Hf) as (row & Hrow & H1 & H2 & Hiff). exists row. split_and!; [done..|].
        f_equal. by apply (word_docs tok d m w).
    - clear Hr. unfold words_of_rows. induction rows as [|x rows IH]; [constructor|].
      rewrite !fmap_cons. do 4 rewrite fmap_cons in Hnd. apply NoDup_cons in Hnd as [Hn Hnd]. apply NoDup_cons. split; [|apply IH; [done|]; intros; apply Hw; by right].
      intros Hin. apply Hn. destruct (Hw x ltac:(by left)) as (c & f & w & k & -> & Hf & _). cbn in Hin |- *.
      apply elem_of_list_fmap in Hin as (y & E & Hy). apply elem_of_list_fmap in Hy as (z & -> & Hz).
      destruct (Hw z ltac:(by right)) as (c' & f' & w' & k' & -> & Hf' & _). cbn in E. subst w'.
      rewrite Hf in Hf'. injection Hf' as <-. cbn. change f with (c', f, "text", VText w, k').1.1.1.2.
      by do 4 apply elem_of_list_fmap_1.
    - unfold clusters_table, words_table. f_equal. unfold words_of_rows. rewrite <- list_fmap_compose. apply list_fmap_ext.
      intros i x Hx. apply elem_of_list_lookup_2 in Hx. destruct (Hw x Hx) as (c & f & w & k & -> & _). done.
  Qed.

  Lemma members_few x (texts : list value) : numbered texts m -> (1 <= least)%Z ->
    size (members d x) <= length (concat ((fun v => match v with VText txt => tok txt | VInt _ => [] end) <$> texts)).
  Proof.
    intros Hn Hl. set (all := concat _).
    set (word := fun f => match inverted_index d !! f with Some row => match f_value row with VText w => w | VInt _ => "" end | None => "" end).
    assert (forall f, f ∈ members d x -> lookup_feature_id d ("text", VText (word f)) = Ok f /\ word f ∈ all) as Hword.
    { intros f Hf. apply assigned_members in Hf. destruct (mw_only _ _ _ _ _ Hmw f x Hf) as (w & Hx & Hw).
      destruct (word_row w f Hw) as (row & Hrow & _ & Ev & _). unfold word. rewrite Hrow, Ev. split; [done|].
      destruct (with_word_keys w) as [keys Hk]. assert (least <= Z.of_nat (size keys))%Z as Hsz by (apply (mw_words _ _ _ _ _ Hmw w keys Hk); by exists x).
      assert (keys ≠ ∅) as Hne by (intros ->; rewrite size_empty in Hsz; lia). apply set_choose_L in Hne as [k Hkk].
      apply Hk in Hkk as (txt & Hm & Hin). rewrite Hn in Hm. destruct (k =? 0)%N; [done|]. apply elem_of_list_lookup_2 in Hm.
      unfold all. apply elem_of_concat. exists (tok txt). split; [done|]. apply elem_of_list_fmap. by exists (VText txt). }
    assert (size (members d x) = length (word <$> elements (members d x))) as -> by (by rewrite fmap_length).
    apply submseteq_length. apply NoDup_submseteq.
    - apply NoDup_fmap_2_strong; [|apply NoDup_elements]. intros a b Ha Hb E. apply elem_of_elements in Ha, Hb.
      destruct (Hword a Ha) as [H1 _], (Hword b Hb) as [H2 _]. rewrite E in H1. rewrite H1 in H2. by injection H2.
    - intros w Hw. apply elem_of_list_fmap in Hw as (f & -> & Hf). apply elem_of_elements in Hf. by apply Hword.
  Qed.

  (** ** The sample *)
  Definition key_of (doc : N) : N := match doc_key d !! doc with Some (VInt z) => Z.to_N z | _ => 0%N end.
  Definition text_of (doc : N) : string := match m !! key_of doc with Some (VText txt) => txt | _ => "" end.
  Definition entries_of (written : list (Z * N)) : list (N * Z * string) :=
    (fun p : Z * N => (key_of p.2, p.1, text_of p.2)) <$> written.

  Lemma in_cluster x doc : doc ∈ cluster_documents d x ->
    doc_key d !! doc = Some (VInt (Z.of_N (key_of doc))) /\ m !! key_of doc = Some (VText (text_of doc)).
  Proof.
    intros Hd. apply cluster_says in Hd as (k & txt & H1 & H2 & _). unfold text_of, key_of. by rewrite H1, N2Z.id, H2.
  Qed.
  Lemma in_cluster_says x y doc : doc ∈ cluster_documents d x -> doc ∈ cluster_documents d y <-> says tok d (text_of doc) y.
  Proof.
    intros Hd. destruct (in_cluster x doc Hd) as [H1 H2]. rewrite cluster_says. split.
    - intros (k & txt & H3 & H4 & H5). rewrite H1 in H3. injection H3 as E. apply N2Z.inj in E. subst k. rewrite H2 in H4. by injection H4 as <-.
    - intros Hs. by exists (key_of doc), (text_of doc).
  Qed.
  Lemma key_inj x y i j : i ∈ cluster_documents d x -> j ∈ cluster_documents d y -> key_of i = key_of j -> i = j.
  Proof.
    intros Hi Hj E. destruct (in_cluster x i Hi) as [H1 _], (in_cluster y j Hj) as [H2 _]. rewrite <- E in H2.
    destruct Hidx as (_ & Hinj & _). by eapply Hinj.
  Qed.
  Lemma key_doc k txt x : m !! k = Some (VText txt) -> says tok d txt x ->
    exists doc, doc ∈ cluster_documents d x /\ key_of doc = k /\ text_of doc = txt.
  Proof.
    intros Hm Hs. destruct Hidx as (Hk & _). destruct (proj1 (Hk k) ltac:(eauto)) as [doc Hd]. exists doc.
    split; [apply cluster_says; eauto|]. unfold text_of, key_of. by rewrite Hd, N2Z.id, Hm.
  Qed.

  Lemma sampled header table written clusters per :
    header = [ColKey; ColSampled] ++ (ColField <$> ["text"]) ++ (ColCluster <$> clusters) ->
    StronglySorted Z.le clusters -> NoDup clusters ->
    (forall c, c ∈ clusters <-> c ∈ dom (cluster d) /\ exists doc, doc ∈ written.*2 /\ doc ∈ cluster_documents d c) ->
    length table = length written -> NoDup written.*2 ->
    (forall c doc, (c, doc) ∈ written -> c ∈ dom (cluster d) /\ doc ∈ cluster_documents d c) ->
    ((per <= 0)%Z -> forall c doc, c ∈ dom (cluster d) -> doc ∈ cluster_documents d c -> doc ∈ written.*2) ->
    ((0 < per)%Z -> forall c, c ∈ dom (cluster d) ->
       length (filter (fun p => p.1 = c) written) <= Z.to_nat per /\
       (length (filter (fun p => p.1 = c) written) < Z.to_nat per ->
        forall doc, doc ∈ cluster_documents d c -> doc ∈ written.*2)) ->
    (forall i c doc row, written !! i = Some (c, doc) -> table !! i = Some row ->
      exists key content, doc_key d !! doc = Some key /\ text_row (Some m) key = Ok content /\
        length row = length header /\
        forall j col, header !! j = Some col -> exists x, row !! j = Some x /\
          match col with
          | ColKey => x = CKey key
          | ColSampled => x = CCluster c
          | ColField s => x = default CBlank (CText <$> content !! s)
          | ColCluster k => x = if bool_decide (doc ∈ cluster_documents d k) then CMark else CBlank
          end) ->
    exists rows, docs_sampled tok d m per clusters (entries_of written) rows /\ sample_table (header, table) = sampled_table clusters rows.
  Proof.
    intros -> Hsorted Hnd Hcl Hlen Hndw Hin Hall Hsome Hrows.
    assert (forall x, x ∈ cluster_ids d <-> x ∈ dom (cluster d)) as Hids by (intros x; unfold cluster_ids; by rewrite elem_of_z_list).
    assert (forall x doc, doc ∈ cluster_documents d x -> x ∈ dom (cluster d)) as Hcd.
    { intros x doc Hd. apply cluster_says in Hd as (k & txt & _ & _ & w & Hw & _). apply Hids, (mw_clusters _ _ _ _ _ Hmw). by exists w. }
    assert (forall x k txt, (k, x, txt) ∈ entries_of written <-> exists doc, (x, doc) ∈ written /\ k = key_of doc /\ txt = text_of doc) as Hent.
    { intros x k txt. unfold entries_of. rewrite elem_of_list_fmap. split.
      - intros ([c doc] & E & H). injection E as -> -> ->. by exists doc.
      - intros (doc & H & -> & ->). by exists (x, doc). }
    assert (forall doc, doc ∈ written.*2 -> key_of doc ∈ (entries_of written).*1.*1) as Hkey.
    { intros doc Hd. apply elem_of_list_fmap in Hd as ([c doc'] & -> & Hd). cbn.
      change (key_of doc') with (key_of doc', c, text_of doc').1.1. do 2 apply elem_of_list_fmap_1. apply Hent. by exists doc'. }
    set (cells := (fun row : list cell => (fun c => match c with CKey v => value_text v | CCluster c => pretty c | CText s => s | CMark => "1" | CBlank => "" end) <$> row) <$> table).
    exists cells. split; [split|].
    - intros k x txt Hx. apply Hent in Hx as (doc & Hd & -> & ->). apply Hin in Hd as [_ Hd]. split; [by apply (in_cluster x)|].
      by apply (in_cluster_says x).
    - assert (((entries_of written).*1).*1 = key_of <$> written.*2) as ->.
      { unfold entries_of. rewrite <- !list_fmap_compose. apply list_fmap_ext. intros i [c doc] _. done. }
      apply NoDup_fmap_2_strong; [|done]. intros i j Hi Hj.
      apply elem_of_list_fmap in Hi as ([c i'] & -> & Hi), Hj as ([c' j'] & -> & Hj). cbn.
      apply Hin in Hi as [_ Hi], Hj as [_ Hj]. by apply (key_inj c c').
    - intros Hp k txt x Hm Hs. destruct (key_doc k txt x Hm Hs) as (doc & Hd & <- & _). apply Hkey. apply (Hall Hp x); [by eapply Hcd|done].
    - intros Hp x Hx. apply Hids in Hx. destruct (Hsome Hp x Hx) as [S1 S2].
      assert (length (filter (fun e : N * Z * string => e.1.2 = x) (entries_of written)) = length (filter (fun p : Z * N => p.1 = x) written)) as ->.
      { unfold entries_of. clear. induction written as [|[c doc] l IH]; [done|]. rewrite fmap_cons, !filter_cons. cbn [fst snd].
        destruct (decide (c = x)); cbn [length]; by rewrite ?IH. }
      split; [done|]. intros Hlt k txt Hm Hs. destruct (key_doc k txt x Hm Hs) as (doc & Hd & <- & _). apply Hkey. by apply S2.
    - split; [done|]. split; [done|]. intros y. rewrite Hcl. split.
      + intros (Hy & doc & Hd & Hdy). apply elem_of_list_fmap in Hd as ([x doc'] & -> & Hd). cbn in Hdy.
        exists (key_of doc'), x, (text_of doc'). split; [apply Hent; by exists doc'|]. by apply (in_cluster_says y).
      + intros (k & x & txt & He & Hs). apply Hent in He as (doc & Hd & -> & ->). pose proof (proj2 (Hin _ _ Hd)) as Hdx.
        assert (doc ∈ cluster_documents d y) as Hdy by (by apply (in_cluster_says x)). split; [by eapply Hcd|].
        exists doc. split; [|done]. apply elem_of_list_fmap. by exists (x, doc).
    - apply Forall2_same_length_lookup_2; [unfold cells, entries_of; rewrite !fmap_length; lia|].
      intros i e row He Hrow. unfold entries_of in He. apply list_lookup_fmap_Some in He as ([x doc] & He & ->).
      unfold cells in Hrow. apply list_lookup_fmap_Some in Hrow as (row0 & Hrow & ->). cbn [fst snd].
      destruct (Hrows i x doc row0 He Hrow) as (key & content & Hk & Hc & Hl & Hcol).
      apply elem_of_list_lookup_2 in He. apply Hin in He as [_ Hd]. destruct (in_cluster x doc Hd) as [I1 I2].
      rewrite I1 in Hk. injection Hk as <-.
      assert (content !! "text" = Some (text_of doc)) as Htxt.
      { unfold text_row in Hc. rewrite (proj2 (Z.ltb_ge _ _)) in Hc by lia. rewrite N2Z.id in Hc. unfold pt_get in Hc. rewrite I2 in Hc.
        cbn in Hc. injection Hc as <-. apply lookup_singleton. }
      destruct (Hcol 0 ColKey eq_refl) as (c0 & R0 & ->). destruct (Hcol 1 ColSampled eq_refl) as (c1 & R1 & ->).
      destruct (Hcol 2 (ColField "text") eq_refl) as (c2 & R2 & ->). rewrite Htxt in R2. cbn in R2.
      destruct row0 as [|a0 [|a1 [|a2 marks]]]; cbn in R0, R1, R2; try discriminate. injection R0 as ->. injection R1 as ->. injection R2 as ->.
      eexists (_ <$> marks). split; [reflexivity|].
      apply Forall2_same_length_lookup_2.
      { rewrite fmap_length. cbn in Hl. rewrite fmap_length in Hl. lia. }
      intros j y mark Hy Hm. apply list_lookup_fmap_Some in Hm as (c & Hm & ->).
      destruct (Hcol (3 + j) (ColCluster y)) as (c' & R & E).
      { change ([ColKey; ColSampled] ++ (ColField <$> ["text"]) ++ (ColCluster <$> clusters)) with ([ColKey; ColSampled; ColField "text"] ++ (ColCluster <$> clusters)).
        rewrite lookup_app_r by (cbn; lia). cbn [length]. replace (3 + j - 3) with j by lia. by rewrite list_lookup_fmap, Hy. }
      change (marks !! j = Some c') in R. rewrite Hm in R. injection R as <-. subst c. case_bool_decide as Hb.
      + left. split; [done|]. by apply (in_cluster_says x).
      + right. split; [done|]. intros Hs. apply Hb. by apply (in_cluster_says x).
    - unfold sample_table, sampled_table. cbn [fst snd]. fold cells. f_equal. cbn [app fmap list_fmap]. do 3 f_equal.
      rewrite <- list_fmap_compose. apply list_fmap_ext. done.
  Qed.
End tables.

(** ** C117 *)

(** The size of the model: more than 2^62 words cannot be exported ([no_limit] in Web.v). *)
Definition few_words (tok : string -> list string) (texts : list value) : Prop :=
  (N.of_nat (length (concat ((fun v => match v with VText txt => tok txt | VInt _ => [] end) <$> texts))) <= 2 ^ 62)%N.

(** [export clusters] for a model of the words of a corpus: its file is the table of the
    words. *)
Theorem C117_export : forall limit tok parse fs index output d m texts least n,
  index_at fs index d -> quiet d -> features_unique (inverted_index d) -> is_index_of tok d m ->
  models_words tok d m least n -> numbered texts m -> (1 <= least)%Z -> few_words tok texts -> output ≠ index ->
  exists fs' l entries,
    run_command limit tok parse [lf] (ExportClusters index output 0) fs = (fs', Done) /\
    fs' !! output = Some (PlainFile l) /\ words_listed tok d m entries /\
    (fits limit (words_table entries) -> csv_read limit l = (words_table entries, Ok tt)) /\
    index_at fs' index d /\ (forall q, q ≠ index -> q ≠ output -> fs' !! q = fs !! q).
Proof.
  intros limit tok parse fs index output d m texts least n (f & docs & Hf & Hcur & Hrows) Hq Hu Hidx Hmw Hnum Hl Hfew Hout.
  cbn [run_command]. unfold run_export. rewrite Hf, (open_checked_current index fs f docs Hf Hcur).
  change (rows (set_wal f)) with (rows f). rewrite Hrows.
  destruct (C79_export_everything d (cli_export d 0) Hq) as (H1 & H2 & _); [|by right|].
  { intros c. pose proof (members_few tok d m least n Hu Hidx Hmw c texts Hnum Hl). unfold few_words in Hfew. lia. }
  destruct (exported tok d m least n Hu Hidx Hmw (cli_export d 0) H1 H2) as [H3 H4].
  eexists _, _, (words_of_rows (cli_export d 0)). split; [reflexivity|]. split; [by rewrite lookup_insert|]. split; [exact H3|].
  split; [intros Hfit; rewrite <- H4 in Hfit |- *; by apply C93_clusters_file_partial|]. split.
  - exists (set_wal f), docs. rewrite lookup_insert_ne, lookup_insert by done. done.
  - intros q Hq1 Hq2. by rewrite !lookup_insert_ne.
Qed.
Print Assumptions C117_export.

(** [sample] for the corpus and the index: its file is the table of sampled documents. *)
Theorem C117_sample : forall limit tok parse fs corpus index output d m least n per g rest,
  documents_at fs corpus m -> index_at fs index d -> quiet d -> features_unique (inverted_index d) -> is_index_of tok d m ->
  models_words tok d m least n -> output ≠ index -> output ≠ corpus -> corpus ≠ index ->
  exists fs' l clusters entries rows,
    run_command limit tok parse [lf] (SampleDocs corpus index output per g rest) fs = (fs', Done) /\
    fs' !! output = Some (PlainFile l) /\ docs_sampled tok d m per clusters entries rows /\
    (fits limit (sampled_table clusters rows) -> csv_read limit l = (sampled_table clusters rows, Ok tt)) /\
    index_at fs' index d /\ documents_at fs' corpus m /\ (forall q, q ≠ index -> q ≠ output -> fs' !! q = fs !! q).
Proof.
  intros limit tok parse fs corpus index output d m least n per g rest (fc & Hfc & Hdoc) (f & docs & Hf & Hcur & Hrows) Hq Hu Hidx Hmw
    Hout1 Hout2 Hdiff.
  cbn [run_command]. unfold run_sample. rewrite Hfc, Hf, (open_checked_current index fs f docs Hf Hcur).
  rewrite lookup_insert_ne, Hfc by done. cbn [as_database]. unfold doc_table_of. rewrite bool_decide_eq_true_2 by exact Hdoc.
  change (rows (set_wal f)) with (rows f). cbv zeta.
  destruct (C83_sample_file f (text_row (Some m)) ["text"] per g) as (header & table & written & clusters & Ht & H).
  1-3: destruct Hcur as (H1 & H2 & H3 & _); try done; apply H3; by_computation.
  { by rewrite Hrows. }
  { rewrite Hrows. destruct Hidx as (_ & H & _). exact H. }
  { intros c doc _ Hd. rewrite Hrows in Hd |- *. destruct (in_cluster tok d m least n Hu Hidx Hmw c doc Hd) as [I1 I2].
    eexists _, _. split; [exact I1|]. unfold text_row. rewrite (proj2 (Z.ltb_ge _ _)) by lia. rewrite N2Z.id. unfold pt_get. by rewrite I2. }
  rewrite Hrows in H |- *. destruct H as (H1 & H2 & H3 & H4 & H5 & H6 & H7 & H8 & H9 & H10).
  pose proof (C93_sample_file_partial limit f (text_row (Some m)) ["text"] per g (header, table) Ht) as Hread.
  unfold cli_sample in Ht. rewrite (proj1 (proj2 Hcur)) in Ht. rewrite Z.eqb_refl in Ht. rewrite (current_open f Hcur) in Ht.
  change (rows (set_wal f)) with (rows f) in Ht. rewrite Hrows in Ht. rewrite Ht.
  destruct (sampled tok d m least n Hu Hidx Hmw header table written clusters per H1 H2 H3 H4 H5 H6 H7 H8 H9 H10) as (rows & S1 & S2).
  eexists _, _, clusters, _, rows. split; [reflexivity|]. split; [by rewrite lookup_insert|]. split; [exact S1|]. rewrite <- S2. split; [exact Hread|].
  split; [exists (set_wal f), docs; rewrite lookup_insert_ne, lookup_insert by done; done|].
  split; [exists fc; rewrite !lookup_insert_ne by done; done|]. intros q Hq1 Hq2. by rewrite !lookup_insert_ne.
Qed.
Print Assumptions C117_sample.

(** All together: five commands, from the text file to the two tables. *)
Theorem C117_text_to_tables : forall limit tok parse lines l text corpus index out1 out2 bsz pos sched p garbage o yes g1 g2 p2 per g rest fs,
  let stored := filter (fun x => ~ only_whitespace x) (before_comma <$> lines) in
  fs !! text = Some (PlainFile l) -> text_file lines l ->
  (forall x, x ∈ lines -> one_line x /\ quote ∉ chars x /\ String.length x <= limit) ->
  stored ≠ [] -> few_words tok (VText <$> stored) ->
  (absent fs corpus \/ exists f docs, fs !! corpus = Some (DbFile f docs)) -> absent fs index ->
  NoDup [corpus; index; out1; out2] ->
  (forall n, complete (sched n) n) -> (forall n i, fault (sched n) i = None) -> p 0 = None -> (forall n, p2 n = None) ->
  (1 <= m_iterations o)%Z -> 1 <= m_top_k o \/ m_batches o = Some 0 -> (1 <= m_min_docs o)%Z ->
  (match m_clusters o with Some n => 0 < n | None => True end)%Z ->
  NoDup (m_include_fields o) -> m_include_fields o = [] \/ "text" ∈ m_include_fields o ->
  exists fs' m d l1 l2 words clusters docs rows,
    run_commands limit tok parse [lf]
      [Create text corpus garbage; BuildIndex corpus index bsz pos sched p; Model index o yes g1 g2 p2;
       ExportClusters index out1 0; SampleDocs corpus index out2 per g rest] fs
      = (fs', [Done; Done; Done; Done; Done]) /\
    documents_at fs' corpus m /\ numbered (VText <$> stored) m /\ index_at fs' index d /\
    models_words tok d m (m_min_docs o) (match m_clusters o with Some n => n | None => 64 end) /\
    fs' !! out1 = Some (PlainFile l1) /\ words_listed tok d m words /\
    (fits limit (words_table words) -> csv_read limit l1 = (words_table words, Ok tt)) /\
    fs' !! out2 = Some (PlainFile l2) /\ docs_sampled tok d m per clusters docs rows /\
    (fits limit (sampled_table clusters rows) -> csv_read limit l2 = (sampled_table clusters rows, Ok tt)).
Proof.
  intros limit tok parse lines l text corpus index out1 out2 bsz pos sched p garbage o yes g1 g2 p2 per g rest fs stored
    Ht Hl Hlines Hne Hfew Hcor Hidx Hdis Hs Hf Hp Hp2 Hit Hk Hmd Hcl Hnd Hinc.
  assert (corpus ≠ index /\ out1 ≠ corpus /\ out1 ≠ index /\ out2 ≠ corpus /\ out2 ≠ index /\ out1 ≠ out2) as (D1 & D2 & D3 & D4 & D5 & D6).
  { rewrite !NoDup_cons, !not_elem_of_cons in Hdis. naive_solver. }
  destruct (C116_text_to_model limit tok parse [lf] lines l text corpus index bsz pos sched p garbage o yes g1 g2 p2 fs Ht Hl Hlines Hne Hcor
    ltac:(by left) D1 Hs Hf Hp Hp2 Hit Hk Hmd Hcl Hnd Hinc) as (fs1 & m & d & Hrun & Hdocs & Hnum & Hat & Hq & Hu & Hix & Hmw).
  fold stored in Hnum.
  destruct (C117_export limit tok parse fs1 index out1 d m (VText <$> stored) _ _ Hat Hq Hu Hix Hmw Hnum Hmd Hfew D3)
    as (fs2 & l1 & words & Hrun1 & Hl1 & Hw & Hr1 & Hat1 & Hframe1).
  assert (documents_at fs2 corpus m) as Hdocs1.
  { destruct Hdocs as (fc & E1 & E2). exists fc. by rewrite Hframe1. }
  destruct (C117_sample limit tok parse fs2 corpus index out2 d m _ _ per g rest Hdocs1 Hat1 Hq Hu Hix Hmw D5 D4 D1)
    as (fs3 & l2 & clusters & docs & rows & Hrun2 & Hl2 & Hsm & Hr2 & Hat2 & Hdocs2 & Hframe2).
  change [Create text corpus garbage; BuildIndex corpus index bsz pos sched p; Model index o yes g1 g2 p2;
       ExportClusters index out1 0; SampleDocs corpus index out2 per g rest]
    with ([Create text corpus garbage; BuildIndex corpus index bsz pos sched p; Model index o yes g1 g2 p2] ++
       [ExportClusters index out1 0; SampleDocs corpus index out2 per g rest]).
  rewrite run_commands_app, Hrun. cbn [run_commands]. rewrite Hrun1, Hrun2.
  exists fs3, m, d, l1, l2, words, clusters, docs, rows. split; [reflexivity|].
  rewrite (Hframe2 out1) by done. split_and!; done.
Qed.
Print Assumptions C117_text_to_tables.

(** A case: the two tables of the first model of the shop. *)
Definition tables_of_shop : list command :=
  shop_model false ++ [ExportClusters "notes.idx" "words.csv" 5; SampleDocs "notes.db" "notes.idx" "docs.csv" 0 rng0 None].
Definition read_back (path : string) : list (list string) :=
  match (run_shop tables_of_shop shop).1 !! path with Some (PlainFile l) => (csv_read 100 l).1 | _ => [] end.
Example C117_example :
  let lines := ["a b"; "  "; "b c, d"] in let stored := filter (fun x => ~ only_whitespace x) (before_comma <$> lines) in
  shop !! "notes.txt" = Some (PlainFile (line_file lines)) /\ text_file lines (line_file lines) /\
  stored = ["a b"; "b c"] /\ few_words two_words (VText <$> stored) /\
  absent shop "notes.idx" /\ NoDup ["notes.db"; "notes.idx"; "words.csv"; "docs.csv"] /\
  (run_shop tables_of_shop shop).2 = [Done; Done; Done; Done; Done] /\
  read_back "words.csv" = [["cluster_id"; "feature_id"; "field"; "value"; "docs_count"];
    ["1"; "2"; "text"; "b"; "2"]; ["1"; "1"; "text"; "a"; "1"]; ["0"; "3"; "text"; "c"; "1"]] /\
  read_back "docs.csv" = [["doc_key"; "sampled_cluster"; "text"; "cluster_0"; "cluster_1"];
    ["2"; "0"; "b c"; "1"; "1"]; ["1"; "1"; "a b"; ""; "1"]].
Proof.
  cbv zeta. split; [reflexivity|]. split; [by left|]. split; [by_computation|]. split; [unfold few_words; by_computation|].
  split; [by left|]. split; [by_computation|]. split; [vm_compute; reflexivity|]. split; vm_compute; reflexivity.
Qed.
