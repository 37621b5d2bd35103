(** CommandProofs.v: lemmas for PropertiesCommands.v. *)
From stdpp Require Import pretty.
From Verif Require Import SampleDb LookupProofs WebProofs CorpusCalls PropertiesIndexing PropertiesMigrate PropertiesCli.
From Verif Require Export SpecCommands.

(** ** Opening *)
Lemma set_wal_current f : is_current f -> is_current (set_wal f).
Proof. done. Qed.
Lemma set_rows_current d f : is_current f -> is_current (set_rows d f).
Proof. done. Qed.
Lemma schema_tables_index : Forall (fun tc : string * list string => index_tables !! tc.1 = Some tc.2) schema_tables.
Proof. by_computation. Qed.
Lemma current_has_tables f : is_current f -> has_tables f = true.
Proof.
  intros (_ & _ & H & _). unfold has_tables. apply bool_decide_eq_true. eapply Forall_impl; [apply schema_tables_index|].
  intros [t cols] Ht. by apply H.
Qed.
Lemma current_open f : is_current f -> open_file f = (set_wal f, Ok (settings f)).
Proof.
  intros (H1 & _ & H2 & _). apply C58_current_version; [done|]. apply H2. by_computation.
Qed.
Lemma open_path_current path fs f docs : fs !! path = Some (DbFile f docs) -> is_current f ->
  open_path path fs = (<[path := DbFile (set_wal f) docs]> fs, inl (set_wal f, docs)).
Proof.
  intros H Hf. unfold open_path. rewrite H. cbn [as_database]. rewrite current_open by done.
  rewrite current_has_tables by done. done.
Qed.
Lemma is_index_current f docs : is_current f -> is_index_db (on_disk_of (Some (DbFile f docs))) = Some true.
Proof. intros (_ & H & _). cbn. by rewrite H. Qed.
Lemma open_checked_current path fs f docs : fs !! path = Some (DbFile f docs) -> is_current f ->
  open_checked path fs = (<[path := DbFile (set_wal f) docs]> fs, inl (set_wal f, docs)).
Proof.
  intros H Hf. unfold open_checked. rewrite H, is_index_current by done. by apply open_path_current.
Qed.
Lemma open_path_absent path fs : absent fs path -> exists f,
  open_path path fs = (<[path := DbFile f ∅]> fs, inl (f, ∅)) /\ is_current f /\ rows f = empty_db.
Proof.
  intros H. destruct (C58_new_database empty_file eq_refl eq_refl eq_refl) as (f & Ho & Hc & Hr & _).
  exists f. split; [|split; [exact Hc|exact Hr]]. unfold open_path.
  assert (as_database (fs !! path) = Some (empty_file, ∅)) as -> by (destruct H as [-> | ->]; reflexivity).
  rewrite Ho, current_has_tables by exact Hc. reflexivity.
Qed.
Lemma open_path_frame path fs fs1 r q : open_path path fs = (fs1, r) -> q ≠ path -> fs1 !! q = fs !! q.
Proof.
  unfold open_path. intros H Hq. destruct (as_database (fs !! path)) as [[f docs]|]; [|by injection H as <- _].
  destruct (open_file f) as [f1 [s|e]]; [destruct (has_tables f1)|]; cbv zeta in H; injection H as <- _; by rewrite lookup_insert_ne.
Qed.
Lemma open_checked_frame path fs fs1 r q : open_checked path fs = (fs1, r) -> q ≠ path -> fs1 !! q = fs !! q.
Proof.
  unfold open_checked. intros H Hq. destruct (is_index_db _) as [[]|]; [by eapply open_path_frame|..]; by injection H as <- _.
Qed.

(** ** The command [model] *)
Lemma model_cases o yes g1 g2 c : idle c -> usable (disk c) ->
  let c' := (cli_model o yes g1 g2 c).1 in disk c' = disk c \/ (quiet (disk c') /\ same_index (disk c) (disk c')).
Proof.
  intros Hi Hu.
  assert (forall cl c, idle c -> usable (disk c) -> let c' := (run_refine o cl g2 c).1 in
    disk c' = disk c \/ (quiet (disk c') /\ same_index (disk c) (disk c'))) as Hrefine.
  { intros cl c0 Hi0 Hu0. unfold run_refine.
    destruct (step_write (RefineClusters (refine_options o cl) g2) c0 Hi0 Hu0) as [(e & c' & H & Hd)|(a & c' & H & _ & H2)];
      cbn [run_write] in H.
    - destruct (refine_clusters (refine_options o cl) g2 c0) as [c1 [?|?]]; cbn; simplify_eq; auto.
    - destruct (refine_clusters (refine_options o cl) g2 c0) as [c1 [?|?]]; cbn; simplify_eq; auto. }
  assert (let c' := (run_initialise o g1 g2 c).1 in
    disk c' = disk c \/ (quiet (disk c') /\ same_index (disk c) (disk c'))) as Hinit.
  { unfold run_initialise.
    destruct (step_write (Initialise (Z.to_nat (clusters_or_default (m_clusters o))) (m_min_docs o) (m_include_fields o) g1) c Hi Hu)
      as [(e & c' & H & Hd)|(a & c1 & H & H1 & H2 & H3)]; cbn [run_write] in H; rewrite H.
    - cbn. auto.
    - destruct (Hrefine (Some (clusters_or_default (m_clusters o))) c1 H1) as [E|[Q S]].
      + by apply quiet_usable.
      + right. cbv zeta in *. rewrite E. done.
      + right. split; [done|]. by eapply same_index_trans. }
  unfold cli_model. destruct (bool_decide _); [|done]. destruct (m_restart o); [|by apply Hrefine].
  destruct yes; [done|]. by left.
Qed.

Lemma same_index_refl d : same_index d d.
Proof. done. Qed.
Lemma quiet_sound d d' : quiet d' -> same_index d d' -> features_unique (inverted_index d) -> sound_index d'.
Proof. intros H1 (_ & H2 & _) H3. split; [by apply quiet_usable|]. by rewrite H2. Qed.

Lemma empty_sound : sound_index empty_db.
Proof.
  destruct conn0_ready as ((_ & H1 & H2) & _). split; [exact H1|exact H2].
Qed.
Lemma version0_open f : user_version f = 0%Z -> rows f = empty_db ->
  (exists f1, open_file f = (f1, Ok (settings f1)) /\ is_current f1 /\ rows f1 = empty_db /\ tables f1 !! "doc" = None) \/
  open_file f = (set_wal f, Err NameError).
Proof.
  intros H0 Hr. destruct (decide (tables f = ∅)) as [Ht|Ht]; [destruct (decide (objects f = ∅)) as [Ho|Ho]|].
  - left. destruct (C58_new_database f H0 Ht Ho) as (f1 & H1 & H2 & H3 & _ & H4). exists f1.
    split; [exact H1|]. split; [exact H2|]. split; [by rewrite H3|].
    destruct (tables f1 !! "doc") as [cols|] eqn:E; [|done]. destruct (H4 "doc") as [x Hx]; [by rewrite E|].
    exfalso. revert Hx. clear. assert (index_tables !! "doc" = None) as -> by by_computation. done.
  - right. apply (C58_unrelated_database_refuted f H0). by right.
  - right. apply (C58_unrelated_database_refuted f H0). by left.
Qed.
Lemma version0_empty : user_version empty_file = 0%Z /\ rows empty_file = empty_db.
Proof. split; reflexivity. Qed.

Lemma healthy_other fs fs' q : healthy fs q -> fs' !! q = fs !! q -> healthy fs' q.
Proof. intros H E f docs. rewrite E. apply H. Qed.
Lemma healthy_plain fs q l : healthy (<[q := PlainFile l]> fs) q.
Proof. intros f docs. by rewrite lookup_insert. Qed.
Lemma healthy_index fs q f docs : is_current f -> sound_index (rows f) -> healthy (<[q := DbFile f docs]> fs) q.
Proof. intros H1 H2 f' docs'. rewrite lookup_insert. intros [= <- <-]. by left. Qed.
Lemma healthy_zero fs q f docs : user_version f = 0%Z -> rows f = empty_db -> healthy (<[q := DbFile f docs]> fs) q.
Proof. intros H1 H2 f' docs'. rewrite lookup_insert. intros [= <- <-]. by right. Qed.
Lemma healthy_index_at fs q d : index_at fs q d -> sound_index d -> healthy fs q.
Proof. intros (f & docs & H & Hf & <-) Hs f' docs' E. rewrite H in E. injection E as <- <-. by left. Qed.

(** What [as_database] sees at a healthy path. *)
Lemma healthy_database fs q f docs : healthy fs q -> as_database (fs !! q) = Some (f, docs) ->
  ((is_current f /\ sound_index (rows f)) \/ (user_version f = 0%Z /\ rows f = empty_db)) /\
  (fs !! q = Some (DbFile f docs) \/ tables f = ∅).
Proof.
  intros Hh H. destruct (fs !! q) as [[l|f' docs']|] eqn:E; cbn in H.
  - destruct l; [|done]. injection H as <- <-. split; [right; apply version0_empty|by right].
  - injection H as <- <-. split; [by apply (Hh f' docs')|by left].
  - injection H as <- <-. split; [right; apply version0_empty|by right].
Qed.
Lemma open_path_healthy q fs fs1 r : healthy fs q -> open_path q fs = (fs1, r) ->
  match r with
  | inl (f, docs) => fs1 = <[q := DbFile f docs]> fs /\ is_current f /\ sound_index (rows f) /\
      (forall cols, tables f !! "doc" = Some cols -> exists f0, fs !! q = Some (DbFile f0 docs) /\ tables f0 !! "doc" = Some cols) /\
      (forall d, index_at fs q d -> rows f = d)
  | inr o => o <> Done /\ healthy fs1 q /\ forall d, ~ index_at fs q d
  end.
Proof.
  intros Hh. unfold open_path. destruct (as_database (fs !! q)) as [[f docs]|] eqn:Ea.
  2:{ intros [= <- <-]. split; [done|]. split; [done|]. intros d (f & docs & H & _). by rewrite H in Ea. }
  destruct (healthy_database _ _ _ _ Hh Ea) as [[[Hc Hs]|[H0 Hr]] Hf].
  - rewrite current_open, current_has_tables by exact Hc. cbv zeta iota beta. intros [= <- <-].
    split; [done|]. split; [exact Hc|]. split; [exact Hs|]. split.
    + intros cols Ht. destruct Hf as [Hf|Hf]; [eauto|]. cbn in Ht. by rewrite Hf, lookup_empty in Ht.
    + intros d (f' & docs' & H & _ & <-). rewrite H in Ea. cbn in Ea. by injection Ea as <- <-.
  - assert (forall d, ~ index_at fs q d) as Hno.
    { intros d (f' & docs' & H & (Hv & _) & _). rewrite H in Ea. cbn in Ea. injection Ea as -> ->. congruence. }
    destruct (version0_open f H0 Hr) as [(f1 & Ho & Hc & Hr1 & Ht)|Ho]; rewrite Ho; cbv zeta iota beta.
    + rewrite current_has_tables by exact Hc. intros [= <- <-]. split; [done|]. split; [exact Hc|].
      split; [rewrite Hr1; apply empty_sound|]. split; [intros cols E; by rewrite Ht in E|]. intros d Hd. by apply Hno in Hd.
    + intros [= <- <-]. split; [done|]. split; [|exact Hno]. by apply healthy_zero.
Qed.
Lemma open_checked_healthy q fs fs1 r : healthy fs q -> open_checked q fs = (fs1, r) ->
  match r with
  | inl (f, docs) => fs1 = <[q := DbFile f docs]> fs /\ is_current f /\ sound_index (rows f) /\ (forall d, index_at fs q d -> rows f = d)
  | inr o => o <> Done /\ healthy fs1 q /\ forall d, ~ index_at fs q d
  end.
Proof.
  intros Hh. unfold open_checked. destruct (is_index_db (on_disk_of (fs !! q))) as [[]|] eqn:E.
  - intros H. pose proof (open_path_healthy q fs fs1 r Hh H) as Ho. destruct r as [[f docs]|o]; [|done].
    by destruct Ho as (H1 & H2 & H3 & _ & H4).
  - intros [= <- <-]. split; [done|]. split; [done|]. intros d (f & docs & H & Hf & _).
    rewrite H, is_index_current in E by exact Hf. done.
  - intros [= <- <-]. split; [done|]. split; [done|]. intros d (f & docs & H & Hf & _).
    rewrite H, is_index_current in E by exact Hf. done.
Qed.

(** ** Every command *)
Lemma pt_corpus_lookup tok m x key r : pt_corpus tok m !! x = Some (key, r) <->
  exists k txt, bm_list (dom m) !! x = Some k /\ m !! k = Some txt /\ key = VInt (Z.of_N k) /\ r = pt_index tok txt.
Proof.
  unfold pt_corpus, corpus.
  assert (forall l : list N, (forall k, k ∈ l -> k ∈ dom m) ->
    omap (M := list) (fun k => (fun text => (VInt (Z.of_N k), pt_index tok text)) <$> m !! k) l
    = (fun k => (VInt (Z.of_N k), pt_index tok (default (VInt 0) (m !! k)))) <$> l) as H.
  { intros l. induction l as [|k l IH]; intros Hl; [done|]. cbn.
    destruct (m !! k) as [v|] eqn:E; cbn.
    - f_equal. apply IH. intros; apply Hl; by right.
    - exfalso. assert (k ∈ dom m) as Hk by (apply Hl; left). apply elem_of_dom in Hk as [? Hk]. congruence. }
  rewrite H by (intros k; apply elem_of_bm_list). rewrite list_lookup_fmap. split.
  - destruct (bm_list (dom m) !! x) as [k|] eqn:E; [|done]. cbn. intros [= <- <-].
    assert (k ∈ dom m) as Hk by (apply elem_of_bm_list; by eapply elem_of_list_lookup_2).
    apply elem_of_dom in Hk as [v Hv]. exists k, v. rewrite Hv. done.
  - intros (k & txt & -> & Hk & -> & ->). cbn. by rewrite Hk.
Qed.

Lemma indexed_is_index bsz pos tok m s cn cn' :
  index_ready cn -> complete s (length (batches bsz (pt_corpus tok m))) ->
  run_index bsz pos (pt_corpus tok m) s cn = (cn', Ok tt) -> is_index_of tok (disk cn') m.
Proof.
  intros Hr Hc Hrun.
  pose proof (C11_documents_and_keys bsz pos _ s cn cn' ∅ Hr Hc Hrun) as [Hk _].
  assert (forall doc k, doc_key (disk cn') !! doc = Some (VInt (Z.of_N k)) <-> bm_list (dom m) !! N.to_nat doc = Some k) as Hkey.
  { intros doc k. rewrite Hk. split.
    - destruct (pt_corpus tok m !! N.to_nat doc) as [[key r]|] eqn:E; [|done]. cbn. intros [= ->].
      apply pt_corpus_lookup in E as (k' & txt & E1 & E2 & E3 & _). injection E3 as E3. rewrite E1. f_equal. lia.
    - intros E. assert (k ∈ dom m) as Hin by (apply elem_of_bm_list; by eapply elem_of_list_lookup_2).
      apply elem_of_dom in Hin as [txt Ht].
      rewrite (proj2 (pt_corpus_lookup tok m (N.to_nat doc) (VInt (Z.of_N k)) (pt_index tok txt))); [done|]. eauto 10. }
  split; [|split].
  - intros k. rewrite <- elem_of_dom, <- elem_of_bm_list, elem_of_list_lookup. split.
    + intros [i Hi]. exists (N.of_nat i). apply Hkey. by rewrite Nat2N.id.
    + intros [doc Hd]. apply Hkey in Hd. eauto.
  - intros doc doc' k H1 H2.
    apply Hk in H1 as E1. destruct (pt_corpus tok m !! N.to_nat doc) as [[key r]|] eqn:E; [|done]. cbn in E1. injection E1 as ->.
    apply pt_corpus_lookup in E as (k' & txt & E2 & _ & -> & _). apply Hkey in H1, H2.
    assert (NoDup (bm_list (dom m))) as Hnd by apply NoDup_bm_list.
    apply N2Nat.inj. by eapply NoDup_lookup.
  - intros w. destruct (C06_boolean_index_exact bsz pos _ s cn cn' Hr Hc Hrun "text" (VText w)) as (docs & Hd & Hiff & _).
    exists docs. split; [done|]. intros doc. rewrite Hiff. unfold doc_matches. split.
    + intros (key & fs & Hl & fv & Hin & Hv). apply pt_corpus_lookup in Hl as (k & txt & H1 & H2 & -> & H3).
      destruct txt as [z|txt]; cbn in H3; [done|]. injection H3 as ->. exists k, txt. split; [by apply Hkey|]. split; [done|].
      apply elem_of_list_singleton in Hin as [= ->]. cbn in Hv. apply elem_of_list_fmap in Hv as (w' & [= <-] & Hw). done.
    + intros (k & txt & H1 & H2 & Hw). apply Hkey in H1.
      eexists _, _. split; [apply pt_corpus_lookup; exists k, (VText txt); split_and!; [done|done|reflexivity|reflexivity]|].
      eexists. split; [by left|]. cbn. apply elem_of_list_fmap. eauto.
Qed.

Lemma is_index_of_same tok d d' m : same_index d d' -> is_index_of tok d m -> is_index_of tok d' m.
Proof.
  intros (E1 & E2 & _) (H1 & H2 & H3). unfold is_index_of, getitem. rewrite E1, E2. split; [exact H1|]. split; [exact H2|exact H3].
Qed.

Lemma without_docs_call cn : idle cn -> exists cn', index_without_docs cn = (cn', Err OperationalError) /\ disk cn' = disk cn.
Proof.
  intros Hi. rewrite (idle_eq cn Hi). unfold index_without_docs. cbn. eexists. split; [reflexivity|]. done.
Qed.

Section Steps.
  Variables (limit : nat) (tok : string -> list string) (parse : string -> option Z) (linesep : list char).

  Lemma build_step corpus q bsz pos sched p fs fs' o :
    healthy fs q -> (forall n, complete (sched n) n) -> p 0 = None ->
    run_index_command tok corpus q bsz pos sched p fs = (fs', o) ->
    healthy fs' q /\
    (o <> Done -> forall d, index_at fs q d -> index_at fs' q d) /\
    (o = Done -> exists m d, documents_at fs corpus m /\ index_at fs' q d /\ is_index_of tok d m).
  Proof.
    intros Hh Hs Hp. unfold run_index_command. destruct (fs !! corpus) as [cc|] eqn:Ec.
    2:{ intros [= <- <-]. split; [done|]. split; [done|done]. }
    destruct (open_path q fs) as [fs1 r] eqn:Eo. pose proof (open_path_healthy q fs fs1 r Hh Eo) as Ho.
    destruct r as [[f docs]|o1].
    2:{ intros [= <- <-]. destruct Ho as (H1 & H2 & H3). split; [done|]. split; [|done]. intros _ d Hd. by apply H3 in Hd. }
    destruct Ho as (-> & Hc & Hsd & Hdoc & Hrow).
    assert (forall d, index_at fs q d -> index_at (<[q := DbFile f docs]> fs) q d) as Hopened.
    { intros d Hd. exists f, docs. rewrite lookup_insert. split; [done|]. split; [exact Hc|by apply Hrow]. }
    destruct (as_database (<[q := DbFile f docs]> fs !! corpus)) as [[cf cdocs]|] eqn:Ea.
    2:{ intros [= <- <-]. split; [by apply healthy_index|]. split; [|done]. intros _. exact Hopened. }
    assert (forall d, index_at (store q f docs d (<[q := DbFile f docs]> fs)) q d) as Hstore.
    { intros d. exists (set_rows d f), docs. unfold store. rewrite lookup_insert. split; [done|]. split; [by apply set_rows_current|done]. }
    assert (forall d, sound_index d -> healthy (store q f docs d (<[q := DbFile f docs]> fs)) q) as Hheal.
    { intros d Hd. eapply healthy_index_at; [apply Hstore|exact Hd]. }
    unfold doc_table_of. destruct (bool_decide (tables cf !! "doc" = Some doc_columns)) eqn:Hcols.
    2:{ clear Hcols. cbv zeta iota beta.
        destruct (without_docs_call (open_index (rows f) p) (idle_open _ _)) as (cn & -> & Hd).
        rewrite Hd. change (disk (open_index (rows f) p)) with (rows f). intros [= <- <-].
        split; [by apply Hheal|]. split; [|done]. intros _ d Hd'. rewrite <- (Hrow d Hd'). apply Hstore. }
    apply bool_decide_eq_true in Hcols. cbv zeta.
    set (s := sched (length (batches bsz (pt_corpus tok cdocs)))).
    assert (complete s (length (batches bsz (pt_corpus tok cdocs)))) as Hcomp by apply Hs.
    assert (index_ready (open_index (rows f) p)) as Hready.
    { destruct Hsd as [Hu Hf]. split; [apply idle_open|]. split; [exact Hu|exact Hf]. }
    destruct (run_index bsz pos (pt_corpus tok cdocs) s (open_index (rows f) p)) as [cn r] eqn:Er. intros [= <- <-].
    destruct r as [[]|e].
    - destruct (ready_after _ _ _ _ _ _ Hready Hcomp Er) as (_ & _ & _ & _ & _ & _ & _ & Hq & Hex).
      split; [apply Hheal; split; [by apply quiet_usable|apply Hex]|]. split; [done|]. intros _.
      exists cdocs, (disk cn). split; [|split; [apply Hstore|by eapply indexed_is_index]].
      destruct (decide (corpus = q)) as [->|Hne].
      + rewrite lookup_insert in Ea. cbn in Ea. injection Ea as -> ->.
        destruct (Hdoc _ Hcols) as (f0 & H1 & H2). exists f0. done.
      + rewrite lookup_insert_ne in Ea by done. rewrite Ec in Ea. unfold documents_at. rewrite Ec.
        destruct cc as [[|]|cf' cd']; cbn in Ea; [|done|].
        * injection Ea as <- <-. done.
        * injection Ea as -> ->. eauto.
    - assert (cn = open_index (rows f) p) as ->.
      { by eapply C09_failed_indexing_changes_nothing. }
      change (disk (open_index (rows f) p)) with (rows f).
      split; [by apply Hheal|]. split; [|done]. intros _ d Hd'. rewrite <- (Hrow d Hd'). apply Hstore.
  Qed.

  Lemma replace_docs_ok xs st : (replace_docs xs st).2 = Ok tt.
  Proof. done. Qed.

  Lemma command_frame c fs fs' o q : run_command limit tok parse linesep c fs = (fs', o) ->
    q ≠ database_of c -> output_of c ≠ Some q -> fs' !! q = fs !! q.
  Proof.
    destruct c as [text corpus garbage|corpus index bsz pos sched p|index om yes g1 g2 p|corpus index output per g rest|index output k|index v];
      cbn [run_command database_of output_of]; intros H Hq Hout.
    - unfold run_create in H. destruct (fs !! text) as [src|]; [|by injection H as <- _].
      destruct (as_database (fs !! corpus)) as [[f docs]|]; [|by injection H as <- _]. cbv zeta in H.
      destruct (replace_docs _ _) as [st r]. injection H as <- _. by rewrite lookup_insert_ne.
    - unfold run_index_command in H. destruct (fs !! corpus) as [src|]; [|by injection H as <- _].
      destruct (open_path index fs) as [fs1 r] eqn:Eo. pose proof (open_path_frame _ _ _ _ q Eo Hq) as Hf.
      destruct r as [[f docs]|o1]; [|by injection H as <- _].
      destruct (as_database (fs1 !! corpus)) as [[cf cd]|]; [|by injection H as <- _]. cbv zeta in H.
      destruct (doc_table_of cf cd) as [m|].
      + destruct (run_index _ _ _ _ _) as [cn r]. injection H as <- _. unfold store. by rewrite lookup_insert_ne.
      + destruct (index_without_docs _) as [cn r]. injection H as <- _. unfold store. by rewrite lookup_insert_ne.
    - unfold run_model in H. destruct (fs !! index) as [src|]; [|by injection H as <- _].
      destruct (open_path index fs) as [fs1 r] eqn:Eo. pose proof (open_path_frame _ _ _ _ q Eo Hq) as Hf.
      destruct r as [[f docs]|o1]; [|by injection H as <- _].
      destruct (cli_model _ _ _ _ _) as [cn e]. injection H as <- _. unfold store. by rewrite lookup_insert_ne.
    - unfold run_sample in H. destruct (fs !! corpus) as [src|]; [|by injection H as <- _].
      destruct (fs !! index) as [src2|]; [|by injection H as <- _].
      destruct (open_checked index fs) as [fs1 r] eqn:Eo. pose proof (open_checked_frame _ _ _ _ q Eo Hq) as Hf.
      destruct r as [[f docs]|o1]; [|by injection H as <- _]. cbv zeta in H.
      assert (forall l : stored_file, <[output := l]> fs1 !! q = fs !! q) as Hw.
      { intros l. rewrite lookup_insert_ne; [done|]. intros ->. by apply Hout. }
      destruct (as_database (fs1 !! corpus)) as [[cf cd]|]; [destruct (rbind _ _) as [tb|e]|];
        injection H as <- _; try destruct rest; auto.
    - unfold run_export in H. destruct (fs !! index) as [src|]; [|by injection H as <- _].
      destruct (open_checked index fs) as [fs1 r] eqn:Eo. pose proof (open_checked_frame _ _ _ _ q Eo Hq) as Hf.
      destruct r as [[f docs]|o1]; [|by injection H as <- _]. injection H as <- _.
      rewrite lookup_insert_ne; [done|]. intros ->. by apply Hout.
    - unfold run_request in H. destruct (fs !! index) as [src|]; [|by injection H as <- _].
      destruct (open_checked index fs) as [fs1 r] eqn:Eo. pose proof (open_checked_frame _ _ _ _ q Eo Hq) as Hf.
      destruct r as [[f docs]|o1]; [|by injection H as <- _].
      destruct (Web.serve _ _ _ _ _ _) as [d a]. injection H as <- _. unfold store. by rewrite lookup_insert_ne.
  Qed.

  (** A command other than an index command for [q] keeps what the index at [q] finds. *)
  Lemma command_keeps c fs fs' o q : healthy fs q -> run_command limit tok parse linesep c fs = (fs', o) ->
    ~ indexes c q -> output_of c ≠ Some q ->
    healthy fs' q /\ forall d, index_at fs q d -> exists d', index_at fs' q d' /\ sound_index d' /\ same_index d d'.
  Proof.
    intros Hh H Hix Hout. destruct (decide (q = database_of c)) as [Hq|Hq].
    2:{ pose proof (command_frame c fs fs' o q H Hq Hout) as E. split; [by eapply healthy_other|].
        intros d Hd. exists d. split; [|split; [|done]].
        - destruct Hd as (f & docs & E1 & E2). exists f, docs. by rewrite E.
        - destruct Hd as (f & docs & E1 & E2 & <-). destruct (Hh f docs E1) as [[_ ?]|[Hv _]]; [done|].
          destruct E2 as (Hv' & _). congruence. }
    assert (forall f docs d, is_current f -> sound_index d -> forall fs0,
      healthy (<[q := DbFile (set_rows d f) docs]> fs0) q /\ index_at (<[q := DbFile (set_rows d f) docs]> fs0) q d) as Hput.
    { intros f docs d Hc Hd fs0. split; [by apply healthy_index|]. exists (set_rows d f), docs. rewrite lookup_insert.
      split; [done|]. split; [by apply set_rows_current|done]. }
    assert (forall f docs d, sound_index (rows f) -> is_current f -> (d = rows f \/ (quiet d /\ same_index (rows f) d)) ->
      (forall d0, index_at fs q d0 -> rows f = d0) ->
      healthy (store q f docs d (<[q := DbFile f docs]> fs)) q /\
      forall d0, index_at fs q d0 -> exists d', index_at (store q f docs d (<[q := DbFile f docs]> fs)) q d' /\ sound_index d' /\ same_index d0 d') as Hcall.
    { intros f docs d Hs Hc Hd Hrow. assert (sound_index d /\ same_index (rows f) d) as [Hs' Hsame].
      { destruct Hd as [->|[Hq' Hsm]]; [done|]. split; [|done]. destruct Hs. by eapply quiet_sound. }
      destruct (Hput f docs d Hc Hs' (<[q := DbFile f docs]> fs)) as [H1 H2]. split; [done|].
      intros d0 Hd0. exists d. split; [done|]. split; [done|]. by rewrite <- (Hrow d0 Hd0). }
    destruct c as [text corpus garbage|corpus index bsz pos sched p|index om yes g1 g2 p|corpus index output per g rest|index output k|index v];
      cbn [run_command database_of output_of indexes] in *; subst q; [| |clear Hput|clear Hput Hcall|clear Hput Hcall|clear Hput].
    - clear Hcall. assert (healthy fs corpus /\ (forall d, index_at fs corpus d -> exists d', index_at fs corpus d' /\ sound_index d' /\ same_index d d')) as Hsame.
      { split; [done|]. intros d Hd. exists d. split; [done|]. split; [|done].
        destruct Hd as (f & docs & E1 & E2 & <-). destruct (Hh f docs E1) as [[_ ?]|[Hv _]]; [done|]. destruct E2 as (Hv' & _). congruence. }
      unfold run_create in H. destruct (fs !! text) as [src|]; [|injection H as <- _; exact Hsame].
      destruct (as_database (fs !! corpus)) as [[f docs]|] eqn:Ea; [|injection H as <- _; exact Hsame]. cbv zeta in H.
      destruct (replace_docs _ _) as [st r]. injection H as <- _.
      destruct (healthy_database _ _ _ _ Hh Ea) as [Hcase _].
      match goal with |- healthy (<[corpus := ?X]> fs) _ /\ _ => assert (exists f1 docs1, X = DbFile f1 docs1 /\
        rows f1 = rows f /\ user_version f1 = user_version f /\ (is_current f -> is_current f1)) as (f1 & docs1 & E1 & Hr1 & Hv1 & Hc1) end.
      { destruct (pt_disk st) as [m|]; eexists _, _; (split; [reflexivity|]); (split; [done|]); (split; [done|]); [|done].
        intros (H1 & H2 & H3 & H4). split; [done|]. split; [done|]. split; [|done]. intros t cols Ht. cbn [tables set_tables set_wal].
        rewrite lookup_insert_ne; [by apply H3|]. intros <-. revert Ht. clear.
        assert (index_tables !! "doc" = None) as -> by by_computation. done. }
      rewrite E1. clear E1. destruct Hcase as [[Hc Hs]|[H0 Hr]].
      + split; [apply healthy_index; [by apply Hc1|by rewrite Hr1]|]. intros d Hd. exists (rows f). split; [|split; [done|]].
        * exists f1, docs1. rewrite lookup_insert. split; [done|]. split; [by apply Hc1|done].
        * destruct Hd as (f' & docs' & E1 & E2 & <-). rewrite E1 in Ea. cbn in Ea. by injection Ea as -> ->.
      + split; [apply healthy_zero; congruence|]. intros d (f' & docs' & E1 & (Hv & _) & _).
        rewrite E1 in Ea. cbn in Ea. injection Ea as -> ->. congruence.
    - by exfalso.
    - unfold run_model in H. destruct (fs !! index) as [src|] eqn:Ei.
      2:{ injection H as <- _. split; [done|]. intros d (f & docs & E & _). congruence. }
      destruct (open_path index fs) as [fs1 r] eqn:Eo. pose proof (open_path_healthy _ _ _ _ Hh Eo) as Ho.
      destruct r as [[f docs]|o1].
      2:{ injection H as <- _. destruct Ho as (_ & H2 & H3). split; [done|]. intros d Hd. by apply H3 in Hd. }
      destruct Ho as (-> & Hc & Hs & _ & Hrow).
      pose proof (model_cases om yes g1 g2 (open_index (rows f) p) (idle_open _ _) (proj1 Hs)) as Hm. cbv zeta in Hm.
      destruct (cli_model _ _ _ _ _) as [cn e]. injection H as <- _. cbn [fst] in Hm. by apply Hcall.
    - unfold run_sample in H. destruct (fs !! corpus) as [src|]; [|injection H as <- _].
      2:{ split; [done|]. intros d Hd. exists d. split; [done|]. split; [|done].
          destruct Hd as (f & docs & E1 & E2 & <-). destruct (Hh f docs E1) as [[_ ?]|[Hv _]]; [done|]. destruct E2 as (Hv' & _). congruence. }
      destruct (fs !! index) as [src2|] eqn:Ei.
      2:{ injection H as <- _. split; [done|]. intros d (f & docs & E & _). congruence. }
      destruct (open_checked index fs) as [fs1 r] eqn:Eo. pose proof (open_checked_healthy _ _ _ _ Hh Eo) as Ho.
      destruct r as [[f docs]|o1].
      2:{ injection H as <- _. destruct Ho as (_ & H2 & H3). split; [done|]. intros d Hd. by apply H3 in Hd. }
      destruct Ho as (-> & Hc & Hs & Hrow). cbv zeta in H.
      assert (fs' !! index = Some (DbFile f docs)) as Hfs'.
      { assert (forall l : stored_file, <[output := l]> (<[index := DbFile f docs]> fs) !! index = Some (DbFile f docs)) as Hw.
        { intros l. rewrite lookup_insert_ne by (intros ->; by apply Hout). by rewrite lookup_insert. }
        destruct (as_database (_ !! corpus)) as [[cf cd]|]; [destruct (rbind _ _) as [tb|e]|];
          injection H as <- _; try destruct rest; try apply Hw; by rewrite lookup_insert. }
      split.
      + intros f' docs' E. rewrite Hfs' in E. injection E as <- <-. by left.
      + intros d Hd. exists d. rewrite (Hrow d Hd) in Hs. split; [|split; [done|done]].
        exists f, docs. split; [done|]. split; [done|by apply Hrow].
    - unfold run_export in H. destruct (fs !! index) as [src|] eqn:Ei.
      2:{ injection H as <- _. split; [done|]. intros d (f & docs & E & _). congruence. }
      destruct (open_checked index fs) as [fs1 r] eqn:Eo. pose proof (open_checked_healthy _ _ _ _ Hh Eo) as Ho.
      destruct r as [[f docs]|o1].
      2:{ injection H as <- _. destruct Ho as (_ & H2 & H3). split; [done|]. intros d Hd. by apply H3 in Hd. }
      destruct Ho as (-> & Hc & Hs & Hrow). injection H as <- _.
      assert (<[output := PlainFile (clusters_file linesep (cli_export (rows f) k))]> (<[index := DbFile f docs]> fs) !! index = Some (DbFile f docs)) as Hfs'.
      { rewrite lookup_insert_ne by (intros ->; by apply Hout). by rewrite lookup_insert. }
      split.
      + intros f' docs' E. rewrite Hfs' in E. injection E as <- <-. by left.
      + intros d Hd. exists d. rewrite (Hrow d Hd) in Hs. split; [|split; [done|done]].
        exists f, docs. split; [done|]. split; [done|by apply Hrow].
    - unfold run_request in H. destruct (fs !! index) as [src|] eqn:Ei.
      2:{ injection H as <- _. split; [done|]. intros d (f & docs & E & _). congruence. }
      destruct (open_checked index fs) as [fs1 r] eqn:Eo. pose proof (open_checked_healthy _ _ _ _ Hh Eo) as Ho.
      destruct r as [[f docs]|o1].
      2:{ injection H as <- _. destruct Ho as (_ & H2 & H3). split; [done|]. intros d Hd. by apply H3 in Hd. }
      destruct Ho as (-> & Hc & Hs & Hrow).
      pose proof (serve_consistent parse (v_pool v) (v_g1 v) (v_g2 v) (v_request v) (rows f) (proj1 Hs)) as Hm. cbv zeta in Hm.
      destruct (Web.serve _ _ _ _ _ _) as [d a]. injection H as <- _. cbn [fst] in Hm. by apply Hcall.
  Qed.
End Steps.
