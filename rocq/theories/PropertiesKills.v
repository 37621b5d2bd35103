(** PropertiesKills.v: C111 and C112, commands that are killed. Vocabulary: SpecCommands.v;
    [during] and [evolves] (Kills.v): the files at some instant of a command, and histories
    with killed commands. *)
From stdpp Require Import pretty.
From Verif Require Import SampleDb PropertiesIndexing PropertiesCorpus PropertiesCsv CorpusCalls PropertiesCli WebProofs RebuildProofs KillProofs PropertiesCommands.

(** ** C111: killing a command *)

(** The end of a command is one of its instants. *)
Theorem C111_end : forall limit tok parse linesep c fs fs' o,
  run_command limit tok parse linesep c fs = (fs', o) -> during limit tok parse c fs fs'.
Proof. exact run_during. Qed.
Print Assumptions C111_end.

Lemma workers_complete c : workers_finish c ->
  forall corpus index bsz pos sched p, c = BuildIndex corpus index bsz pos sched p -> forall n, complete (sched n) n.
Proof. intros H corpus index bsz pos sched p ->. exact H. Qed.

(** Whatever command is killed, and whenever: an index is still a sound index, and it finds
    what it found before; if it was being indexed, it may also be the finished index of the
    new documents. *)
Theorem C111_index_kept_partial : forall limit tok parse c fs fs' q d,
  index_at fs q d -> sound_index d -> during limit tok parse c fs fs' -> workers_finish c -> output_of c ≠ Some q ->
  exists d', index_at fs' q d' /\ sound_index d' /\
    (same_index d d' \/
     exists corpus bsz pos sched p m, c = BuildIndex corpus q bsz pos sched p /\ documents_at fs corpus m /\ is_index_of tok d' m).
Proof.
  intros limit tok parse c fs fs' q d Hd Hs H Hw Ho.
  destruct (during_step limit tok parse c fs fs' q (healthy_index_at _ _ _ Hd Hs) H (workers_complete c Hw) Ho) as (A & B & C).
  apply index_at_known in Hd as [Hi <-]. exists (known fs' q). split; [apply index_at_known; auto|].
  split; [by apply healthy_sound|]. exact C.
Qed.
Print Assumptions C111_index_kept_partial.

Lemma replaced xs m : exists m', pt_disk (replace_docs xs (PtDb (Some m) None)).1 = Some m'.
Proof.
  assert ((exists e, Err e ∈ xs) \/ exists vs, xs = Ok <$> vs) as [[e He]|[vs ->]].
  { induction xs as [|[v|e] xs IH]; [right; by exists []| |left; exists e; left].
    destruct IH as [[e He]|[vs ->]]; [left; exists e; by right|right; by exists (v :: vs)]. }
  - exists m. by rewrite (C55_failure_keeps_documents xs e (PtDb (Some m) None) eq_refl He).
  - destruct (C55_replace_docs_partial vs (PtDb (Some m) None) eq_refl) as (m' & -> & _). by exists m'.
Qed.
(** A killed command leaves the documents of a corpus as they were, unless it was creating
    that corpus; then there are the old documents or all the new ones. *)
Theorem C111_documents_kept : forall limit tok parse linesep c fs fs' q m,
  healthy fs q -> documents_at fs q m -> during limit tok parse c fs fs' -> output_of c ≠ Some q ->
  documents_at fs' q m \/
  exists text garbage fs1 m', c = Create text q garbage /\
    run_command limit tok parse linesep c fs = (fs1, Done) /\ documents_at fs1 q m' /\ documents_at fs' q m'.
Proof.
  intros limit tok parse linesep c fs fs' q m Hh (f0 & Ef & Hcols) H Ho.
  assert (Hdocs : documents_at fs q m) by (exists f0; done).
  destruct (decide (q = database_of c)) as [Hq|Hq].
  2:{ left. pose proof (during_frame limit tok parse c fs fs' q H Hq Ho) as E. exists f0. by rewrite E. }
  assert (tables f0 ≠ ∅) as Hne by (intros E; by rewrite E, lookup_empty in Hcols).
  assert (forall fs2, while_opening q fs fs2 -> exists f2, fs2 !! q = Some (DbFile f2 m) /\ tables f2 = tables f0) as Hopn.
  { intros fs2 [|Hn|f docs f' Ha Hf]; [eauto|congruence|]. rewrite Ef in Ha. cbn in Ha. injection Ha as <- <-.
    rewrite lookup_insert. eexists. split; [reflexivity|].
    destruct (Hh f0 m Ef) as [[Hc _]|[H0 Hr]]; [by rewrite (current_states f0 f' Hc Hf)|].
    rewrite version0_migrate in Hf by done.
    rewrite (proj1 (PropertiesMigrate.C58_unrelated_database_refuted f0 H0 (or_introl Hne))) in Hf.
    repeat (apply elem_of_cons in Hf as [->|Hf]; [done|]). by apply elem_of_nil in Hf. }
  assert (forall fs2 f docs, open_path q fs = (fs2, inl (f, docs)) -> docs = m /\ tables f = tables f0 /\ fs2 = <[q := DbFile f docs]> fs) as Hopen.
  { intros fs2 f docs Eo. destruct (open_path_known _ _ _ _ _ Hh Eo) as (E2 & _).
    destruct (Hopn fs2) as (f2 & E3 & E4).
    - unfold open_path in Eo. destruct (as_database (fs !! q)) as [[f1 docs1]|] eqn:Ea; [|done].
      destruct (open_file f1) as [f3 [u|e]] eqn:E5; [|done]. cbv zeta in Eo. destruct (has_tables f3); [|done]. injection Eo as <- _ _.
      eapply opening_some; [exact Ea|]. rewrite E5. right; right; left.
    - rewrite E2, lookup_insert in E3. injection E3 as -> ->. done. }
  destruct H; cbn [database_of] in Hq.
  - by left.
  - left. rewrite (index_of_database _ _ H) in Hq. subst index. destruct (Hopn _ H1) as (f2 & E1 & E2). exists f2. by rewrite E2.
  - congruence.
  - subst corpus. rewrite Ef in H0. cbn in H0. injection H0 as <- <-.
    assert (doc_table_of f0 m = Some m) as Ht by (unfold doc_table_of; by rewrite bool_decide_eq_true_2).
    assert (forall t m', t = Some m' -> documents_at (<[q := with_doc_table (set_wal f0) m t]> fs) q m') as Hdoc.
    { intros t m' ->. unfold with_doc_table. eexists. rewrite lookup_insert. split; [reflexivity|]. cbn [tables set_tables set_wal]. by rewrite lookup_insert. }
    rewrite Ht in *. destruct (C55_crash xs (PtDb (Some m) None) n eq_refl) as [E|E]; rewrite E.
    + left. by apply Hdoc.
    + right. exists text, garbage.
      destruct (replaced xs m) as [m' Em']. rewrite Em'.
      eexists (<[q := with_doc_table (set_wal f0) m (Some m')]> fs), m'. split; [done|]. split; [|split; by apply Hdoc].
      cbn [run_command]. unfold run_create. rewrite H, Ef. cbn [as_database]. rewrite Ht. fold xs.
      destruct (replace_docs xs (PtDb (Some m) None)) as [st r] eqn:Er. cbn [fst] in Em'. unfold replace_docs in Er. injection Er as _ <-.
      cbv zeta. rewrite Em'. done.
  - left. subst index. destruct (Hopen _ _ _ H) as (-> & E1 & _). unfold store. exists (set_rows d f). rewrite lookup_insert. split; [done|]. cbn. by rewrite E1.
  - left. subst index. destruct (Hopen _ _ _ H) as (-> & E1 & _). unfold store. exists (set_rows d f). rewrite lookup_insert. split; [done|]. cbn. by rewrite E1.
  - left. subst index. apply open_checked_path in H as [H _].
    destruct (Hopen _ _ _ H) as (-> & E1 & _). unfold store. exists (set_rows d f). rewrite lookup_insert. split; [done|]. cbn. by rewrite E1.
  - left. rewrite (index_of_database _ _ H) in Hq. subst index. apply open_checked_path in H1 as [H1 _]. destruct (Hopen _ _ _ H1) as (-> & E1 & ->).
    assert (output ≠ q) as Hoq. { intros ->. apply Ho. destruct c; cbn in *; try done; by subst. }
    exists f. rewrite lookup_insert_ne by done. rewrite lookup_insert. split; [done|]. by rewrite E1.
Qed.
Print Assumptions C111_documents_kept.

(** A finished [model] command makes the clustering of an index complete again, whatever
    was killed before; then [index] works (C107). *)
Theorem C111_model_repairs : forall limit tok parse linesep q o yes g1 g2 p fs fs' d,
  index_at fs q d -> sound_index d -> run_command limit tok parse linesep (Model q o yes g1 g2 p) fs = (fs', Done) ->
  exists d', index_at fs' q d' /\ quiet d' /\ same_index d d' /\ features_unique (inverted_index d').
Proof.
  intros limit tok parse linesep q o yes g1 g2 p fs fs' d (f & docs & E & Hc & <-) [Hu Hf] H. cbn [run_command] in H.
  unfold run_model in H. rewrite E, (open_path_current q fs f docs E Hc) in H. change (rows (set_wal f)) with (rows f) in H.
  destruct (cli_model o yes g1 g2 (open_index (rows f) p)) as [cn e] eqn:Em. injection H as <- He. destruct e; try done. clear He.
  assert (quiet (disk cn) /\ same_index (rows f) (disk cn)) as [Hq Hs].
  { assert (forall cl c, idle c -> usable (disk c) -> (run_refine o cl g2 c).2 = Finished ->
      quiet (disk (run_refine o cl g2 c).1) /\ same_index (disk c) (disk (run_refine o cl g2 c).1)) as Hr.
    { intros cl c Hi Hu'. unfold run_refine.
      destruct (step_write (RefineClusters (refine_options o cl) g2) c Hi Hu') as [(e & c' & H & Hd)|(a & c' & H & _ & H2)];
        cbn [run_write] in H; rewrite H; done. }
    assert (forall c, idle c -> usable (disk c) -> (run_initialise o g1 g2 c).2 = Finished ->
      quiet (disk (run_initialise o g1 g2 c).1) /\ same_index (disk c) (disk (run_initialise o g1 g2 c).1)) as Hn.
    { intros c Hi Hu'. unfold run_initialise.
      destruct (step_write (Initialise (Z.to_nat (clusters_or_default (m_clusters o))) (m_min_docs o) (m_include_fields o) g1) c Hi Hu')
        as [(e & c' & H & Hd)|(a & c1 & H & H1 & H2 & H3)]; cbn [run_write] in H; rewrite H; [done|].
      intros Hfin. destruct (Hr _ c1 H1 (quiet_usable _ H2) Hfin) as [A B]. split; [done|]. by eapply same_index_trans. }
    pose proof (Hr (m_clusters o) (open_index (rows f) p) (idle_open _ _) Hu) as Hr'.
    pose proof (Hn (open_index (rows f) p) (idle_open _ _) Hu) as Hn'.
    unfold cli_model in Em. destruct (bool_decide _).
    - destruct (m_restart o); [destruct yes; [|done]|]; [rewrite Em in Hn'; by apply Hn'|rewrite Em in Hr'; by apply Hr'].
    - rewrite Em in Hn'. by apply Hn'. }
  exists (disk cn). split; [|split; [done|split; [done|]]].
  - unfold store. exists (set_rows (disk cn) (set_wal f)), docs. rewrite lookup_insert. split; [done|]. split; [exact Hc|done].
  - by destruct Hs as (_ & -> & _).
Qed.
Print Assumptions C111_model_repairs.

(** ** C112: histories with killed commands *)

(** However commands run, fail and are killed: what the index at [q] knows is what some
    index knew at the start, or nothing, or it is a complete index of the documents some
    corpus held when an index command for [q] started. *)
Theorem C112_one_corpus : forall limit tok parse linesep q log fs fs',
  healthy fs q -> evolves limit tok parse linesep log fs fs' ->
  (forall c o fs1, (c, o, fs1) ∈ log -> workers_finish c /\ output_of c ≠ Some q) ->
  healthy fs' q /\
  ((exists d, index_at fs q d) -> exists d', index_at fs' q d') /\
  forall d', index_at fs' q d' ->
    (exists d, index_at fs q d /\ same_index d d') \/
    (~ (exists d, index_at fs q d) /\ same_index empty_db d') \/
    exists corpus bsz pos sched p o fs1 m,
      (BuildIndex corpus q bsz pos sched p, o, fs1) ∈ log /\ documents_at fs1 corpus m /\ is_index_of tok d' m.
Proof.
  intros limit tok parse linesep q log fs fs' Hh He Hl.
  assert (healthy fs' q /\ (indexed fs q -> indexed fs' q) /\
    (same_index (known fs q) (known fs' q) \/
     exists corpus bsz pos sched p o fs1 m,
      (BuildIndex corpus q bsz pos sched p, o, fs1) ∈ log /\ documents_at fs1 corpus m /\ is_index_of tok (known fs' q) m)) as (A & B & C).
  { assert (forall c (o : option cmd_outcome) (l : list (command * option cmd_outcome * filesystem)) fs fs1 fs2, healthy fs q -> during limit tok parse c fs fs1 -> workers_finish c -> output_of c ≠ Some q ->
      (healthy fs1 q -> healthy fs2 q /\ (indexed fs1 q -> indexed fs2 q) /\
        (same_index (known fs1 q) (known fs2 q) \/
         exists corpus bsz pos sched p o fs0 m,
          (BuildIndex corpus q bsz pos sched p, o, fs0) ∈ l /\ documents_at fs0 corpus m /\ is_index_of tok (known fs2 q) m)) ->
      healthy fs2 q /\ (indexed fs q -> indexed fs2 q) /\
        (same_index (known fs q) (known fs2 q) \/
         exists corpus bsz pos sched p o0 fs0 m,
          (BuildIndex corpus q bsz pos sched p, o0, fs0) ∈ (c, o, fs) :: l /\ documents_at fs0 corpus m /\ is_index_of tok (known fs2 q) m)) as Hstep.
    { intros c o l fs0 fs1 fs2 Hh0 Hd Hw Ho IH.
      destruct (during_step limit tok parse c fs0 fs1 q Hh0 Hd (workers_complete c Hw) Ho) as (A & B & C).
      destruct (IH A) as (A' & B' & C'). split; [done|]. split; [auto|].
      destruct C' as [Hs|(corpus & bsz & pos & sched & p & o' & fsx & m & Hin & H1 & H2)].
      - destruct C as [Hs0|(corpus & bsz & pos & sched & p & m & -> & H1 & H2)]; [left; by eapply same_index_trans|].
        right. exists corpus, bsz, pos, sched, p, o, fs0, m. split; [left|]. split; [done|]. by eapply is_index_of_same.
      - right. exists corpus, bsz, pos, sched, p, o', fsx, m. split; [by right|done]. }
    induction He as [fs|c o l fs fs1 fs2 Hrun He IH|c l fs fs1 fs2 Hk He IH].
    - split; [done|]. split; [done|by left].
    - destruct (Hl c (Some o) fs ltac:(left)) as [Hw Ho]. apply (Hstep c (Some o) l fs fs1 fs2 Hh); [by eapply run_during|done|done|].
      intros Hh1. apply IH; [done|]. intros c' o' fsx Hin. apply (Hl c' o' fsx). by right.
    - destruct (Hl c None fs ltac:(left)) as [Hw Ho]. apply (Hstep c None l fs fs1 fs2 Hh Hk Hw Ho).
      intros Hh1. apply IH; [done|]. intros c' o' fsx Hin. apply (Hl c' o' fsx). by right. }
  split; [done|]. split.
  { intros [d Hd]. apply index_at_known in Hd as [Hi _]. exists (known fs' q). apply index_at_known. auto. }
  intros d' Hd'. apply index_at_known in Hd' as [Hi <-].
  destruct C as [Hs|C]; [|by right; right].
  destruct (fs !! q) as [[l|f docs]|] eqn:E.
  - right. left. split; [|unfold known in Hs; by rewrite E in Hs]. intros (d & f & docs & E' & _). congruence.
  - destruct (Hh f docs E) as [[Hc _]|[H0 Hr]].
    + left. exists (known fs q). split; [|done]. apply index_at_known. split; [|done]. exists f, docs. done.
    + right. left. split; [|unfold known in Hs; by rewrite E, Hr in Hs]. intros (d & f' & docs' & E' & (Hv & _) & _).
      rewrite E in E'. injection E' as <- <-. congruence.
  - right. left. split; [|unfold known in Hs; by rewrite E in Hs]. intros (d & f & docs & E' & _). congruence.
Qed.
Print Assumptions C112_one_corpus.

(** ** What a killed index command can break *)
Definition shop_made : list command := [shop_index "notes.db"; Model "notes.idx" shop_options true rng0 rng0 pool_ok].
Definition shop_modelled : filesystem := (run_shop (shop_before ++ shop_made) shop).1.
Definition modelled_rows : db := match shop_modelled !! "notes.idx" with Some (DbFile f _) => rows f | _ => empty_db end.
Definition modelled_docs : gmap N value := match shop_modelled !! "notes.db" with Some (DbFile _ m) => m | _ => ∅ end.
Definition second_index : conn := (index_call two_words 1 true in_order (Some modelled_docs) (open_index modelled_rows pool_ok)).1.
Definition half_indexed : db := default empty_db (commits second_index !! 1).

Lemma shop_modelled_index : index_at shop_modelled "notes.idx" modelled_rows.
Proof.
  assert (shop_modelled = (run_shop (shop_before ++ shop_made) shop).1) as E0 by reflexivity.
  destruct (run_shop shop_before shop) as [fs1 os1] eqn:R1.
  destruct (run_command 100 two_words (fun _ => None) [lf] (shop_index "notes.db") fs1) as [fs2 o2] eqn:R2.
  destruct (run_shop [Model "notes.idx" shop_options true rng0 rng0 pool_ok] fs2) as [fs3 os3] eqn:R3.
  assert (run_shop (shop_before ++ shop_made) shop = (fs3, os1 ++ [o2] ++ os3)) as R.
  { unfold run_shop in *. rewrite run_commands_app, R1. unfold shop_made. change (?a :: ?b :: ?l) with ([a] ++ b :: l).
    rewrite run_commands_app. cbn [run_commands]. rewrite R2. cbn [run_commands] in R3. rewrite R3. reflexivity. }
  assert (o2 = Done) as ->.
  { assert ((run_shop (shop_before ++ shop_made) shop).2 = [Done; Done; Done]) as E by (vm_compute; reflexivity).
    rewrite R in E. assert (length os1 = 1) as Hl. { replace os1 with (run_shop shop_before shop).2 by (by rewrite R1). vm_compute. reflexivity. }
    clear -E Hl. destruct os1 as [|? [|]]; [discriminate Hl| |discriminate Hl]. cbn in E. injection E as _ E _. exact E. }
  destruct (C110_last_index 100 two_words (fun _ => None) [lf] "notes.idx" shop_before "notes.db" 1 true in_order pool_ok
    [Model "notes.idx" shop_options true rng0 rng0 pool_ok] shop fs1 os1 fs2 fs3 os3) as (m & d & _ & Hd & _).
  - intros f docs H. vm_compute in H. discriminate H.
  - intros c Hc. apply elem_of_cons in Hc as [->|Hc]; [split; [exact I|cbn; discriminate]|].
    apply elem_of_list_singleton in Hc as ->. split; [exact I|cbn; discriminate].
  - split; [intros n; apply complete_in_order|reflexivity].
  - exact R1.
  - exact R2.
  - exact R3.
  - intros [|[|i]] c H; cbn in H; [injection H as <-; intros Hix; destruct Hix|discriminate H|discriminate H].
  - assert (shop_modelled = fs3) as E1 by (rewrite E0, R; reflexivity).
    unfold modelled_rows. rewrite E1. destruct Hd as (f & docs & E & Hc & <-). rewrite E. exists f, docs. split; [exact E|]. split; [exact Hc|reflexivity].
Qed.

Lemma marked_stuck q f docs x fs limit tok parse linesep corpus bsz pos sched p fs'' o :
  fs !! q = Some (DbFile f docs) -> is_current f -> x ∈ dom (cluster (rows f)) -> x ∈ changed_cluster (rows f) ->
  run_command limit tok parse linesep (BuildIndex corpus q bsz pos sched p) fs = (fs'', o) -> o <> Done.
Proof.
  intros E Hc A B H. cbn [run_command] in H. unfold run_index_command in H.
  destruct (fs !! corpus) as [src|]; [|injection H as _ <-; discriminate].
  rewrite (open_path_current q fs f docs E Hc) in H.
  destruct (as_database _) as [[cf' cd']|]; [|injection H as _ <-; discriminate]. cbv zeta in H.
  change (rows (set_wal f)) with (rows f) in H.
  destruct (doc_table_of cf' cd') as [m|].
  - destruct (rebuild bsz pos (pt_corpus tok m) (sched (length (batches bsz (pt_corpus tok m)))) (rows f)) as [d1 [[]|e]] eqn:Er.
    + exfalso. apply rebuild_inv in Er as (segs & _ & Hcond & _). pose proof (rc_marks _ _ _ Hcond) as Hm. exact (Hm _ A B).
    + rewrite (index_fails _ _ _ _ (open_index (rows f) p) d1 e (idle_open _ _) Er) in H. injection H as _ <-. discriminate.
  - destruct (without_docs_call (open_index (rows f) p) (idle_open _ _)) as (cn & Ecn & _). rewrite Ecn in H. injection H as _ <-. discriminate.
Qed.
(** The files after an index command killed between its two commits. *)
Definition shop_half : filesystem :=
  match shop_modelled !! "notes.idx" with
  | Some (DbFile f docs) => store "notes.idx" (set_wal f) docs half_indexed (<["notes.idx" := DbFile (set_wal f) docs]> shop_modelled)
  | _ => shop_modelled
  end.
Lemma shop_half_during : during 100 two_words (fun _ => None) (shop_index "notes.db") shop_modelled shop_half.
Proof.
  destruct shop_modelled_index as (f & docs & E & Hc & Hr).
  assert (exists cf, shop_modelled !! "notes.db" = Some (DbFile cf modelled_docs) /\ tables cf !! "doc" = Some doc_columns) as (cf & Ecf & Hcols).
  { assert (match shop_modelled !! "notes.db" with Some (DbFile cf _) => bool_decide (tables cf !! "doc" = Some doc_columns) | _ => false end = true) as H
      by (vm_compute; reflexivity).
    unfold modelled_docs. destruct (shop_modelled !! "notes.db") as [[|cf m]|]; [discriminate H| |discriminate H]. exists cf. split; [reflexivity|]. apply bool_decide_eq_true in H. exact H. }
  unfold shop_half. rewrite E.
  pose proof (open_path_current "notes.idx" shop_modelled f docs E Hc) as Ho.
  set (fs1 := <["notes.idx" := DbFile (set_wal f) docs]> shop_modelled) in *.
  eapply (during_index _ _ _ "notes.db" "notes.idx" 1 true in_order pool_ok shop_modelled fs1 (set_wal f) docs cf modelled_docs second_index _ half_indexed).
  - exact Ho.
  - unfold fs1. rewrite lookup_insert_ne by discriminate. rewrite Ecf. reflexivity.
  - rewrite Ecf. discriminate.
  - change (rows (set_wal f)) with (rows f). rewrite Hr. unfold doc_table_of. rewrite bool_decide_eq_true_2 by exact Hcols.
    apply surjective_pairing.
  - change (rows (set_wal f)) with (rows f). rewrite Hr. right. exists (take 2 (commits second_index)), [].
    assert (length (commits second_index) = 2) as Hl by (vm_compute; reflexivity).
    split; [rewrite app_nil_r, take_ge by lia; reflexivity|]. split; [reflexivity|]. rewrite take_ge by lia.
    unfold half_indexed. destruct (commits second_index) as [|d1 [|d2 l]]; cbn in Hl; try lia. right. left.
Qed.

(** Refuted: an index command is killed after its first commit. From then on, no index
    command for this index works, whatever the corpus and the options. *)
Theorem C111_index_again_refuted : exists fs fs',
  (exists l, fs = (run_shop l shop).1) /\
  during 100 two_words (fun _ => None) (shop_index "notes.db") fs fs' /\
  forall limit tok parse linesep corpus bsz pos sched p fs'' o,
    run_command limit tok parse linesep (BuildIndex corpus "notes.idx" bsz pos sched p) fs' = (fs'', o) -> o <> Done.
Proof.
  exists shop_modelled, shop_half. split; [eexists; reflexivity|]. split; [exact shop_half_during|].
  destruct shop_modelled_index as (f & docs & E & Hc & Hr).
  intros limit tok parse linesep corpus bsz pos sched p fs'' o H.
  refine (marked_stuck "notes.idx" (set_rows half_indexed (set_wal f)) docs 0 _ limit tok parse linesep corpus bsz pos sched p fs'' o _ Hc _ _ H).
  - unfold shop_half. rewrite E. unfold store. rewrite lookup_insert. reflexivity.
  - change (rows (set_rows half_indexed (set_wal f))) with half_indexed. by_computation.
  - change (rows (set_rows half_indexed (set_wal f))) with half_indexed. by_computation.
Qed.
Print Assumptions C111_index_again_refuted.

(** The killed command, a [model] command which repairs the index, and indexing again. *)
Definition shop_model : command := Model "notes.idx" shop_options true rng0 rng0 pool_ok.
Definition shop_repaired : filesystem := (run_shop [shop_model] shop_half).1.
Definition shop_again : filesystem := (run_shop [shop_index "notes.db"] shop_repaired).1.
Example C111_C112_example :
  (workers_finish (shop_index "notes.db") /\ output_of (shop_index "notes.db") ≠ Some "notes.idx" /\
   workers_finish shop_model /\ output_of shop_model ≠ Some "notes.idx") /\
  (run_shop [shop_index "notes.db"] shop_half).2 = [Failed IntegrityError] /\
  evolves 100 two_words (fun _ => None) [lf]
    [(shop_index "notes.db", None, shop_modelled); (shop_model, Some Done, shop_half); (shop_index "notes.db", Some Done, shop_repaired)]
    shop_modelled shop_again.
Proof.
  split. { split; [intros n; apply complete_in_order|]. split; [cbn; discriminate|]. split; [exact I|cbn; discriminate]. }
  split; [vm_compute; reflexivity|].
  assert ((run_command 100 two_words (fun _ => None) [lf] shop_model shop_half).2 = Done) as E1 by (vm_compute; reflexivity).
  assert ((run_command 100 two_words (fun _ => None) [lf] (shop_index "notes.db") shop_repaired).2 = Done) as E2 by (vm_compute; reflexivity).
  assert (forall c fs, (run_command 100 two_words (fun _ => None) [lf] c fs).1 = (run_shop [c] fs).1) as H1.
  { intros c fs. unfold run_shop. cbn [run_commands]. by destruct (run_command _ _ _ _ c fs). }
  assert (forall c fs o, (run_command 100 two_words (fun _ => None) [lf] c fs).2 = o ->
    run_command 100 two_words (fun _ => None) [lf] c fs = ((run_shop [c] fs).1, o)) as Hrun.
  { intros c fs o <-. rewrite <- H1. apply surjective_pairing. }
  eapply evolves_kill; [exact shop_half_during|]. eapply evolves_run; [exact (Hrun _ _ _ E1)|].
  eapply evolves_run; [exact (Hrun _ _ _ E2)|]. apply evolves_nil.
Qed.
Example C111_documents_example :
  healthy shop_modelled "notes.db" /\ documents_at shop_modelled "notes.db" modelled_docs /\
  during 100 two_words (fun _ => None) (shop_index "notes.db") shop_modelled shop_half.
Proof.
  split; [|split; [|exact shop_half_during]].
  - intros f docs E. right.
    assert (match shop_modelled !! "notes.db" with Some (DbFile f _) => (user_version f, rows f) | _ => (0%Z, empty_db) end = (0%Z, empty_db)) as H
      by (vm_compute; reflexivity).
    rewrite E in H. injection H as H1 H2. split; [exact H1|exact H2].
  - assert (match shop_modelled !! "notes.db" with Some (DbFile cf _) => bool_decide (tables cf !! "doc" = Some doc_columns) | _ => false end = true) as H
      by (vm_compute; reflexivity).
    unfold documents_at, modelled_docs. destruct (shop_modelled !! "notes.db") as [[|cf m]|]; [discriminate H| |discriminate H].
    exists cf. split; [reflexivity|]. apply bool_decide_eq_true in H. exact H.
Qed.
