(** PropertiesCommands.v: C107-C110, the command line on files. Vocabulary: SpecCommands.v.
    In every theorem [limit], [tok], [parse] and [linesep] are arbitrary. *)
From stdpp Require Import pretty.
From Verif Require Import SampleDb PropertiesIndexing PropertiesCorpus PropertiesCsv CorpusCalls CommandProofs.

(** ** C107: from a text file to search results *)
Theorem C107_text_to_search : forall limit tok parse linesep lines l text corpus index bsz pos sched p garbage fs,
  fs !! text = Some (PlainFile l) -> text_file lines l ->
  (forall x, x ∈ lines -> one_line x /\ quote ∉ chars x /\ String.length x <= limit) ->
  filter (fun x => ~ only_whitespace x) (before_comma <$> lines) ≠ [] ->
  (absent fs corpus \/ exists f docs, fs !! corpus = Some (DbFile f docs)) ->
  (absent fs index \/ exists d, index_at fs index d /\ quiet d /\ features_unique (inverted_index d)) ->
  corpus ≠ index ->
  (forall n, complete (sched n) n) -> (forall n i, fault (sched n) i = None) -> p 0 = None ->
  exists fs' m d,
    run_commands limit tok parse linesep [Create text corpus garbage; BuildIndex corpus index bsz pos sched p] fs
      = (fs', [Done; Done]) /\
    documents_at fs' corpus m /\ numbered (VText <$> filter (fun x => ~ only_whitespace x) (before_comma <$> lines)) m /\
    index_at fs' index d /\ is_index_of tok d m /\ quiet d.
Proof.
  intros limit tok parse linesep lines l text corpus index bsz pos sched p garbage fs Ht Hl Hlines Hne Hcor Hidx Hdiff Hs Hf Hp.
  cbn [run_commands run_command]. unfold run_create. rewrite Ht.
  assert (exists f docs, as_database (fs !! corpus) = Some (f, docs)) as (f & docs & ->).
  { destruct Hcor as [[-> | ->]|(f & docs & ->)]; eexists _, _; reflexivity. }
  destruct (C62_first_column limit lines l (PtDb (doc_table_of f docs) None) eq_refl Hl Hlines) as (m & Em & Hn).
  unfold plaintext_create_file in Em. rewrite Em. cbn [pt_disk end_of].
  set (fs1 := <[corpus := _]> fs).
  assert (exists fi di, open_path index fs1 = (<[index := DbFile fi di]> fs1, inl (fi, di)) /\ is_current fi /\
    quiet (rows fi) /\ features_unique (inverted_index (rows fi))) as (fi & di & Ho & Hc & Hq & Hu).
  { assert (fs1 !! index = fs !! index) as E by (unfold fs1; by rewrite lookup_insert_ne).
    destruct Hidx as [Ha|(d & (fi & di & E1 & Hc & <-) & Hq & Hu)].
    - destruct (open_path_absent index fs1) as (fi & Ho & Hc & Hr); [unfold absent; by rewrite E|].
      exists fi, ∅. rewrite Hr. split; [exact Ho|]. split; [exact Hc|].
      destruct conn0_ready as ((_ & _ & H2) & H1 & _). split; [exact H1|exact H2].
    - exists (set_wal fi), di. split; [apply open_path_current; [by rewrite E|exact Hc]|]. split; [exact Hc|]. split; [exact Hq|exact Hu]. }
  unfold run_index_command. unfold fs1 at 1. rewrite lookup_insert, Ho.
  assert (<[index := DbFile fi di]> fs1 !! corpus = fs1 !! corpus) as -> by (by rewrite lookup_insert_ne).
  assert (exists fc, fs1 !! corpus = Some (DbFile fc m) /\ tables fc !! "doc" = Some doc_columns) as (fc & Efc & Hfc).
  { unfold fs1. rewrite lookup_insert. eexists. split; [reflexivity|]. cbn [tables set_tables]. by rewrite lookup_insert. }
  rewrite Efc. cbn [as_database]. unfold doc_table_of at 1. rewrite bool_decide_eq_true_2 by exact Hfc. cbv zeta.
  set (s := sched (length (batches bsz (pt_corpus tok m)))).
  assert (complete s (length (batches bsz (pt_corpus tok m)))) as Hcomp by apply Hs.
  assert (index_ready (open_index (rows fi) p)) as Hready.
  { split; [apply idle_open|]. split; [by apply quiet_usable|exact Hu]. }
  destruct (C06_indexing_succeeds bsz pos (pt_corpus tok m) s (open_index (rows fi) p) Hready Hq Hp
    (plain_well_formed tok _ m pos Hne Hn) Hcomp (Hf _)) as (cn' & Hrun & Hr' & Hq').
  rewrite Hrun. cbn [end_of]. eexists _, m, (disk cn'). split; [reflexivity|]. split.
  { exists fc. unfold store. rewrite !lookup_insert_ne by done. done. }
  split; [exact Hn|]. split.
  { exists (set_rows (disk cn') fi), di. unfold store. rewrite lookup_insert. split; [done|]. split; [exact Hc|done]. }
  split; [exact (indexed_is_index bsz pos tok m s _ cn' Hready Hcomp Hrun)|exact Hq'].
Qed.
Print Assumptions C107_text_to_search.

(** ** C108: what a command changes *)

(** Only the database it works on and its output file. *)
Theorem C108_files_touched : forall limit tok parse linesep c fs fs' o q,
  run_command limit tok parse linesep c fs = (fs', o) ->
  q ≠ database_of c -> output_of c ≠ Some q -> fs' !! q = fs !! q.
Proof. exact command_frame. Qed.
Print Assumptions C108_files_touched.

(** A command that does not index into [q] and does not write its output there keeps what
    the index at [q] knows, and keeps it sound. *)
Theorem C108_searches_kept : forall limit tok parse linesep c fs fs' o q d,
  index_at fs q d -> sound_index d -> run_command limit tok parse linesep c fs = (fs', o) ->
  ~ indexes c q -> output_of c ≠ Some q ->
  exists d', index_at fs' q d' /\ sound_index d' /\ same_index d d'.
Proof.
  intros limit tok parse linesep c fs fs' o q d Hd Hs H Hix Hout.
  by apply (command_keeps limit tok parse linesep c fs fs' o q (healthy_index_at _ _ _ Hd Hs) H Hix Hout).
Qed.
Print Assumptions C108_searches_kept.

(** An index command that does not end normally keeps the index as it was. *)
Theorem C108_failed_index : forall limit tok parse linesep c fs fs' o q d,
  index_at fs q d -> sound_index d -> orderly c -> indexes c q ->
  run_command limit tok parse linesep c fs = (fs', o) -> o <> Done -> index_at fs' q d.
Proof.
  intros limit tok parse linesep c fs fs' o q d Hd Hs Hor Hix H Ho.
  destruct c; cbn in Hix; try done. subst index. destruct Hor as [H1 H2].
  by apply (build_step tok corpus q batch_size positions sched p fs fs' o (healthy_index_at _ _ _ Hd Hs) H1 H2 H).
Qed.
Print Assumptions C108_failed_index.

(** ** C109: files that are not indexes *)

(** A text file is refused by every command that wants a database, and not touched. *)
Theorem C109_text_file : forall limit tok parse linesep c fs fs' o a l,
  fs !! database_of c = Some (PlainFile (a :: l)) ->
  run_command limit tok parse linesep c fs = (fs', o) -> fs' = fs /\ (o = NotADb \/ o = NoSuchFile).
Proof.
  intros limit tok parse linesep c fs fs' o a l Hd H.
  assert (open_path (database_of c) fs = (fs, inr NotADb)) as Ho by (unfold open_path; by rewrite Hd).
  assert (open_checked (database_of c) fs = (fs, inr NotADb)) as Hck by (unfold open_checked; by rewrite Hd).
  destruct c; cbn [run_command database_of] in *.
  - unfold run_create in H. destruct (fs !! text); [|injection H as <- <-; auto]. rewrite Hd in H. cbn in H. injection H as <- <-. auto.
  - unfold run_index_command in H. destruct (fs !! corpus); [|injection H as <- <-; auto]. rewrite Ho in H. injection H as <- <-. auto.
  - unfold run_model in H. rewrite Hd, Ho in H. injection H as <- <-. auto.
  - unfold run_sample in H. destruct (fs !! corpus); [|injection H as <- <-; auto]. rewrite Hd, Hck in H. injection H as <- <-. auto.
  - unfold run_export in H. rewrite Hd, Hck in H. injection H as <- <-. auto.
  - unfold run_request in H. rewrite Hd, Hck in H. injection H as <- <-. auto.
Qed.
Print Assumptions C109_text_file.

(** A database without the mark of an index is refused by sampling, exporting and serving,
    and not touched. *)
Theorem C109_other_database : forall limit tok parse linesep c fs fs' o f docs,
  fs !! database_of c = Some (DbFile f docs) -> application_id f ≠ 715973853%Z ->
  match c with SampleDocs _ _ _ _ _ _ | ExportClusters _ _ _ | ServeRequest _ _ => True | _ => False end ->
  run_command limit tok parse linesep c fs = (fs', o) -> fs' = fs /\ (o = Failed ValueError \/ o = NoSuchFile).
Proof.
  intros limit tok parse linesep c fs fs' o f docs Hd Ha Hk H.
  assert (open_checked (database_of c) fs = (fs, inr (Failed ValueError))) as Hck.
  { unfold open_checked. rewrite Hd. cbn [on_disk_of is_index_db]. unfold MAGIC_APPLICATION_ID.
    by rewrite (proj2 (Z.eqb_neq _ _)) by exact Ha. }
  destruct c; cbn [run_command database_of] in *; try done.
  - unfold run_sample in H. destruct (fs !! corpus); [|injection H as <- <-; auto]. rewrite Hd, Hck in H. injection H as <- <-. auto.
  - unfold run_export in H. rewrite Hd, Hck in H. injection H as <- <-. auto.
  - unfold run_request in H. rewrite Hd, Hck in H. injection H as <- <-. auto.
Qed.
Print Assumptions C109_other_database.

(** A corpus given as the index to [index] or [model] keeps its documents and tables. *)
Theorem C109_corpus_as_index : forall limit tok parse linesep c fs fs' o q f docs,
  fs !! q = Some (DbFile f docs) -> user_version f = 0%Z -> tables f ≠ ∅ ->
  database_of c = q -> match c with Create _ _ _ => False | _ => True end -> output_of c ≠ Some q ->
  run_command limit tok parse linesep c fs = (fs', o) ->
  (fs' = fs \/ fs' = <[q := DbFile (set_wal f) docs]> fs) /\ o <> Done.
Proof.
  intros limit tok parse linesep c fs fs' o q f docs Hd H0 Ht Hq Hk Hout H.
  assert (open_path q fs = (<[q := DbFile (set_wal f) docs]> fs, inr (Failed NameError))) as Ho.
  { unfold open_path. rewrite Hd. cbn [as_database].
    rewrite (proj1 (PropertiesMigrate.C58_unrelated_database_refuted f H0 (or_introl Ht))). done. }
  assert ((open_checked q fs).1 = fs \/ (open_checked q fs).1 = <[q := DbFile (set_wal f) docs]> fs) as Hck1.
  { unfold open_checked. destruct (is_index_db _) as [[]|]; [rewrite Ho; auto|by left|by left]. }
  assert (exists o1, (open_checked q fs).2 = inr o1 /\ o1 <> Done) as (o1 & Hck2 & Hn).
  { unfold open_checked. destruct (is_index_db _) as [[]|]; [rewrite Ho|..]; eexists; (split; [reflexivity|done]). }
  destruct (open_checked q fs) as [fs1 r] eqn:Hck. cbn in Hck1, Hck2. subst r.
  destruct c; cbn [run_command database_of] in *; subst; try done.
  - unfold run_index_command in H. destruct (fs !! corpus); [|injection H as <- <-; auto]. rewrite Ho in H. injection H as <- <-. auto.
  - unfold run_model in H. rewrite Hd, Ho in H. injection H as <- <-. auto.
  - unfold run_sample in H. destruct (fs !! corpus); [|injection H as <- <-; auto]. rewrite Hd, Hck in H. injection H as <- <-. auto.
  - unfold run_export in H. rewrite Hd, Hck in H. injection H as <- <-. auto.
  - unfold run_request in H. rewrite Hd, Hck in H. injection H as <- <-. auto.
Qed.
Print Assumptions C109_corpus_as_index.

(** [model] does not check: an empty file becomes an index. *)
Theorem C109_model_accepts_empty_file_refuted : forall limit tok parse linesep q o yes g1 g2 p fs fs' out,
  fs !! q = Some (PlainFile []) -> run_command limit tok parse linesep (Model q o yes g1 g2 p) fs = (fs', out) ->
  exists d, index_at fs' q d.
Proof.
  intros limit tok parse linesep q o yes g1 g2 p fs fs' out Hq H. cbn [run_command] in H. unfold run_model in H. rewrite Hq in H.
  destruct (open_path_absent q fs) as (f & Ho & Hc & _); [by right|]. rewrite Ho in H.
  destruct (cli_model _ _ _ _ _) as [cn e]. injection H as <- _. exists (disk cn), (set_rows (disk cn) f), ∅.
  unfold store. rewrite lookup_insert. split; [done|]. split; [exact Hc|done].
Qed.
Print Assumptions C109_model_accepts_empty_file_refuted.

(** ** C110: an index is about the corpus as it was when it was last indexed *)
Lemma run_commands_app limit tok parse linesep l1 l2 fs :
  run_commands limit tok parse linesep (l1 ++ l2) fs =
  let '(fs1, o1) := run_commands limit tok parse linesep l1 fs in
  let '(fs2, o2) := run_commands limit tok parse linesep l2 fs1 in (fs2, o1 ++ o2).
Proof.
  revert fs. induction l1 as [|c l1 IH]; intros fs; cbn [app run_commands].
  - by destruct (run_commands _ _ _ _ l2 fs).
  - destruct (run_command _ _ _ _ c fs) as [fs1 o]. rewrite IH.
    destruct (run_commands _ _ _ _ l1 fs1) as [fs2 os]. by destruct (run_commands _ _ _ _ l2 fs2).
Qed.

Lemma history_healthy limit tok parse linesep q l : forall fs fs' os,
  healthy fs q -> (forall c, c ∈ l -> orderly c /\ output_of c ≠ Some q) ->
  run_commands limit tok parse linesep l fs = (fs', os) ->
  healthy fs' q /\
  ((forall i c, l !! i = Some c -> indexes c q -> os !! i ≠ Some Done) ->
   forall d, index_at fs q d -> exists d', index_at fs' q d' /\ same_index d d').
Proof.
  induction l as [|c l IH]; intros fs fs' os Hh Hl H; cbn [run_commands] in H.
  - injection H as <- <-. split; [done|]. intros _ d Hd. by exists d.
  - destruct (run_command _ _ _ _ c fs) as [fs1 o] eqn:Ec.
    destruct (run_commands _ _ _ _ l fs1) as [fs2 os'] eqn:El. injection H as <- <-.
    destruct (Hl c ltac:(left)) as [Hor Hout].
    assert (healthy fs1 q /\ (~ (indexes c q /\ o = Done) ->
      forall d, index_at fs q d -> exists d', index_at fs1 q d' /\ same_index d d')) as [Hh1 Hk].
    { destruct (decide (indexes c q)) as [Hix|Hix].
      - destruct c; cbn in Hix; try done. subst index. destruct Hor as [H1 H2].
        destruct (build_step tok corpus q batch_size positions sched p fs fs1 o Hh H1 H2 Ec) as (A & B & _).
        split; [done|]. intros Hn d Hd. exists d. split; [|done]. apply B; [|done]. intros ->. apply Hn. done.
      - destruct (command_keeps limit tok parse linesep c fs fs1 o q Hh Ec Hix Hout) as [A B]. split; [done|].
        intros _ d Hd. destruct (B d Hd) as (d' & ? & _ & ?). eauto. }
    destruct (IH fs1 fs2 os' Hh1) as [Hh2 Hk2]; [intros x Hx; apply Hl; by right|done|].
    split; [done|]. intros Hno d Hd.
    destruct (Hk) with (d := d) as (d1 & Hd1 & S1); [|done|].
    { intros [Hix ->]. by apply (Hno 0 c eq_refl Hix). }
    destruct Hk2 with (d := d1) as (d2 & Hd2 & S2); [|done|].
    { intros i x Hi Hix. by apply (Hno (S i) x). }
    exists d2. split; [done|]. by eapply same_index_trans.
Qed.

(** For every history of commands in which [q] is not the output file of another command:
    after the last successful index command for [q], whatever follows, the index at [q] is
    an index of the documents that were in the corpus file when that command ran. *)
Theorem C110_last_index : forall limit tok parse linesep q before corpus bsz pos sched p after fs fs1 os1 fs2 fs3 os2,
  healthy fs q ->
  (forall c, c ∈ before ++ after -> orderly c /\ output_of c ≠ Some q) -> orderly (BuildIndex corpus q bsz pos sched p) ->
  run_commands limit tok parse linesep before fs = (fs1, os1) ->
  run_command limit tok parse linesep (BuildIndex corpus q bsz pos sched p) fs1 = (fs2, Done) ->
  run_commands limit tok parse linesep after fs2 = (fs3, os2) ->
  (forall i c, after !! i = Some c -> indexes c q -> os2 !! i ≠ Some Done) ->
  exists m d, documents_at fs1 corpus m /\ index_at fs3 q d /\ is_index_of tok d m.
Proof.
  intros limit tok parse linesep q before corpus bsz pos sched p after fs fs1 os1 fs2 fs3 os2 Hh Hl [Hs Hp] R1 R2 R3 Hno.
  destruct (history_healthy limit tok parse linesep q before fs fs1 os1 Hh) as [Hh1 _]; [intros c Hc; apply Hl, elem_of_app; by left|done|].
  cbn [run_command] in R2.
  destruct (build_step tok corpus q bsz pos sched p fs1 fs2 Done Hh1 Hs Hp R2) as (Hh2 & _ & Hdone).
  destruct (Hdone eq_refl) as (m & d & Hm & Hd & Hi).
  destruct (history_healthy limit tok parse linesep q after fs2 fs3 os2 Hh2) as [_ Hk]; [intros c Hc; apply Hl, elem_of_app; by right|done|].
  destruct (Hk Hno d Hd) as (d' & Hd' & Hsame). exists m, d'. split; [done|]. split; [done|]. by eapply is_index_of_same.
Qed.
Print Assumptions C110_last_index.

(** A text file, its corpus, an index and a model of it, and the export: then the corpus
    is replaced, and indexing a file that is not a corpus fails. *)
Definition shop : filesystem := {["notes.txt" := PlainFile (line_file ["a b"; "  "; "b c, d"]); "other.txt" := PlainFile (line_file ["x"])]}.
Definition shop_options : model_options := ModelOptions 1 (Some 2%Z) 1 [] false (Qof 1 / Qof 20)%Qc 1 None 2.
Definition shop_index (from : string) : command := BuildIndex from "notes.idx" 1 true in_order pool_ok.
Definition shop_before : list command := [Create "notes.txt" "notes.db" []].
Definition shop_after : list command :=
  [Model "notes.idx" shop_options true rng0 rng0 pool_ok; ExportClusters "notes.idx" "notes.csv" 5;
   Create "other.txt" "notes.db" []; shop_index "missing.db"; shop_index "other.txt"].
Definition run_shop := run_commands 100 two_words (fun _ => None) [lf].
Example C107_example :
  text_file ["a b"; "  "; "b c, d"] (line_file ["a b"; "  "; "b c, d"]) /\
  (forall n, complete (in_order n) n) /\ (forall n i, fault (in_order n) i = None) /\ pool_ok 0 = None /\
  (run_shop shop_before shop).2 = [Done] /\
  (run_shop (shop_before ++ [shop_index "notes.db"]) shop).2 = [Done; Done].
Proof.
  split; [by left|]. split; [intros n; apply complete_in_order|]. split; [done|]. split; [done|]. split; vm_compute; reflexivity.
Qed.
Example C108_C110_example :
  (forall c, c ∈ shop_before ++ shop_after -> orderly c /\ output_of c ≠ Some "notes.idx") /\
  orderly (shop_index "notes.db") /\ healthy shop "notes.idx" /\
  (run_shop (shop_before ++ [shop_index "notes.db"] ++ shop_after) shop).2 =
    [Done; Done; Done; Done; Done; NoSuchFile; NotADb].
Proof.
  split.
  { intros c Hc. unfold shop_before, shop_after, shop_index in Hc. cbn [app] in Hc.
    repeat (apply elem_of_cons in Hc; destruct Hc as [Hc|Hc]; [subst c; split|]).
    all: first [exact I|split; [intros n; apply complete_in_order|reflexivity]|by apply elem_of_nil in Hc|cbn [output_of]; discriminate]. }
  split; [split; [intros n; apply complete_in_order|reflexivity]|].
  split; [intros f docs H; vm_compute in H; discriminate H|]. vm_compute. reflexivity.
Qed.
Definition file_text (c : option stored_file) : string := match c with Some (PlainFile l) => text l | _ => "" end.
Definition shop_end := (run_shop (shop_before ++ [shop_index "notes.db"] ++ shop_after) shop).1.
Definition shop_rows : db := match shop_end !! "notes.idx" with Some (DbFile f _) => rows f | _ => empty_db end.
Example C110_example :
  getitem shop_rows (KFeature ("text", VText "b")) = Some {[0; 1]}%N /\
  getitem shop_rows (KFeature ("text", VText "x")) = Some ∅ /\
  (match shop_end !! "notes.db" with Some (DbFile _ m) => m !! 1%N | _ => None end) = Some (VText "x") /\
  bool_decide (file_text (shop_end !! "notes.csv") = "") = false.
Proof. split; [by_computation|]. split; [by_computation|]. split; vm_compute; reflexivity. Qed.
Example C109_example :
  shop !! database_of (ExportClusters "other.txt" "out.csv" 1) = Some (PlainFile (line_file ["x"])) /\
  (exists f docs, (run_shop shop_before shop).1 !! "notes.db" = Some (DbFile f docs) /\ application_id f ≠ 715973853%Z /\
     user_version f = 0%Z /\ tables f ≠ ∅) /\
  (run_shop (shop_before ++ [ExportClusters "notes.db" "out.csv" 1; Model "notes.db" shop_options true rng0 rng0 pool_ok;
     BuildIndex "notes.db" "notes.db" 1 true in_order pool_ok]) shop).2 =
    [Done; Failed ValueError; Failed NameError; Failed NameError].
Proof.
  split; [vm_compute; reflexivity|]. split; [|vm_compute; reflexivity].
  eexists _, _. split; [vm_compute; reflexivity|]. split; [vm_compute; discriminate|]. split; [vm_compute; reflexivity|].
  intros H. apply (f_equal (fun m : gmap string (list string) => m !! "doc")) in H. revert H. vm_compute. discriminate.
Qed.
