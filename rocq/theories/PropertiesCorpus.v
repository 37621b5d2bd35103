(** PropertiesCorpus.v: C55-C57, C63 and the corpus properties C66-C71.
    Vocabulary: SpecCorpus.v, SpecIndexing.v. *)
From Verif Require Import CorpusCalls PropertiesIndexing.

(** ** C55 *)

(** When every text can be produced, the texts (NULLs skipped) are stored as 1, 2, ...,
    whatever was there before. *)
Theorem C55_replace_docs_partial : forall vs st, pt_open st = None ->
  exists m, replace_docs (Ok <$> vs) st = (PtDb (Some m) None, Ok tt) /\ numbered (omap id vs) m.
Proof.
  intros vs st Ho. destruct (replace_ok vs st Ho) as (m & E & Hn). exists m. split; [|done]. unfold replace_docs. by rewrite E.
Qed.
Print Assumptions C55_replace_docs_partial.

(** When producing a text fails the old documents are kept. *)
Theorem C55_failure_keeps_documents : forall xs e st, pt_open st = None -> Err e ∈ xs -> (replace_docs xs st).1 = st.
Proof. intros xs e st Ho Hin. unfold replace_docs. cbn [fst]. by eapply replace_failed. Qed.
Print Assumptions C55_failure_keeps_documents.

(** A crash at any point leaves the old documents or the new ones. *)
Theorem C55_crash : forall xs st n, pt_open st = None ->
  replace_crash xs st n = pt_disk st \/ replace_crash xs st n = pt_disk (replace_docs xs st).1.
Proof. intros. by apply replace_crash_cases. Qed.
Print Assumptions C55_crash.

(** But the failure is not reported: the call returns normally. *)
Theorem C55_failure_reported_refuted : forall xs e st, pt_open st = None -> Err e ∈ xs ->
  (replace_docs xs st).2 = Ok tt /\ (replace_docs xs st).1 = st.
Proof. intros xs e st Ho Hin. split; [done|]. by eapply C55_failure_keeps_documents. Qed.
Print Assumptions C55_failure_reported_refuted.

Definition old_docs : pt_db := PtDb (Some {[1%N := VText "old"]}) None.
Example C55_example :
  pt_disk (replace_docs [Ok (Some (VText "a")); Ok None; Ok (Some (VText "b"))] old_docs).1 =
    Some (<[1%N := VText "a"]> {[2%N := VText "b"]}) /\
  replace_docs [Ok (Some (VText "a")); Err UserError] old_docs = (old_docs, Ok tt) /\
  replace_crash [Ok (Some (VText "a"))] old_docs 5 = pt_disk old_docs.
Proof. split_and!; [by_computation|vm_compute; reflexivity|by_computation]. Qed.

(** ** C66: the documents of a plain text corpus *)

(** Known keys: their documents, in the order of the request (repeats included). *)
Theorem C66_requested_documents : forall (m : gmap N value) ks, (forall k, k ∈ ks -> is_Some (m !! k)) ->
  exists out, pt_docs (Some m) (Some ks) = (out, Ok tt) /\ out.*1 = ks /\ forall k v, (k, v) ∈ out -> m !! k = Some v.
Proof.
  intros m ks H. destruct (known_docs m ks H) as [out Ho]. exists out. split; [by apply pt_docs_ok|].
  clear H. induction Ho as [|k p ks out [<- Hk] _ IH]; [split; [done|]; by intros ? ? ?%elem_of_nil|]. destruct IH as [<- IH]. split; [done|].
  intros k' v' [<-|Hin]%elem_of_cons; [done|auto].
Qed.
Print Assumptions C66_requested_documents.

(** An unknown key: the documents before it, then IndexError; rendering the same keys raises it. *)
Theorem C66_unknown_key : forall (m : gmap N value) ks k rest, (forall k, k ∈ ks -> is_Some (m !! k)) -> m !! k = None ->
  (exists out, pt_docs (Some m) (Some (ks ++ k :: rest)) = (out, Err IndexError) /\ out.*1 = ks) /\
  pt_render (Some m) (ks ++ k :: rest) = Err IndexError.
Proof.
  intros m ks k rest H Hk. destruct (known_docs m ks H) as [out Ho].
  assert (pt_docs (Some m) (Some (ks ++ k :: rest)) = (out, Err IndexError)) as E.
  { unfold pt_docs. eapply generate_err; [|cbn; by rewrite Hk]. eapply Forall2_impl; [done|]. intros k' [k2 v] [<- Hv]. cbn in *. by rewrite Hv. }
  split; [|unfold pt_render; by rewrite E]. exists out. split; [done|].
  clear E H. induction Ho as [|k' p ks out [<- _] _ IH]; [done|]. cbn. by f_equal.
Qed.
Print Assumptions C66_unknown_key.

(** All documents after a replacement: 1..n with the texts, in order; keys() gives 1..n. *)
Theorem C66_all_documents : forall vs st, pt_open st = None ->
  let tbl := pt_disk (replace_docs (Ok <$> vs) st).1 in
  pt_keys tbl = Ok (N.of_nat <$> seq 1 (length (omap id vs))) /\
  pt_docs tbl None = (imap (fun i v => (N.of_nat (S i), v)) (omap id vs), Ok tt).
Proof.
  intros vs st Ho. destruct (C55_replace_docs_partial vs st Ho) as (m & E & Hn). rewrite E. cbn [fst pt_disk]. cbv zeta.
  generalize dependent (omap (M := list) id vs). intros xs Hn. unfold pt_docs. cbn [pt_keys]. rewrite (numbered_keys _ _ Hn). split; [done|].
  apply generate_ok. apply Forall2_fmap_l.
  assert (forall n (l : list value), (forall i, m !! N.of_nat (n + i) = l !! i) ->
    Forall2 (fun k p => pt_get (Some m) (N.of_nat k) = Ok p) (seq n (length l)) (imap (fun i v => (N.of_nat (n + i), v)) l)) as H.
  { intros n l. revert n. induction l as [|v l IH]; intros n Hl; [constructor|]. cbn. constructor.
    - cbn. specialize (Hl 0). cbn in Hl. rewrite Nat.add_0_r in *. by rewrite Hl.
    - erewrite imap_ext; [apply (IH (S n))|].
      + intros i. replace (S n + i) with (n + S i) by lia. apply (Hl (S i)).
      + intros i x _. cbn. repeat f_equal; lia. }
  apply (H 1 xs). intros i. by apply numbered_lookup.
Qed.
Print Assumptions C66_all_documents.

Example C66_example :
  let tbl := pt_disk (replace_docs [Ok (Some (VText "a")); Ok (Some (VText "b"))] old_docs).1 in
  pt_docs tbl None = ([(1%N, VText "a"); (2%N, VText "b")], Ok tt) /\
  pt_docs tbl (Some [2; 1; 2]%N) = ([(2%N, VText "b"); (1%N, VText "a"); (2%N, VText "b")], Ok tt) /\
  pt_docs tbl (Some [2; 7; 1]%N) = ([(2%N, VText "b")], Err IndexError) /\ pt_docs tbl (Some []) = ([], Ok tt) /\
  pt_docs None None = ([], Err OperationalError).
Proof. split_and!; vm_compute; reflexivity. Qed.

(** ** C67: a plain text corpus, end to end: store texts, index them, search a word *)
Lemma plain_well_formed tok texts m pos : texts ≠ [] -> numbered (VText <$> texts) m -> well_formed pos (pt_corpus tok m).
Proof.
  intros Hne Hn. rewrite (pt_corpus_numbered tok texts m Hn). split_and!.
  - destruct texts; [done|]. done.
  - rewrite fmap_imap. rewrite (imap_ext _ (fun i _ => VInt (Z.of_nat (S i)))) by done. clear Hne Hn.
    apply NoDup_alt. intros i j x. rewrite !list_lookup_imap. destruct (texts !! i); [|done]. destruct (texts !! j); [|done]. cbn. intros [= <-] [= E]. lia.
  - intros k r Hin. apply elem_of_lookup_imap in Hin as (i & s & [= -> ->] & _). eexists. split; [done|].
    intros _ field vs [= _ ->]%elem_of_list_singleton. by intros (? & ? & _)%elem_of_list_fmap.
Qed.
Theorem C67_plain_text_search : forall tok texts st bsz pos s cn,
  pt_open st = None -> texts ≠ [] -> index_ready cn -> quiet (disk cn) -> pool_works cn -> (forall i, fault s i = None) ->
  forall m, pt_disk (replace_docs ((fun t => Ok (Some (VText t))) <$> texts) st).1 = Some m ->
  complete s (length (batches bsz (pt_corpus tok m))) ->
  exists cn', run_index bsz pos (pt_corpus tok m) s cn = (cn', Ok tt) /\
    (forall i, doc_key (disk cn') !! N.of_nat i = if i <? length texts then Some (VInt (Z.of_nat (S i))) else None) /\
    forall w, exists docs, getitem (disk cn') (KFeature ("text", VText w)) = Some docs /\
      forall i, N.of_nat i ∈ docs <-> exists txt, texts !! i = Some txt /\ w ∈ tok txt.
Proof.
  intros tok texts st bsz pos s cn Ho Hne Hr Hq Hp Hf m Hm Hc.
  assert (numbered (VText <$> texts) m) as Hn.
  { destruct (C55_replace_docs_partial ((fun t => Some (VText t)) <$> texts) st Ho) as (m' & E & Hn).
    rewrite <- list_fmap_compose in E. unfold compose in E. rewrite E in Hm. cbn in Hm. injection Hm as <-.
    replace (omap id ((fun t => Some (VText t)) <$> texts)) with (VText <$> texts) in Hn; [done|].
    clear. induction texts as [|t l IH]; [done|]. cbn. f_equal. apply IH. }
  destruct (C06_indexing_succeeds bsz pos _ s cn Hr Hq Hp (plain_well_formed tok texts m pos Hne Hn) Hc Hf) as (cn' & Hrun & Hr' & _).
  exists cn'. split; [done|].
  pose proof (C11_documents_and_keys bsz pos _ s cn cn' ∅ Hr Hc Hrun) as [Hk _].
  pose proof (pt_corpus_numbered tok texts m Hn) as Hcorp. unfold corpus in *. split.
  - intros i. apply option_eq. intros k. rewrite Hk, Nat2N.id, Hcorp. rewrite list_lookup_imap. destruct (Nat.ltb_spec i (length texts)) as [Hi|Hi].
    + destruct (lookup_lt_is_Some_2 texts i Hi) as [t ->]. done.
    + by rewrite (lookup_ge_None_2 texts i Hi).
  - intros w. destruct (C06_boolean_index_exact bsz pos _ s cn cn' Hr Hc Hrun "text" (VText w)) as (docs & Hd & Hiff & _).
    exists docs. split; [done|]. intros i. rewrite Hiff. unfold doc_matches, corpus. rewrite Nat2N.id, Hcorp, list_lookup_imap. split.
    + intros (key & fs & Hl & fv & Hin & Hv). destruct (texts !! i) as [txt|]; [|done]. cbn in Hl. injection Hl as _ <-.
      exists txt. split; [done|]. apply elem_of_list_singleton in Hin as [= ->]. cbn in Hv. apply elem_of_list_fmap in Hv as (w' & [= <-] & Hw). done.
    + intros (txt & -> & Hw). cbn. eexists _, _. split; [done|]. eexists. split; [by left|]. cbn. apply elem_of_list_fmap. eauto.
Qed.
Print Assumptions C67_plain_text_search.

Definition two_words (s : string) : list string := Corpus.split (fun a => Ascii.eqb a " "%char) s.
Definition plain_m : gmap N value := <[1%N := VText "a b"]> {[2%N := VText "b c"]}.
Example C67_example :
  (pt_open old_docs = None /\ pt_disk (replace_docs ((fun t => Ok (Some (VText t))) <$> ["a b"; "b c"]) old_docs).1 = Some plain_m /\
   complete (in_order 2) (length (batches 1 (pt_corpus two_words plain_m))) /\ index_ready conn0 /\ quiet (disk conn0) /\ pool_works conn0) /\
  getitem (disk (run_index 1 true (pt_corpus two_words plain_m) (in_order 2) conn0).1) (KFeature ("text", VText "b")) = Some {[0; 1]}%N /\
  getitem (disk (run_index 1 true (pt_corpus two_words plain_m) (in_order 2) conn0).1) (KFeature ("text", VText "c")) = Some {[1]}%N.
Proof.
  split; [|by_computation]. split; [done|]. split; [by_computation|]. split; [apply complete_in_order|apply conn0_ready].
Qed.

(** ** The documents of given rows (for C62, see PropertiesCsv.v) *)
Lemma rows_first_column : forall lines st, pt_open st = None ->
  exists m, plaintext_create (csv_row <$> lines) st = (PtDb (Some m) None, Ok tt) /\
    numbered (VText <$> filter (fun s => ~ only_whitespace s) (before_comma <$> lines)) m.
Proof.
  intros lines st Ho. unfold plaintext_create. rewrite csv_docs_lines.
  destruct (C55_replace_docs_partial ((fun s => Some (VText s)) <$> filter (fun s => ~ only_whitespace s) (before_comma <$> lines)) st Ho) as (m & E & Hn).
  rewrite <- list_fmap_compose in E. unfold compose in E. exists m. split; [exact E|].
  rewrite <- (omap_id_Some (VText <$> _)), <- list_fmap_compose. exact Hn.
Qed.

(** ** C57 *)
Theorem C57_tags_split : forall tags, (forall t, t ∈ tags -> plain_tag t /\ t ≠ "") -> split_tags (tag_string tags) = tags.
Proof. apply split_tags_exact. Qed.
Print Assumptions C57_tags_split.
Theorem C57_no_empty_tags : forall s t, t ∈ split_tags s -> plain_tag t /\ t ≠ "".
Proof. apply split_tags_plain. Qed.
Print Assumptions C57_no_empty_tags.
Example C57_example : split_tags "<python><c++><>x" = ["python"; "c++"; "x"] /\ tag_string ["python"; "c++"] = "<python><c++>" /\
  (plain_tag "c++" /\ "c++" ≠ "").
Proof. split_and!; [vm_compute; reflexivity..| |done]. unfold plain_tag. by_computation. Qed.

(** ** C56: adding StackExchange dumps *)

(** A key once given to a post of a site stays its key. *)
Theorem C56_keys_stable : forall st url du k url' id, sx_reachable st ->
  identifies st k url' id -> identifies (add_site_data url du st).1 k url' id.
Proof.
  intros st url du k url' id Hr Hid. apply reachable_inv in Hr as Hi. unfold add_site_data.
  destruct (read_dump url du st) as [st'|e] eqn:E; [|done]. cbn.
  apply (read_dump_ok _ _ _ _ Hi) in E as (ps & cs & us & site & st1 & _ & _ & _ & D). by eapply dumped_kept.
Qed.
Print Assumptions C56_keys_stable.

(** A key identifies one post, and a post has one key. *)
Theorem C56_keys_distinct : forall st k k' url url' id id', sx_reachable st -> identifies st k url id -> identifies st k' url' id' ->
  k = k' <-> url = url' /\ id = id'.
Proof.
  intros st k k' url url' id id' Hr H1 H2. apply reachable_inv in Hr as Hi. split.
  - intros <-. destruct H1 as (r & Hr1 & ? & <-), H2 as (r' & Hr2 & ? & <-). assert (r = r') as <- by congruence. split; congruence.
  - intros [<- <-]. by eapply identifies_unique.
Qed.
Print Assumptions C56_keys_distinct.

(** New keys are unused ones, and only the questions and answers of the dump get one. *)
Theorem C56_new_keys : forall st url du k url' id, sx_reachable st ->
  identifies (add_site_data url du st).1 k url' id -> ~ identifies st k url' id ->
  url' = url /\ sx_get st k = Err IndexError /\ exists x, Ok x ∈ d_posts du /\ question_or_answer x /\ xp_id x = id.
Proof.
  intros st url du k url' id Hr. apply reachable_inv in Hr as Hi. unfold add_site_data.
  destruct (read_dump url du st) as [st'|e] eqn:E; [|done]. cbn. intros Hid Hn.
  apply (read_dump_ok _ _ _ _ Hi) in E as (ps & cs & us & site & st1 & Hps & _ & _ & D).
  apply (dumped_new _ _ _ _ _ _ _ _ Hi D) in Hid as [?|(-> & Hnone & x & Hx & Hq & Hxi)]; [done|]. split; [done|].
  split; [unfold sx_get; by rewrite Hnone|]. exists x. split; [rewrite Hps; by apply elem_of_list_fmap_1|done].
Qed.
Print Assumptions C56_new_keys.

(** Documents of other sites are not touched. *)
Theorem C56_other_sites : forall st url du k url' id, sx_reachable st -> identifies st k url' id -> url' ≠ url ->
  sx_get (add_site_data url du st).1 k = sx_get st k.
Proof.
  intros st url du k url' id Hr Hid Hne. apply reachable_inv in Hr as Hi. unfold add_site_data.
  destruct (read_dump url du st) as [st'|e] eqn:E; [|done]. cbn.
  apply (read_dump_ok _ _ _ _ Hi) in E as (ps & cs & us & site & st1 & _ & _ & _ & D).
  destruct Hid as (r & Hrow & Hsite & _). apply (dumped_other_get _ _ _ _ _ _ _ _ Hi D k r); [|done].
  intros Es. pose proof (d_site' _ _ _ _ _ _ _ _ Hi D) as H1. assert (sites st' !! site = Some url') as H2; [|congruence].
  apply (d_sites' _ _ _ _ _ _ _ _ Hi D). left. by rewrite <- Es.
Qed.
Print Assumptions C56_other_sites.

(** Adding the same dump twice gives the documents of adding it once (every comment of the
    dump having an Id). *)
Theorem C56_idempotent : forall st url du k, sx_reachable st -> (forall c, Ok c ∈ d_comments du -> is_Some (xc_id c)) ->
  sx_get (add_site_data url du (add_site_data url du st).1).1 k = sx_get (add_site_data url du st).1 k.
Proof.
  intros st url du k Hr Hc. apply reachable_inv in Hr as Hi. unfold add_site_data at 2 3.
  destruct (read_dump url du st) as [st'|e] eqn:E; cbn [fst].
  - apply (read_dump_ok _ _ _ _ Hi) in E as (ps & cs & us & site & st1 & Hps & Hcs & Hus & D). pose proof (dumped_inv _ _ _ _ _ _ _ _ D) as Hi'.
    unfold add_site_data. destruct (read_dump url du st') as [st''|e] eqn:E'; [|done]. cbn [fst].
    apply (read_dump_ok _ _ _ _ Hi') in E' as (ps' & cs' & us' & site' & st1' & Hps' & Hcs' & Hus' & D').
    rewrite Hps in Hps'. rewrite Hcs in Hcs'. rewrite Hus in Hus'.
    assert (forall A (l l' : list A), @Ok A <$> l = Ok <$> l' -> l = l') as Hinj.
    { intros A l l' Hl. rewrite <- (contents_ok l), <- (contents_ok l'). by f_equal. }
    apply Hinj in Hps' as <-, Hcs' as <-, Hus' as <-.
    apply (again_get _ _ _ _ _ _ _ _ _ _ _ Hi D D'). intros c Hin. apply Hc. rewrite Hcs. by apply elem_of_list_fmap_1.
  - unfold add_site_data. by rewrite E.
Qed.
Print Assumptions C56_idempotent.

(** A dump that cannot be read to the end is refused and changes nothing; any other is added. *)
Theorem C56_failure_changes_nothing : forall st url du, sx_reachable st ->
  (readable du -> (add_site_data url du st).2 = Ok tt) /\
  (~ readable du -> exists e, add_site_data url du st = (st, Err e)).
Proof.
  intros st url du Hr. apply reachable_inv in Hr as Hi. unfold add_site_data. split.
  - intros H. apply (readable_reads url du st Hi) in H as [st' ->]. done.
  - intros H. destruct (read_dump url du st) as [st'|e] eqn:E; [|by eexists]. exfalso. apply H, (readable_reads url du st Hi). eauto.
Qed.
Print Assumptions C56_failure_changes_nothing.

(** ** C68: the documents, from everything ever added *)
Theorem C68_documents : forall h url id k, identifies (made_by h) k url id -> exists x doc,
  last_such (fun y => question_or_answer y /\ xp_id y = id) (posts_in url h) x /\
  document (made_by h) k doc /\ document_of url h x doc.
Proof. apply made_document. Qed.
Print Assumptions C68_documents.
Theorem C68_no_post_lost : forall h url id, (exists k, identifies (made_by h) k url id) <->
  exists x, x ∈ posts_in url h /\ question_or_answer x /\ xp_id x = id.
Proof. apply made_identifies. Qed.
Print Assumptions C68_no_post_lost.

Lemma made_reachable h : sx_reachable (made_by h).
Proof. unfold made_by. induction h as [|[url du] h IH] using rev_ind; [constructor|]. rewrite foldl_app. cbn. by constructor. Qed.

Definition question1 := XPost (Some "1") 7 None (Some 3%Z) (Some "How?") (Some "body") (Some "2020-01-02") None (Some "<python><c++>").
Definition answer1 := XPost (Some "2") 9 (Some 7%Z) (Some 4%Z) None (Some "so") (Some "2020-01-03") None None.
Definition wiki1 := XPost (Some "5") 8 None None None None None None None.
Definition comment1 := XComment (Some 1%Z) (Some 7%Z) (Some 4%Z) (Some "why") None.
Definition comment1b := XComment (Some 1%Z) (Some 7%Z) None (Some "why not") None.
Definition user3 := XUser (Some 3%Z) (Some "Ann").
Definition user4 := XUser (Some 4%Z) (Some "Bob").
Definition dump1 := Dump [Ok question1; Ok wiki1; Ok answer1] [Ok comment1; Ok comment1b] [Ok user3].
Definition dump2 := Dump [Ok question1] [] [Ok user4].
Definition dump_bad := Dump [Ok question1; Err ValueError] [] [].
Definition sx_history := [("a.com", dump1); ("b.com", dump2); ("a.com", dump_bad); ("a.com", dump2)].
Example C56_example :
  (identifies (made_by [("a.com", dump1)]) 2 "a.com" 9 /\ identifies (made_by sx_history) 2 "a.com" 9 /\ identifies (made_by sx_history) 3 "b.com" 7) /\
  add_site_data "a.com" dump_bad (made_by [("a.com", dump1)]) = (made_by [("a.com", dump1)], Err ValueError) /\
  rmap (fun kd => bool_decide (sd_tags kd.2 = {["python"; "c++"]})) (sx_get (made_by sx_history) 2) = Ok true /\
  rmap (fun kd => (sd_name kd.2, sd_type kd.2)) (sx_get (made_by sx_history) 2) = Ok ("Bob", "Answer") /\
  rmap (fun kd => (sd_name kd.2, sd_comments kd.2)) (sx_get (made_by sx_history) 1) = Ok ("Ann", [("<Deleted User>", Some "why not")]).
Proof.
  split.
  - split_and!; (eexists; split_and!; vm_compute; reflexivity).
  - split_and!; vm_compute; reflexivity.
Qed.

(** ** C69: StackExchange documents can always be indexed, and tags searched *)

(** Every body and date can be parsed and every comment on a post has a text. *)
Definition sx_clean (parse : string -> res (string * list string)) (dates : string -> res (string * string * string)) (h : list (string * dump)) : Prop :=
  (forall url x b, x ∈ posts_in url h -> question_or_answer x -> xp_body x = Some b -> b ≠ "" -> exists p, parse b = Ok p) /\
  (forall url x, x ∈ posts_in url h -> question_or_answer x -> exists c d, xp_created x = Some c /\ dates c = Ok d) /\
  (forall url c, c ∈ comments_in url h -> is_Some (xc_post c) -> is_Some (xc_text c)).

Lemma made_row h k : k ∈ elements (dom (posts (made_by h))) -> exists url id, identifies (made_by h) k url id.
Proof.
  intros Hk%elem_of_elements%elem_of_dom. destruct Hk as [r Hr]. pose proof (reachable_inv _ (made_reachable h)) as Hi.
  destruct (si_sites _ Hi k r Hr) as [u Hu]. exists u, (xp_id (po_x r)), r. done.
Qed.
Lemma last_such_unique {A} (P : A -> Prop) l x x' : last_such P l x -> last_such P l x' -> x = x'.
Proof.
  intros (l1 & l2 & E1 & HP & Hn1) (l1' & l2' & E2 & HP' & Hn2). rewrite E1 in E2.
  apply app_eq_inv in E2 as [(l3 & E3 & E4)|(l3 & E3 & E4)]; destruct l3 as [|z l3]; cbn in E4; injection E4 as Ez El; try done.
  - exfalso. apply (Hn2 x); [|done]. rewrite El. apply elem_of_app. right. by left.
  - exfalso. apply (Hn1 x'); [|done]. rewrite El. apply elem_of_app. right. by left.
Qed.
(** The features of a document. *)
Lemma sx_index_ok tokens parse dates h url x doc : sx_clean parse dates h -> x ∈ posts_in url h -> question_or_answer x -> document_of url h x doc ->
  exists text code toks c d m y, sx_index tokens parse dates doc = Ok [("UserPosting", set_of [sd_name doc]);
             ("Post", words_of (tokens (default "" (sd_title doc)) ++ tokens text));
             ("CodeBlock", words_of (concat (tokens <$> filter (fun line => line ≠ "") code)));
             ("Tag", set_of (elements (sd_tags doc)));
             ("UserCommenting", set_of (sd_comments doc).*1);
             ("Comment", words_of (concat toks));
             ("Site", set_of [sd_site_url doc]);
             ("PostType", set_of [sd_type doc]);
             ("created_day", set_of [d]); ("created_month", set_of [m]); ("created_year", set_of [y])] /\
    (match sd_body doc with Some (String _ _ as b) => parse b | _ => Ok ("", []) end) = Ok (text, code) /\
    xp_created x = Some c /\ dates c = Ok (d, m, y) /\
    Forall2 (fun (p : string * option string) t => exists s, p.2 = Some s /\ t = tokens s) (sd_comments doc) toks.
Proof.
  intros (Hb & Hd & Hc) Hx Hq (_ & _ & _ & Hbo & Hcr & _ & _ & _ & Hco). destruct (Hd url x Hx Hq) as (c & [[d m] y] & H1 & H2).
  assert (exists text code, (match sd_body doc with Some (String _ _ as b) => parse b | _ => Ok ("", []) end) = Ok (text, code)) as (text & code & Hp).
  { rewrite Hbo. destruct (xp_body x) as [[|a b]|] eqn:Eb; [by eexists _, _| |by eexists _, _]. destruct (Hb url x (String a b) Hx Hq Eb) as [[t co] E]; [done|]. by exists t, co. }
  assert (exists toks, rtraverse (fun c : string * option string => match c.2 with Some s => Ok (tokens s) | None => Err AttributeError end) (sd_comments doc) = Ok toks /\
    Forall2 (fun (p : string * option string) t => exists s, p.2 = Some s /\ t = tokens s) (sd_comments doc) toks) as (toks & Ht & HF2).
  { assert (Forall (fun p : string * option string => is_Some p.2) (sd_comments doc)) as HF.
    { rewrite Hco. apply Forall_fmap. apply Forall_forall. intros c' [Hpo Hin]%elem_of_list_filter. cbn. apply (Hc url); [by eapply latest_in|]. by rewrite Hpo. }
    clear -HF. induction HF as [|[n o] l [s Hs] _ IH]; [by eexists|]. cbn in *. subst o. destruct IH as (toks & -> & IH). eexists. split; [done|]. constructor; [by exists s|done]. }
  exists text, code, toks, c, d, m, y. split_and!; try done.
  unfold sx_index. rewrite Hp. cbn [rbind]. rewrite Ht. cbn [rbind]. by rewrite Hcr, H1, H2.
Qed.

Lemma sx_documents tokens parse dates h all : sx_clean parse dates h -> sx_keys (made_by h) all ->
  forall k, k ∈ all -> exists url x doc fs, identifies (made_by h) k url (xp_id x) /\ x ∈ posts_in url h /\ question_or_answer x /\
    last_such (fun y => question_or_answer y /\ xp_id y = xp_id x) (posts_in url h) x /\
    document_of url h x doc /\ sx_index tokens parse dates doc = Ok fs /\
    rbind (sx_get (made_by h) k) (fun kd => sx_index tokens parse dates kd.2) = Ok fs /\
    (forall field vs, (field, Seq vs) ∈ fs -> None ∉ vs).
Proof.
  intros Hcl Hall k Hk. unfold sx_keys in Hall. rewrite Hall in Hk. apply made_row in Hk as (url & id & Hid).
  destruct (made_document h url id k Hid) as (x & doc & Hl & Hdoc & Hof). pose proof Hl as (l1 & l2 & E & [Hq Hxi] & _).
  assert (x ∈ posts_in url h) as Hx by (rewrite E; apply elem_of_app; right; by left).
  destruct (sx_index_ok tokens parse dates h url x doc Hcl Hx Hq Hof) as (text & code & toks & c & d & m & y & Hfs & _). subst id.
  assert (forall l : list string, None ∉ (fun s => Some (VText s)) <$> l) as Hs by (intros l (? & ? & _)%elem_of_list_fmap; done).
  eexists url, x, doc, _. split_and!; try done.
  - unfold document in Hdoc. by rewrite Hdoc.
  - intros field vs Hin. rewrite !elem_of_cons, elem_of_nil in Hin.
    repeat destruct Hin as [Hin|Hin]; try done; injection Hin as _ ->; apply Hs.
Qed.
(** Every such corpus can be indexed; a lookup finds the documents with the feature. *)
Lemma sx_search : forall tokens parse dates h all bsz pos s cn,
  sx_clean parse dates h -> sx_keys (made_by h) all -> all ≠ [] -> index_ready cn -> quiet (disk cn) -> pool_works cn ->
  (forall i, fault s i = None) -> complete s (length (batches bsz (sx_corpus tokens parse dates (made_by h) all))) ->
  exists cn', run_index bsz pos (sx_corpus tokens parse dates (made_by h) all) s cn = (cn', Ok tt) /\
    (forall i, doc_key (disk cn') !! N.of_nat i = (fun k => VInt (Z.of_N k)) <$> all !! i) /\
    forall field v, exists docs, getitem (disk cn') (KFeature (field, v)) = Some docs /\
      forall i, N.of_nat i ∈ docs <-> exists k url x, all !! i = Some k /\ identifies (made_by h) k url (xp_id x) /\
        last_such (fun y => question_or_answer y /\ xp_id y = xp_id x) (posts_in url h) x /\
        exists doc fs, document_of url h x doc /\ sx_index tokens parse dates doc = Ok fs /\ doc_has fs field v.
Proof.
  intros tokens parse dates h all bsz pos s cn Hcl Hall Hne Hr Hq Hp Hf Hc.
  pose proof (sx_documents tokens parse dates h all Hcl Hall) as Hdocs. set (c := sx_corpus tokens parse dates (made_by h) all) in *.
  assert (NoDup all) as Hnd by (unfold sx_keys in Hall; rewrite Hall; apply NoDup_elements).
  assert (well_formed pos c) as Hwf.
  { unfold c, sx_corpus. split_and!.
    - by destruct all.
    - rewrite <- list_fmap_compose. unfold compose. cbn. apply NoDup_fmap_2; [|done]. intros k k' [= E]. lia.
    - intros k r (k0 & [= -> ->] & Hk0)%elem_of_list_fmap. destruct (Hdocs k0 Hk0) as (url & x & doc & fs & _ & _ & _ & _ & _ & _ & -> & Hn). eauto. }
  destruct (C06_indexing_succeeds bsz pos c s cn Hr Hq Hp Hwf Hc Hf) as (cn' & Hrun & Hr' & _).
  exists cn'. split; [done|]. pose proof (C11_documents_and_keys bsz pos c s cn cn' ∅ Hr Hc Hrun) as [Hk _]. split.
  - intros i. apply option_eq. intros k. rewrite Hk, Nat2N.id. unfold c, sx_corpus, corpus. rewrite list_lookup_fmap. by destruct (all !! i).
  - intros field v. destruct (C06_boolean_index_exact bsz pos c s cn cn' Hr Hc Hrun field v) as (docs & Hd & Hiff & _).
    exists docs. split; [done|]. intros i. rewrite Hiff. unfold doc_matches, corpus. rewrite Nat2N.id. unfold c, sx_corpus. rewrite list_lookup_fmap. split.
    + intros (key & fs & Hl & Hhas). destruct (all !! i) as [k|] eqn:Ek; [|done]. cbn in Hl. injection Hl as _ Hl.
      destruct (Hdocs k) as (url & x & doc & fs' & Hid & _ & _ & Hlast & Hof & Hfs & E & _); [by eapply elem_of_list_lookup_2|].
      assert (fs = fs') as -> by congruence. exists k, url, x. split_and!; try done. by exists doc, fs'.
    + intros (k & url & x & Ek & Hid & Hlast & doc & fs & Hof & Hfs & Hhas). rewrite Ek. cbn.
      destruct (Hdocs k) as (url' & x' & doc' & fs' & Hid' & _ & _ & Hlast' & Hof' & Hfs' & E & _); [by eapply elem_of_list_lookup_2|].
      eexists _, fs'. split; [by rewrite <- E|].
      pose proof (proj1 (C56_keys_distinct _ k k _ _ _ _ (made_reachable h) Hid Hid') eq_refl) as [<- Eid].
      assert (x = x') as <- by (rewrite <- Eid in Hlast'; by eapply last_such_unique).
      assert (doc = doc') as <-; [|congruence].
      destruct doc as [a1 a2 a3 a4 a5 a6 a7 a8 a9], doc' as [b1 b2 b3 b4 b5 b6 b7 b8 b9]. unfold document_of in Hof, Hof'. cbn in Hof, Hof'.
      destruct Hof as (-> & -> & -> & -> & -> & -> & -> & Ht & ->), Hof' as (-> & -> & -> & -> & -> & -> & -> & Ht' & ->). f_equal.
      apply set_eq. intros t. rewrite Ht. by rewrite Ht'.
Qed.

Theorem C69_stackexchange_search : forall tokens parse dates h all bsz pos s cn,
  sx_clean parse dates h -> sx_keys (made_by h) all -> all ≠ [] -> index_ready cn -> quiet (disk cn) -> pool_works cn ->
  (forall i, fault s i = None) -> complete s (length (batches bsz (sx_corpus tokens parse dates (made_by h) all))) ->
  exists cn', run_index bsz pos (sx_corpus tokens parse dates (made_by h) all) s cn = (cn', Ok tt) /\
    (forall i, doc_key (disk cn') !! N.of_nat i = (fun k => VInt (Z.of_N k)) <$> all !! i) /\
    forall t, exists docs, getitem (disk cn') (KFeature ("Tag", VText t)) = Some docs /\
      forall i, N.of_nat i ∈ docs <-> exists k url x, all !! i = Some k /\ identifies (made_by h) k url (xp_id x) /\
        last_such (fun y => question_or_answer y /\ xp_id y = xp_id x) (posts_in url h) x /\
        tagged url h (default (xp_id x) (xp_parent x)) t.
Proof.
  intros tokens parse dates h all bsz pos s cn Hcl Hall Hne Hr Hq Hp Hf Hc.
  destruct (sx_search tokens parse dates h all bsz pos s cn Hcl Hall Hne Hr Hq Hp Hf Hc) as (cn' & H1 & H2 & H3).
  exists cn'. split_and!; [done..|]. intros t. destruct (H3 "Tag" (VText t)) as (docs & Hd & Hiff). exists docs. split; [done|].
  intros i. rewrite Hiff. clear Hiff.
  assert (forall url x doc fs, last_such (fun y => question_or_answer y /\ xp_id y = xp_id x) (posts_in url h) x -> document_of url h x doc -> sx_index tokens parse dates doc = Ok fs ->
    doc_has fs "Tag" (VText t) <-> tagged url h (default (xp_id x) (xp_parent x)) t) as Htag.
  { intros url x doc fs Hl Hof Hfs. destruct (sx_index_ok tokens parse dates h url x doc Hcl) as (text & code & toks & c & d & m & y & Hfs' & _); [| |done|].
    - destruct Hl as (l1 & l2 & -> & _). apply elem_of_app. right. by left.
    - by destruct Hl as (l1 & l2 & _ & [? _] & _).
    - rewrite Hfs in Hfs'. injection Hfs' as ->. destruct Hof as (_ & _ & _ & _ & _ & _ & _ & Ht & _). rewrite <- Ht. unfold doc_has. split.
      + intros (fv & Hin & Hv). rewrite !elem_of_cons, elem_of_nil in Hin.
        repeat destruct Hin as [Hin|Hin]; try done. injection Hin as ->. cbn in Hv. apply elem_of_list_fmap in Hv as (t' & [= <-] & Ht'). by apply elem_of_elements in Ht'.
      + intros Hin. eexists. split; [rewrite !elem_of_cons; do 3 right; left; reflexivity|]. cbn. apply elem_of_list_fmap. exists t. split; [done|]. by apply elem_of_elements. }
  split; intros (k & url & x & Ek & Hid & Hl & Hx); exists k, url, x; split_and!; try done.
  - destruct Hx as (doc & fs & Hof & Hfs & Hhas). by apply (Htag url x doc fs Hl Hof Hfs).
  - destruct (sx_documents tokens parse dates h all Hcl Hall k) as (url' & x' & doc & fs & Hid' & _ & _ & Hl' & Hof & Hfs & _); [by eapply elem_of_list_lookup_2|].
    pose proof (proj1 (C56_keys_distinct _ k k _ _ _ _ (made_reachable h) Hid Hid') eq_refl) as [<- Eid].
    assert (x = x') as <- by (rewrite <- Eid in Hl'; by eapply last_such_unique).
    exists doc, fs. split_and!; try done. by apply (Htag url x doc fs Hl Hof Hfs).
Qed.
Print Assumptions C69_stackexchange_search.

Definition no_parse (s : string) : res (string * list string) := Ok (s, []).
Definition any_date (s : string) : res (string * string * string) := Ok (s, s, s).
Definition sx_example_corpus := sx_corpus two_words no_parse any_date (made_by sx_history) [3; 1; 2]%N.
Example C69_example :
  (sx_clean no_parse any_date sx_history /\ sx_keys (made_by sx_history) [3; 1; 2]%N /\ complete (in_order 2) (length (batches 2 sx_example_corpus))) /\
  getitem (disk (run_index 2 true sx_example_corpus (in_order 2) conn0).1) (KFeature ("Tag", VText "c++")) = Some {[0; 1; 2]}%N /\
  getitem (disk (run_index 2 true sx_example_corpus (in_order 2) conn0).1) (KFeature ("Comment", VText "not")) = Some {[1]}%N.
Proof.
  split; [|by_computation]. split; [|split].
  - assert (forall url p, p ∈ dumps_of url sx_history -> p = dump1 \/ p = dump2) as Hd.
    { intros url p (q & -> & [[_ Hr] Hq]%elem_of_list_filter)%elem_of_list_fmap. unfold sx_history in Hq. rewrite !elem_of_cons, elem_of_nil in Hq.
      destruct Hq as [->|[->|[->|[->|[]]]]]; cbn; auto. destruct Hr as [Hr _]. discriminate Hr. }
    split; [by intros; eexists|]. split.
    + intros url x Hx Hq. unfold posts_in in Hx. apply elem_of_concat in Hx as (l & Hx & Hl). apply elem_of_list_fmap in Hl as (p & -> & Hp).
      apply Hd in Hp as [->| ->]; cbn in Hx; rewrite !elem_of_cons, elem_of_nil in Hx.
      * destruct Hx as [->|[->|[->|[]]]]; [by eexists _, _|by destruct Hq|by eexists _, _].
      * destruct Hx as [->|[]]. by eexists _, _.
    + intros url x Hx Hq. unfold comments_in in Hx. apply elem_of_concat in Hx as (l & Hx & Hl). apply elem_of_list_fmap in Hl as (p & -> & Hp).
      apply Hd in Hp as [->| ->]; cbn in Hx; rewrite ?elem_of_cons, elem_of_nil in Hx; [|done].
      destruct Hx as [->|[->|[]]]; by eexists.
  - unfold sx_keys. apply NoDup_Permutation; [by_computation|apply NoDup_elements|]. intros k. rewrite elem_of_elements.
    assert (dom (posts (made_by sx_history)) = {[1; 2; 3]}%N) as -> by by_computation. set_solver.
  - apply complete_in_order.
Qed.

(** ** C70: the rendered fields agree with the document *)
Theorem C70_rendered_fields : forall h k doc fields, document (made_by h) k doc -> sx_fields_of (made_by h) k = Ok fields ->
  sf_url fields = sd_site_url doc /\ sf_id fields = sd_id doc /\ sf_body fields = sd_body doc /\ sf_type fields = sd_type doc /\
  sf_tags fields = sd_tags doc /\ default "<Deleted User>" (sf_name fields) = sd_name doc /\
  ((fun c => (default "<Deleted User>" c.1.1.2, c.1.2)) <$> sf_comments fields) = sd_comments doc /\
  (forall t, sd_title doc = Some t -> sf_title fields = Some t) /\
  (* an answer shows the title of its question, if that is in the corpus *)
  (sd_title doc = None -> forall p kq docq, sf_parent fields = Some p -> identifies (made_by h) kq (sf_url fields) p ->
     document (made_by h) kq docq -> sf_title fields = sd_title docq).
Proof.
  intros h k doc fields Hd Hf. pose proof (reachable_inv _ (made_reachable h)) as Hi. unfold document, sx_get in Hd. unfold sx_fields_of in Hf.
  destruct (posts (made_by h) !! k) as [r|] eqn:Er; [|done]. destruct (sites (made_by h) !! po_site r) as [u|] eqn:Eu; [|done].
  injection Hd as <-. injection Hf as <-. cbn. split_and!; try done.
  - rewrite <- list_fmap_compose. done.
  - by intros t ->.
  - intros Ht p kq docq Hp Hid Hdq. rewrite Ht, Hp. apply (identifies_key _ _ _ _ (po_site r) Hi Eu) in Hid. rewrite Hid.
    unfold document, sx_get in Hdq. destruct (posts (made_by h) !! kq) as [rq|]; [|done]. destruct (sites (made_by h) !! po_site rq); [|done].
    by injection Hdq as <-.
Qed.
Print Assumptions C70_rendered_fields.
Theorem C70_rendered_total : forall h k, is_ok (sx_get (made_by h) k) = is_ok (sx_fields_of (made_by h) k).
Proof.
  intros h k. unfold sx_get, sx_fields_of. destruct (posts (made_by h) !! k) as [r|]; [|done]. by destruct (sites (made_by h) !! po_site r).
Qed.
Print Assumptions C70_rendered_total.
Example C70_example : rmap (fun f => (sf_title f, sf_name f, sf_parent f)) (sx_fields_of (made_by sx_history) 2) = Ok (Some "How?", Some "Bob", Some 7%Z) /\
  sx_fields_of (made_by sx_history) 9 = Err IndexError.
Proof. split; vm_compute; reflexivity. Qed.

(** ** C63 *)

(** Without positions any tweets can be indexed; with positions exactly those whose
    references are all known. *)
Theorem C63_tweets_indexed_partial : forall tokens lower tws bsz pos s cn,
  index_ready cn -> quiet (disk cn) -> pool_works cn -> (forall i, fault s i = None) ->
  tws ≠ [] -> NoDup tws.*1 -> (pos = true -> forall p, p ∈ tws -> references_known p.2) ->
  complete s (length (batches bsz (tweet_corpus tokens lower tws))) ->
  exists cn', run_index bsz pos (tweet_corpus tokens lower tws) s cn = (cn', Ok tt).
Proof.
  intros tokens lower tws bsz pos s cn Hr Hq Hp Hf Hne Hnd Hk Hc.
  destruct (C06_indexing_succeeds bsz pos (tweet_corpus tokens lower tws) s cn) as (cn' & ? & _); [done..| |done|done|eauto].
  by apply tweets_well_formed.
Qed.
Print Assumptions C63_tweets_indexed_partial.

(** One tweet that is not a retweet and quotes nothing is enough: indexing with positions
    raises and the index is not changed. *)
Theorem C63_tweets_indexed_refuted : forall tokens lower tws k tw bsz s cn,
  idle cn -> complete s (length (batches bsz (tweet_corpus tokens lower tws))) ->
  (k, tw) ∈ tws -> tw_retweeted tw = None -> tw_quoted tw = None ->
  exists e, run_index bsz true (tweet_corpus tokens lower tws) s cn = (cn, Err e).
Proof.
  intros tokens lower tws k tw bsz s cn Hid Hc Hin H1 H2. apply C09_failures_are_reported; [done|done|]. left.
  intros (_ & _ & H)%tweets_well_formed. specialize (H eq_refl (k, tw) Hin). unfold references_known in H. cbn in H. rewrite H1, H2 in H.
  destruct H as (_ & [? ?] & _). done.
Qed.
Print Assumptions C63_tweets_indexed_refuted.

Definition tweet1 := Tweet "hello" "ann" (Some (VInt 1)) None None None None None None [] [] [] [] ["c"] [("created_day", "d")].
Definition tweet2 := Tweet "rt" "bob" None (Some (VInt 1)) (Some "ann") None None None None [] [] [] [] [] [].
Definition tweets1 := [(VInt 1, tweet1); (VInt 2, tweet2)].
Example C63_example :
  (tw_retweeted tweet1 = None /\ tw_quoted tweet1 = None /\ references_known tweet2 /\ NoDup tweets1.*1 /\
   complete (in_order 1) (length (batches 5 (tweet_corpus two_words id tweets1)))) /\
  (run_index 5 true (tweet_corpus two_words id tweets1) (in_order 1) conn0).2 = Err ValueError /\
  (run_index 5 false (tweet_corpus two_words id tweets1) (in_order 1) conn0).2 = Ok tt /\
  (run_index 5 true (tweet_corpus two_words id [(VInt 2, tweet2)]) (in_order 1) conn0).2 = Ok tt.
Proof.
  split; [|split_and!; vm_compute; reflexivity]. split_and!; [done|done|by eexists|by_computation|apply complete_in_order].
Qed.
