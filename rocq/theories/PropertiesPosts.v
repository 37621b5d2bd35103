(** PropertiesPosts.v: C100, StackExchange posts are found by what they say. Vocabulary: SpecHtml.v. *)
From Verif Require Import HtmlProofs CorpusCalls PropertiesIndexing PropertiesCorpus.

Section posts.
  Context (tokens : string -> list string) (lxml : string -> res html) (dates : string -> res (string * string * string)).
  Context (Htok : splits_at_spaces tokens).
  Notation says := (says tokens lxml dates).

  Lemma text_list_in w (l : list string) : Some (VText w) ∈ (fun s => Some (VText s)) <$> l <-> w ∈ l.
  Proof. rewrite elem_of_list_fmap. split; [by intros (? & [= ->] & ?)|intros ?; by exists w]. Qed.

  Lemma doc_says h url x doc fs : sx_clean (parse_body lxml) dates h -> x ∈ posts_in url h -> question_or_answer x -> document_of url h x doc ->
    sx_index tokens (parse_body lxml) dates doc = Ok fs ->
    forall field v, doc_has fs field v <-> exists w, v = VText w /\ says kept_prose url h x field w.
  Proof.
    intros Hcl Hx Hq Hof Hfs. destruct (sx_index_ok tokens (parse_body lxml) dates h url x doc Hcl Hx Hq Hof) as (text & code & toks & c & d & m & y & Hfs' & Hb & Hc & Hd & HF).
    rewrite Hfs in Hfs'. injection Hfs' as ->. clear Hfs.
    destruct Hof as (E1 & E2 & E3 & E4 & E5 & E6 & E7 & Ht & Eco).
    assert (forall w, (w ∈ tokens text <-> body_says tokens lxml x kept_prose w) /\
      (w ∈ concat (tokens <$> filter (fun line => line ≠ "") code) <-> body_says tokens lxml x in_code_block w)) as Hbody.
    { intros w. rewrite E4 in Hb. destruct (xp_body x) as [[|a b]|] eqn:Eb.
      - injection Hb as <- <-. destruct Htok as [H0 _]. rewrite H0. cbn. rewrite elem_of_nil.
        split; (split; [done|intros (b & t & s & H1 & H2 & _); congruence]).
      - unfold parse_body in Hb. destruct (lxml (String a b)) as [tree|] eqn:El; [|done]. injection Hb as <- <-. split.
        + rewrite (spaced_words _ _ _ Htok). split.
          * intros (s & Hs & Hw). exists (String a b), tree, s. split_and!; try done. by apply without_code_kept, itertext_shown.
          * intros (b' & t' & s & H1 & _ & H3 & H4 & H5). assert (t' = tree) as -> by congruence. exists s. split; [|done]. by apply itertext_shown, without_code_kept.
        + rewrite elem_of_concat. setoid_rewrite elem_of_list_fmap. setoid_rewrite elem_of_list_filter. setoid_rewrite elem_of_list_fmap. split.
          * intros (l & Hw & line & -> & Hne & node & -> & Hnode). apply (spaced_words _ _ _ Htok) in Hw as (s & Hs & Hw).
            exists (String a b), tree, s. split_and!; try done. exists node. split; [by apply code_nodes_blocks|by apply itertext_shown].
          * intros (b' & t' & s & H1 & _ & H3 & (node & Hn & Hs) & H5). assert (t' = tree) as -> by congruence.
            assert (w ∈ tokens (spaced (itertext node))) as Hw by (apply (spaced_words _ _ _ Htok); exists s; split; [by apply itertext_shown|done]).
            eexists. split; [exact Hw|]. eexists. split; [done|]. split; [|exists node; split; [done|by apply code_nodes_blocks]].
            intros E. rewrite E in Hw. destruct Htok as [H0 _]. rewrite H0 in Hw. by apply elem_of_nil in Hw.
      - injection Hb as <- <-. destruct Htok as [H0 _]. rewrite H0. cbn. rewrite elem_of_nil.
        split; (split; [done|intros (b & t & s & H1 & H2 & _); congruence]). }
    assert (forall w, w ∈ concat toks <-> exists cm t, commented url h x cm /\ xc_text cm = Some t /\ w ∈ tokens t) as Hcom.
    { intros w. rewrite Eco in HF. unfold commented. clear -HF. set (l := filter _ _) in HF.
      assert (forall cm, cm ∈ l <-> cm ∈ latest xc_id (comments_in url h) /\ xc_post cm = Some (xp_id x)) as Hl by (intros cm; unfold l; rewrite elem_of_list_filter; tauto).
      setoid_rewrite <- Hl. clear Hl. clearbody l. revert toks HF. induction l as [|cm l IH]; intros toks HF.
      - inversion HF. cbn. rewrite elem_of_nil. split; [done|]. intros (cm & t & Hin & _). by apply elem_of_nil in Hin.
      - rewrite fmap_cons in HF. inversion HF as [|? t ? toks' (s & Hs & ->) HF' E1 E2]. subst. cbn in Hs. cbn [concat]. rewrite elem_of_app, (IH _ HF'). setoid_rewrite elem_of_cons. split.
        + intros [Hw|(cm' & t & Hin & H1 & H2)]; [exists cm, s; auto|exists cm', t; auto].
        + intros (cm' & t & [->|Hin] & H1 & H2); [left; congruence|right; eauto]. }
    assert (forall w, w ∈ (sd_comments doc).*1 <-> exists cm, commented url h x cm /\ w = name_in url h (xc_user cm)) as Hcomm.
    { intros w. rewrite Eco, <- list_fmap_compose. unfold compose. cbn [fst]. rewrite elem_of_list_fmap. unfold commented. setoid_rewrite elem_of_list_filter. naive_solver. }
    set (fs := [_; _; _; _; _; _; _; _; _; _; _]).
    intros field v. split.
    - intros Hhas. pose proof Hhas as (fv & Hin & Hv). unfold fs in Hin. rewrite !elem_of_cons, elem_of_nil in Hin.
      assert (exists w, v = VText w) as [w ->].
      { repeat destruct Hin as [Hin|Hin]; try done; injection Hin as _ ->; unfold set_of, words_of in Hv; cbn [values_of] in Hv; apply elem_of_list_fmap in Hv as (w & [= ->] & _); eauto. }
      exists w. split; [done|].
      repeat destruct Hin as [Hin|Hin]; try done; injection Hin as -> ->; unfold set_of, words_of in Hv; cbn [values_of] in Hv; apply text_list_in in Hv.
      + apply elem_of_list_singleton in Hv as ->. rewrite E7. constructor.
      + apply elem_of_app in Hv as [Hv|Hv]; [|by apply says_body, Hbody]. rewrite E3 in Hv. destruct (xp_title x) as [t|] eqn:Et; cbn in Hv; [by eapply says_title|].
        destruct Htok as [H0 _]. rewrite H0 in Hv. by apply elem_of_nil in Hv.
      + by apply says_code, Hbody.
      + apply elem_of_elements, Ht in Hv. by constructor.
      + apply Hcomm in Hv as (cm & Hcm & ->). by constructor.
      + apply Hcom in Hv as (cm & t & H1 & H2 & H3). by eapply says_comment.
      + apply elem_of_list_singleton in Hv as ->. rewrite E1. constructor.
      + apply elem_of_list_singleton in Hv as ->. rewrite E6. case_decide; by constructor.
      + apply elem_of_list_singleton in Hv as ->. eapply says_day. by exists c.
      + apply elem_of_list_singleton in Hv as ->. eapply says_month. by exists c.
      + apply elem_of_list_singleton in Hv as ->. eapply says_year. by exists c.
    - intros (w & -> & Hs).
      assert (forall d' m' y', created dates x d' m' y' -> d' = d /\ m' = m /\ y' = y) as Hdate by (intros d' m' y' (c' & H1 & H2); split_and!; congruence).
      inversion Hs; subst; unfold fs; eexists.
      all: try (split; [rewrite !elem_of_cons; (repeat (first [left; reflexivity|right]))|]).
      all: unfold set_of, words_of; cbn [values_of]; apply text_list_in.
      + rewrite E7. by left.
      + apply elem_of_app. left. rewrite E3, H. done.
      + apply elem_of_app. right. by apply Hbody.
      + by apply Hbody.
      + by apply elem_of_elements, Ht.
      + apply Hcomm. by exists c0.
      + apply Hcom. by exists c0, t.
      + by left.
      + rewrite E6. rewrite decide_True by done. by left.
      + rewrite E6. rewrite decide_False by done. by left.
      + destruct (Hdate _ _ _ H) as (-> & _). by left.
      + destruct (Hdate _ _ _ H) as (_ & -> & _). by left.
      + destruct (Hdate _ _ _ H) as (_ & _ & ->). by left.
  Qed.

  (** Indexing succeeds, and looking up any field and value gives exactly the posts that say
      so; [kind]: which texts of a body count as prose. *)
  Definition posts_are_found (kind : html -> string -> Prop) h all bsz pos s cn : Prop :=
    exists cn', run_index bsz pos (sx_corpus tokens (parse_body lxml) dates (made_by h) all) s cn = (cn', Ok tt) /\
      (forall i, doc_key (disk cn') !! N.of_nat i = (fun k => VInt (Z.of_N k)) <$> all !! i) /\
      forall field v, exists docs, getitem (disk cn') (KFeature (field, v)) = Some docs /\
        forall i, N.of_nat i ∈ docs <-> exists k url x w, all !! i = Some k /\ identifies (made_by h) k url (xp_id x) /\
          last_such (fun y => question_or_answer y /\ xp_id y = xp_id x) (posts_in url h) x /\
          v = VText w /\ says kind url h x field w.

  (** ** C100 (partial): everything but the text that follows a code block in its [<pre>]
      element is found: an exact account. *)
  Theorem C100_posts_found_partial : forall h all bsz pos s cn,
    sx_clean (parse_body lxml) dates h -> sx_keys (made_by h) all -> all ≠ [] -> index_ready cn -> quiet (disk cn) -> pool_works cn ->
    (forall i, fault s i = None) -> complete s (length (batches bsz (sx_corpus tokens (parse_body lxml) dates (made_by h) all))) ->
    posts_are_found kept_prose h all bsz pos s cn.
  Proof.
    intros h all bsz pos s cn Hcl Hall Hne Hr Hq Hp Hf Hc.
    destruct (sx_search tokens (parse_body lxml) dates h all bsz pos s cn Hcl Hall Hne Hr Hq Hp Hf Hc) as (cn' & H1 & H2 & H3).
    exists cn'. split_and!; [done..|]. intros field v. destruct (H3 field v) as (docs & Hd & Hiff). exists docs. split; [done|].
    intros i. rewrite Hiff. clear Hiff. split.
    - intros (k & url & x & Ek & Hid & Hl & doc & fs & Hof & Hfs & Hhas). pose proof Hl as (l1 & l2 & E & [Hqa _] & _).
      apply (doc_says h url x doc fs) in Hhas as (w & -> & Hs); [by exists k, url, x, w|done| |done..].
      rewrite E. apply elem_of_app. right. by left.
    - intros (k & url & x & w & Ek & Hid & Hl & -> & Hs). exists k, url, x. split_and!; [done..|].
      destruct (sx_documents tokens (parse_body lxml) dates h all Hcl Hall k) as (url' & x' & doc & fs & Hid' & Hx' & Hqa & Hl' & Hof & Hfs & _); [by eapply elem_of_list_lookup_2|].
      pose proof (proj1 (C56_keys_distinct _ k k _ _ _ _ (made_reachable h) Hid Hid') eq_refl) as [<- Eid].
      assert (x = x') as <- by (rewrite <- Eid in Hl'; by eapply last_such_unique).
      exists doc, fs. split_and!; [done..|]. apply (doc_says h url x doc fs); try done. by exists w.
  Qed.
  (** With no such text, everything is found. *)
  Theorem C100_all_text_found_partial : forall h all bsz pos s cn,
    (forall url x b tree, x ∈ posts_in url h -> xp_body x = Some b -> lxml b = Ok tree -> nothing_after_code tree) ->
    sx_clean (parse_body lxml) dates h -> sx_keys (made_by h) all -> all ≠ [] -> index_ready cn -> quiet (disk cn) -> pool_works cn ->
    (forall i, fault s i = None) -> complete s (length (batches bsz (sx_corpus tokens (parse_body lxml) dates (made_by h) all))) ->
    posts_are_found prose h all bsz pos s cn.
  Proof.
    intros h all bsz pos s cn Hna Hcl Hall Hne Hr Hq Hp Hf Hc.
    destruct (C100_posts_found_partial h all bsz pos s cn Hcl Hall Hne Hr Hq Hp Hf Hc) as (cn' & H1 & H2 & H3).
    exists cn'. split_and!; [done..|]. intros field v. destruct (H3 field v) as (docs & Hd & Hiff). exists docs. split; [done|].
    intros i. rewrite Hiff. clear Hiff.
    split; intros (k & url & x & w & Ek & Hid & Hl & -> & Hs); exists k, url, x, w; (split_and!; [done..|]); (destruct Hs; try (by econstructor)); apply says_body.
    - destruct H as (b & tree & t & E1 & E2 & E3 & Hk & Hw). exists b, tree, t. split_and!; try done. by apply kept_is_prose.
    - destruct H as (b & tree & t & E1 & E2 & E3 & Hk & Hw). exists b, tree, t. split_and!; try done. apply prose_is_kept; [|done].
      apply (Hna url x b tree); [|done|done]. destruct Hl as (l1 & l2 & -> & _). apply elem_of_app. right. by left.
  Qed.
  (** Every text of the body is prose or in a code block, so nothing else can be lost. *)
  Theorem C100_texts_are_prose_or_code : forall tree s, shown tree s <-> prose tree s \/ in_code_block tree s.
  Proof. exact shown_split. Qed.
End posts.
Print Assumptions C100_posts_found_partial.
Print Assumptions C100_all_text_found_partial.
Print Assumptions C100_texts_are_prose_or_code.

(** A tokeniser: the words between spaces. *)
Definition spaced_tokens (s : string) : list string := filter (fun w => w ≠ "") (Corpus.split (fun a => Ascii.eqb a " "%char) s).
Lemma spaced_tokens_split : splits_at_spaces spaced_tokens.
Proof.
  split; [vm_compute; reflexivity|]. intros a b. unfold spaced_tokens. rewrite <- filter_app. apply f_equal. unfold Corpus.split. rewrite <- fmap_app. apply f_equal.
  assert (String.list_ascii_of_string (a ++ " " ++ b) = String.list_ascii_of_string a ++ " "%char :: String.list_ascii_of_string b) as ->.
  { clear. induction a as [|c a IH]; [done|]. exact (f_equal (cons c) IH). }
  generalize (@nil Ascii.ascii) at 1 2. induction (String.list_ascii_of_string a) as [|c l IH]; intros cur; [done|].
  cbn [app split_at]. destruct (Ascii.eqb c " "%char); [by rewrite IH|apply IH].
Qed.

(** [<p>What <b>is</b> wrong?</p><pre><code>x = 1</code> prints nothing</pre>] *)
Definition broken_post : html :=
  Element "div" "" [(Element "p" "What " [(Element "b" "is" [], " wrong?")], "");
                    (Element "pre" "" [(Element "code" "x = 1" [], " prints nothing")], "")].
Definition lxml_broken (body : string) : res html := Ok broken_post.
Definition one_post : list (string * dump) := [("a.com", dump2)].
Definition post_corpus := sx_corpus spaced_tokens (parse_body lxml_broken) any_date (made_by one_post) [1]%N.

Lemma one_post_clean : sx_clean (parse_body lxml_broken) any_date one_post.
Proof.
  split; [by intros; eexists|]. split.
  - intros url x Hx Hq. unfold posts_in in Hx. apply elem_of_concat in Hx as (l & Hx & Hl). apply elem_of_list_fmap in Hl as (p & -> & Hp).
    apply elem_of_list_fmap in Hp as (q & -> & [[_ Hr] Hin]%elem_of_list_filter). apply elem_of_list_singleton in Hin as ->. cbn in Hx.
    apply elem_of_list_singleton in Hx as ->. by eexists _, _.
  - intros url x Hx Hq. unfold comments_in in Hx. apply elem_of_concat in Hx as (l & Hx & Hl). apply elem_of_list_fmap in Hl as (p & -> & Hp).
    apply elem_of_list_fmap in Hp as (q & -> & [[_ Hr] Hin]%elem_of_list_filter). apply elem_of_list_singleton in Hin as ->. cbn in Hx. by apply elem_of_nil in Hx.
Qed.
Lemma one_post_keys : sx_keys (made_by one_post) [1]%N.
Proof.
  unfold sx_keys. assert (dom (posts (made_by one_post)) = {[1]}%N) as -> by by_computation. by rewrite elements_singleton.
Qed.
Theorem C100_text_after_code_refuted :
  ~ (forall tokens lxml dates h all bsz pos s cn, splits_at_spaces tokens ->
    sx_clean (parse_body lxml) dates h -> sx_keys (made_by h) all -> all ≠ [] -> index_ready cn -> quiet (disk cn) -> pool_works cn ->
    (forall i, fault s i = None) -> complete s (length (batches bsz (sx_corpus tokens (parse_body lxml) dates (made_by h) all))) ->
    posts_are_found tokens lxml dates prose h all bsz pos s cn).
Proof.
  intros H. destruct conn0_ready as (R1 & R2 & R3).
  destruct (H spaced_tokens lxml_broken any_date one_post [1]%N 1 true (in_order 1) conn0 spaced_tokens_split one_post_clean one_post_keys ltac:(done) R1 R2 R3 ltac:(done))
    as (cn' & H1 & _ & H3); [apply complete_in_order|]. clear H. fold post_corpus in H1.
  destruct (H3 "Post" (VText "prints")) as (docs & Hd & Hiff). clear H3.
  assert (getitem (disk (run_index 1 true post_corpus (in_order 1) conn0).1) (KFeature ("Post", VText "prints")) = Some ∅) as E by by_computation.
  rewrite H1 in E. cbn [fst] in E. rewrite E in Hd. injection Hd as <-. apply (not_elem_of_empty (C := bitmap) (N.of_nat 0)). apply Hiff. clear.
  exists 1%N, "a.com", question1, "prints". split; [done|]. split; [by (eexists; split_and!; vm_compute; reflexivity)|]. split.
  - exists [], []. split; [vm_compute; reflexivity|]. split; [split; [by left|reflexivity]|by intros y Hy%elem_of_nil].
  - split; [done|]. apply says_body. exists "body", broken_post, " prints nothing". split_and!; [done..| |].
    + eapply prose_child; [right; left|..]; [by intros [? _]|]. eapply prose_tail; [by left|done].
    + by_computation.
Qed.
Print Assumptions C100_text_after_code_refuted.
(** A word that is partly emphasised is shown as one word, but found only in parts. *)
Theorem C100_marked_up_words_refuted :
  ~ (forall tokens lxml h all bsz pos s cn cn' url x b tree w, splits_at_spaces tokens ->
    index_ready cn -> complete s (length (batches bsz (sx_corpus tokens (parse_body lxml) any_date (made_by h) all))) ->
    run_index bsz pos (sx_corpus tokens (parse_body lxml) any_date (made_by h) all) s cn = (cn', Ok tt) ->
    identifies (made_by h) 1 url (xp_id x) -> x ∈ posts_in url h -> all = [1]%N ->
    xp_body x = Some b -> lxml b = Ok tree ->
    (* the text as it is shown *)
    w ∈ tokens (String.concat "" (itertext tree)) ->
    exists docs, getitem (disk cn') (KFeature ("Post", VText w)) = Some docs /\ 0%N ∈ docs).
Proof.
  intros H. set (tree := Element "div" "non" [(Element "i" "sense" [], "")]). set (lxml := fun _ : string => Ok tree : res html).
  set (c := sx_corpus spaced_tokens (parse_body lxml) any_date (made_by one_post) [1]%N).
  destruct (H spaced_tokens lxml one_post [1]%N 1 true (in_order 1) conn0 (run_index 1 true c (in_order 1) conn0).1 "a.com" question1 "body" tree "nonsense" spaced_tokens_split) as (docs & Hd & Hin).
  - apply conn0_ready.
  - apply complete_in_order.
  - fold c. clear H. assert ((run_index 1 true c (in_order 1) conn0).2 = Ok tt) as E by by_computation. rewrite <- E. apply surjective_pairing.
  - by (eexists; split_and!; vm_compute; reflexivity).
  - assert (posts_in "a.com" one_post = [question1]) as -> by (vm_compute; reflexivity). by left.
  - reflexivity.
  - reflexivity.
  - reflexivity.
  - clear H. by_computation.
  - clear H. assert (getitem (disk (run_index 1 true c (in_order 1) conn0).1) (KFeature ("Post", VText "nonsense")) = Some ∅) as E by by_computation.
    rewrite E in Hd. injection Hd as <-. by apply not_elem_of_empty in Hin.
Qed.
Print Assumptions C100_marked_up_words_refuted.
Example C100_example :
  splits_at_spaces spaced_tokens /\ sx_clean (parse_body lxml_broken) any_date one_post /\ sx_keys (made_by one_post) [1]%N /\
  body_texts broken_post = ("What  is  wrong?", ["x = 1"]) /\
  getitem (disk (run_index 1 true post_corpus (in_order 1) conn0).1) (KFeature ("CodeBlock", VText "x")) = Some {[0]}%N /\
  getitem (disk (run_index 1 true post_corpus (in_order 1) conn0).1) (KFeature ("Post", VText "wrong?")) = Some {[0]}%N.
Proof. split; [apply spaced_tokens_split|]. split; [apply one_post_clean|]. split; [apply one_post_keys|]. split; [vm_compute; reflexivity|]. split; by_computation. Qed.
Example C100_clean_example :
  nothing_after_code (Element "div" "a" [(Element "pre" "" [(Element "code" "x" [], "")], "b")]) /\ ~ nothing_after_code broken_post.
Proof.
  split.
  - intros H. inversion H as [? ? ? c tail Hin [Ht _]|? ? ? c tail Hin H1]; subst; [done|]. apply elem_of_list_singleton in Hin. injection Hin as -> ->.
    inversion H1 as [? ? ? c tail Hin _ Hne|? ? ? c tail Hin H2]; subst; apply elem_of_list_singleton in Hin; injection Hin as -> ->; [done|].
    inversion H2 as [? ? ? c tail Hin|? ? ? c tail Hin]; subst; by apply elem_of_nil in Hin.
  - intros H. apply H. eapply ends_inside; [right; left|]. eapply ends_here; [by left|split; [done|by eexists _, _]|done].
Qed.
