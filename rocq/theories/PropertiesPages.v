(** PropertiesPages.v: C76-C79: the pages, searches and exports of the web application.
    Vocabulary: Web.v, SpecWeb.v, SpecQuery.v, SpecCluster.v. *)
From Verif Require Import SpecWeb HistoryProofs QueryProofs SampleProofs LookupProofs WebProofs SampleDb PropertiesCluster PropertiesRefine PropertiesQuery PropertiesWeb.
(** ** C76 *)
(** What a page shows of a set of documents: nothing without a corpus; otherwise the
    passages for a query with one clause per part of the page, or a sample of the documents
    with their keys. [kind]: what result_type asks for. *)
Definition shows (d : db) (w : option web_corpus) (kind : string) (docs : gset N) (n : Z)
    (clauses : list (gset N)) (v : view) : Prop :=
  match w with
  | None => v = NoResults
  | Some _ =>
      if bool_decide (kind = "passage")
      then exists pq, v = Passages pq /\ (list_to_set <$> pq) = clauses
      else exists l, v = Documents l /\ NoDup l.*2 /\ length l = min (Z.to_nat n) (size docs) /\
             forall k doc, (k, doc) ∈ l -> doc ∈ docs /\ doc_key d !! doc = Some k
  end.

Lemma cluster_features_set d c : references_ok d ->
  (list_to_set (cluster_features d c None).*1.*1.*1 : gset N) = members d c /\
  NoDup (cluster_features d c None).*1.*1.*1 /\ length (cluster_features d c None) = size (members d c) /\
  (cluster_features d c None).*1.*1.*1 ≡ₚ elements (members d c).
Proof.
  intros Hr. destruct (C27_cluster_features d c None Hr) as (all & Hp & _ & _ & ->). split_and!.
  - apply leibniz_equiv. intros x. by rewrite elem_of_list_to_set, Hp, elem_of_elements.
  - rewrite Hp. apply NoDup_elements.
  - unfold size, set_size. simpl. rewrite <- Hp. by rewrite !fmap_length.
  - done.
Qed.

Lemma results_shown d w kind q refs pq n g clauses :
  (forall i j k, doc_key d !! i = Some k -> doc_key d !! j = Some k -> i = j) ->
  (forall doc, doc ∈ q -> is_Some (doc_key d !! doc)) -> (0 <= n)%Z ->
  kind <> "concordance" -> (forall x, w = Some x -> w_html x = true) -> (list_to_set <$> pq) = clauses ->
  exists v, results_of d w kind q refs pq n g = Ok v /\ shows d w kind q n clauses v.
Proof.
  intros Hi Hk Hn Hc Hw Hp. unfold results_of, shows. destruct w as [w|]; [|by eexists].
  rewrite (bool_decide_eq_false_2 _ Hc). cbn [rbind]. case_bool_decide.
  - eexists. split; [done|]. by eexists.
  - unfold render_docs. rewrite (Hw _ eq_refl). destruct (C42_sample_bitmap q n g Hn) as (s & -> & Hs & Hz).
    cbn [rbind]. destruct (query_keys_spec d s Hi) as (ks & -> & Hb & Hks); [intros doc Hd; apply Hk; set_solver|].
    cbn [rmap rbind]. eexists. split; [done|]. exists ks. split; [done|]. rewrite Hb. split_and!.
    + apply NoDup_bm_list.
    + rewrite <- Hz. rewrite <- (fmap_length snd), Hb. apply length_bm_list.
    + intros k doc Hin. split; [|by apply Hks]. apply Hs. apply elem_of_bm_list. rewrite <- Hb. apply elem_of_list_fmap. by exists (k, doc).
Qed.

Theorem C76_cluster_page : forall rnd workers arrival g d w c feature filter_cluster n rt,
  rounding rnd -> quiet d -> 0 < workers -> arrival ≡ₚ seq 0 (workers * 2) ->
  (forall i j k, doc_key d !! i = Some k -> doc_key d !! j = Some k -> i = j) ->
  let docs := page_documents d c feature filter_cluster in
  (forall doc, doc ∈ docs -> is_Some (doc_key d !! doc)) ->
  c ∈ dom (cluster d) -> (forall x, filter_cluster = Some x -> x ∈ dom (cluster d)) ->
  (0 <= n)%Z -> result_kind rt <> "concordance" -> (forall x, w = Some x -> w_html x = true) ->
  exists p, cluster_page_of rnd workers arrival g d w c feature filter_cluster n rt = Page p /\
    cp_total p = size docs /\ cp_pinned p = cluster_pinned d c /\
    (* the features listed: those similar to the documents of the page, best first; all
       of them when there are no documents *)
    NoDup (cp_features p).*1.*1 /\
    (forall f, f ∈ (cp_features p).*1.*1 <->
       f ∈ members d c /\ (docs = ∅ \/ (of_nat 0 < similarity rnd docs (feature_docs d f))%Qc)) /\
    (docs <> ∅ -> StronglySorted (fun f g => similarity rnd docs (feature_docs d g) <= similarity rnd docs (feature_docs d f))%Qc
                    (cp_features p).*1.*1) /\
    (forall f field v, (f, field, v) ∈ cp_features p ->
       exists row, inverted_index d !! f = Some row /\ f_field row = field /\ f_value row = v) /\
    shows d w (result_kind rt) docs n
      ([members d c] ++ match feature with Some f => [{[f]}] | None => [] end
       ++ match filter_cluster with Some x => [members d x] | None => [] end) (cp_shown p).
Proof.
  intros rnd workers arrival g d w c feature fc n rt Hr Hq Hw Ha Hi docs Hk Hc Hfc Hn Hkind Hh.
  unfold cluster_page_of.
  assert (exists a b, neighbours (cluster_ids d) c = Some (a, b)) as (a & b & ->).
  { destruct (neighbours (cluster_ids d) c) as [[]|] eqn:E; [eauto|].
    unfold neighbours in E. destruct (position_of c (cluster_ids d)) eqn:Ep; [done|].
    apply position_of_None in Ep. destruct Ep. by apply elem_of_cluster_ids. }
  cbv zeta. unfold docs_or_type_error. rewrite (quiet_cluster_docs d c Hq Hc). cbn [rbind].
  set (q1 := match feature with Some f => _ | None => _ end).
  set (q2 := match fc with Some x => rbind _ _ | None => _ end).
  assert (q2 = Ok docs) as ->.
  { subst q2 docs. unfold page_documents. destruct fc as [x|].
    - rewrite (quiet_cluster_docs d x Hq (Hfc _ eq_refl)). cbn [rbind]. f_equal. subst q1. destruct feature; [done|]. set_solver.
    - f_equal. subst q1. destruct feature; unfold docs_of, feature_docs; set_solver. }
  clear q1. cbn [rbind].
  destruct (cluster_features_set d c (proj1 Hq)) as (Hset & Hnd & Hlen & Hperm).
  assert (0 < size (members d c)) as Hpos.
  { destruct Hq as [_ [_ [Hm _]]]. apply elem_of_dom, Hm in Hc. destruct (decide (size (members d c) = 0)) as [H0|]; [|lia].
    destruct Hc. apply leibniz_equiv. by apply size_empty_inv. }
  destruct (C40_pivot_covers_clusters rnd workers arrival d docs (Some [c]) (length (cluster_features d c None)) Hr Hq Hw Ha) as (out & Ho & Hcov & Hsort & Hsim).
  { by rewrite Hlen. }
  { intros x. cbn. rewrite elem_of_list_singleton. by intros ->. }
  rewrite Ho. cbn [rbind requested] in *.
  set (pq := [_] ++ _ ++ _).
  edestruct (results_shown d w (result_kind rt) docs) with (pq := pq) (n := n) as (v & -> & Hv); [done|done|done|done|done|reflexivity|].
  cbn [rbind]. eexists. split; [done|]. cbn [cp_total cp_pinned cp_features cp_shown]. split; [done|]. split.
  { unfold pinned_cluster_ids, cluster_pinned. apply eq_true_iff_eq. rewrite bool_decide_eq_true, elem_of_dom.
    unfold is_Some. setoid_rewrite map_filter_lookup_Some. cbn. destruct (cluster d !! c) as [row|]; naive_solver. }
  assert (docs ∩ cluster_documents d c = docs) as Hsub by (subst docs; unfold page_documents; set_solver).
  assert (shows d w (result_kind rt) docs n
      ([members d c] ++ match feature with Some f => [{[f]}] | None => [] end
       ++ match fc with Some x => [members d x] | None => [] end) v) as Hshow.
  { replace ([members d c] ++ _) with ((list_to_set <$> pq) : list (gset N)); [done|]. subst pq.
    rewrite !fmap_app. cbn [fmap list_fmap]. rewrite Hset. f_equal. f_equal.
    - destruct feature; [|done]. cbn. f_equal. set_solver.
    - destruct fc as [x|]; [|done]. cbn [fmap list_fmap]. by rewrite (proj1 (cluster_features_set d x (proj1 Hq))). }
  clear Hv. rewrite filter_cons, Hsub in Hcov. destruct (decide (docs = ∅)) as [He|He].
  - rewrite decide_False in Hcov by naive_solver. rewrite filter_nil in Hcov.
    assert (out = []) as ->. { destruct out; [done|]. apply Permutation_length in Hcov. done. }
    split_and!; [done| |done| |done].
    + intros f. rewrite Hperm, elem_of_elements. naive_solver.
    + intros f field v' Hin. destruct (C27_cluster_features d c None (proj1 Hq)) as (all & _ & Hrow & _ & Heq). rewrite Heq in Hin.
      apply elem_of_list_fmap in Hin as (r & Hr1 & Hin). destruct (Hrow _ Hin) as (ii & Hii & Hreq). exists ii.
      rewrite Hreq in Hr1. cbn in Hr1. injection Hr1 as -> -> ->. done.
  - rewrite decide_True in Hcov by done. rewrite filter_nil in Hcov. destruct out as [|[[c' s] rows] [|? ?]].
    { apply Permutation_length in Hcov. done. } 2:{ apply Permutation_length in Hcov. done. }
    cbn in Hcov. apply Permutation_singleton_r in Hcov. injection Hcov as ->.
    destruct (C39_pivot_top_features _ _ _ _ _ _ _ _ c s rows Hr Hq Ho) as (Hst & (best & (Hbl & _ & (rest & Hbp & _)) & Hbest) & Hrow); [by apply elem_of_list_singleton|].
    assert (rest = []) as ->.
    { apply Permutation_length in Hbp. rewrite app_length, Hbl in Hbp. destruct rest; [done|]. exfalso. cbn [length] in Hbp.
      assert (length (scored_features rnd d docs c) <= length (cluster_features d c None)); [|lia].
      unfold scored_features. etrans; [apply filter_length|]. rewrite fmap_length. rewrite Hlen. done. }
    rewrite app_nil_r in Hbp. rewrite Hbp in Hbest. unfold scored_features in Hbest.
    assert (forall f s', (s', f) ∈ (fun r : N * string * value * Qc => (r.2, r.1.1.1)) <$> rows <->
      (f ∈ members d c /\ s' = similarity rnd docs (feature_docs d f) /\ (of_nat 0 < s')%Qc)) as Hel.
    { intros f s'. rewrite Hbest, elem_of_list_filter, elem_of_list_fmap. cbn. split.
      - intros (Hp & f' & [= -> ->] & Hf%elem_of_elements). done.
      - intros (Hf & -> & Hp). split; [done|]. exists f. split; [done|]. by apply elem_of_elements. }
    assert (forall r, r ∈ rows -> r.2 = similarity rnd docs (feature_docs d r.1.1.1)) as Hsc.
    { intros r Hin. apply (Hel r.1.1.1 r.2). apply elem_of_list_fmap. eauto. }
    split_and!; [| | | |done].
    + assert (rows.*1.*1.*1 = ((fun r : N * string * value * Qc => (r.2, r.1.1.1)) <$> rows).*2) as ->.
      { rewrite <- !list_fmap_compose. done. }
      rewrite Hbest. generalize (NoDup_elements (members d c)). generalize (elements (members d c)). intros l.
      induction 1 as [|x l Hx _ IH]; [constructor|]. rewrite fmap_cons, filter_cons. case_decide; [|done].
      cbn. constructor; [|done]. rewrite elem_of_list_fmap. intros ([s' f] & Heq & Hin). cbn in Heq. subst f.
      apply elem_of_list_filter in Hin as [_ Hin]. apply elem_of_list_fmap in Hin as (y & [= _ ->] & Hy). done.
    + intros f. split.
      * intros Hin. rewrite <- !list_fmap_compose in Hin. apply elem_of_list_fmap in Hin as (r & -> & Hin). cbn.
        destruct (Hel r.1.1.1 r.2) as [H _]. destruct H as (? & He2 & ?); [apply elem_of_list_fmap; eauto|]. rewrite <- He2. auto.
      * intros (Hf & [?|Hp]); [done|]. destruct (Hel f (similarity rnd docs (feature_docs d f))) as [_ H].
        specialize (H (conj Hf (conj eq_refl Hp))). apply elem_of_list_fmap in H as (r & Heq & Hin).
        rewrite <- !list_fmap_compose. apply elem_of_list_fmap. exists r. split; [by injection Heq|done].
    + intros _. rewrite <- !list_fmap_compose. clear -Hst Hsc. induction Hst as [|r l Hs IH Hf]; [constructor|]. cbn. constructor.
      { apply IH. intros. apply Hsc. by right. }
      rewrite Forall_forall in Hf. apply Forall_forall. intros f (r' & -> & Hin)%elem_of_list_fmap. cbn.
      rewrite <- (Hsc r), <- (Hsc r'); [by apply Hf|by right|by left].
    + intros f field v' Hin. apply elem_of_list_fmap in Hin as ([[[f1 F1] v1] w1] & Heq & Hin). cbn in Heq. injection Heq as -> -> ->. by apply (Hrow _ _ _ w1).
Qed.
Print Assumptions C76_cluster_page.

#[global] Instance view_eq_dec : EqDecision view.
Proof. solve_decision. Defined.
(** What is on a page: features, number of documents, documents shown. *)
Definition content (a : page_answer cluster_page) : option (list (N * string * value) * nat * view) :=
  match a with Page p => Some (cp_features p, cp_total p, cp_shown p) | _ => None end.
(** Two documents per cluster of the sample index have keys; a corpus that renders HTML. *)
Definition page_db : db := set_doc_key (list_to_map ((fun i => (i, VInt (Z.of_N i * 10))) <$> [0;1;2;3;4;5]%N)) sample_db.
Definition page_corpus : option web_corpus := Some (WebCorpus [] true).
Lemma quiet_set_doc_key m d : quiet d -> quiet (set_doc_key m d).
Proof. destruct d. exact id. Qed.
Lemma page_db_quiet : quiet page_db.
Proof. apply quiet_set_doc_key, sample_db_quiet. Qed.
Lemma page_keys_unique : forall i j k, doc_key page_db !! i = Some k -> doc_key page_db !! j = Some k -> i = j.
Proof.
  assert (map_Forall (fun i v => v = VInt (Z.of_N i * 10)) (doc_key page_db)) as H by by_computation.
  intros i j k Hi%H Hj%H. congruence || (subst; injection Hj; lia).
Qed.
Example C76_example :
  rounding exact_division /\ quiet page_db /\
  (forall i j k, doc_key page_db !! i = Some k -> doc_key page_db !! j = Some k -> i = j) /\
  (forall doc, doc ∈ page_documents page_db 1 (Some 5%N) None -> is_Some (doc_key page_db !! doc)) /\
  1%Z ∈ dom (cluster page_db) /\ page_documents page_db 1 (Some 5%N) None = {[0;2;4]}%N /\
  content (cluster_page_of exact_division 1 [1;0] rng0 page_db page_corpus 1 (Some 5%N) None 2 None) =
    Some ([(1%N, "text", VText "a"); (3%N, "text", VText "c")], 3, Documents [(VInt 0, 0%N); (VInt 20, 2%N)]).
Proof.
  split; [apply exact_rounding|]. split; [apply page_db_quiet|]. split; [apply page_keys_unique|].
  split; [|split; [by_computation|split; [by_computation|by_computation]]].
  assert (set_Forall (fun doc => is_Some (doc_key page_db !! doc)) (page_documents page_db 1 (Some 5%N) None)) as H by by_computation.
  exact H.
Qed.

(** ** C77 *)
(** A page asked for concordances shows concordances. *)
Definition C77_claim : Prop := forall rnd workers arrival g d w c feature filter_cluster n p,
  rounding rnd -> quiet d -> 0 < workers -> arrival ≡ₚ seq 0 (workers * 2) ->
  cluster_page_of rnd workers arrival g d (Some w) c feature filter_cluster n (Some "concordance") = Page p ->
  exists lines, cp_shown p = Concordances lines.

Definition spoken : web_corpus :=
  WebCorpus ((fun i => (VInt (i * 10), Ok [("text", Seq [Some (VText "a"); Some (VText "c")])])) <$> [0;1;2;3;4;5]%Z) true.
Definition concordance_page :=
  cluster_page_of exact_division 1 [0;1] rng0 page_db (Some spoken) 1 None None 2 (Some "concordance").
Theorem C77_concordances_shown_refuted : ~ C77_claim.
Proof.
  intros H.
  assert (snd <$> content concordance_page = Some (Documents [(VInt 20, 2%N); (VInt 30, 3%N)])) as He by by_computation.
  unfold concordance_page in He.
  destruct (cluster_page_of exact_division 1 [0;1] rng0 page_db (Some spoken) 1 None None 2 (Some "concordance")) as [p| |] eqn:E; [|done|done].
  destruct (H _ 1 [0;1] _ _ _ _ _ _ _ _ exact_rounding page_db_quiet ltac:(lia) ltac:(reflexivity) E) as [l Hl]. cbn in He. rewrite Hl in He. done.
Qed.
Print Assumptions C77_concordances_shown_refuted.
(** ... it shows what it shows when asked for documents. For the other kinds see C76. *)
Theorem C77_shows_documents_partial : forall rnd workers arrival g d w c feature filter_cluster n p,
  cluster_page_of rnd workers arrival g d w c feature filter_cluster n (Some "concordance") = Page p ->
  cluster_page_of rnd workers arrival g d w c feature filter_cluster n (Some "document") = Page p.
Proof.
  intros rnd workers arrival g d w c feature fc n p. unfold cluster_page_of.
  destruct (neighbours _ _) as [[a b]|]; [|done]. cbv zeta.
  assert (forall q refs pq v, results_of d w (result_kind (Some "concordance")) q refs pq n g = Ok v ->
     results_of d w (result_kind (Some "document")) q refs pq n g = Ok v) as Hr.
  { intros q refs pq v. unfold results_of. destruct w as [w|]; [|done].
    change (result_kind (Some "concordance")) with "concordance". change (result_kind (Some "document")) with "document".
    rewrite (bool_decide_eq_false_2 ("document" = "concordance")) by done. rewrite (bool_decide_eq_false_2 ("document" = "passage")) by done.
    rewrite (bool_decide_eq_false_2 ("concordance" = "passage")) by done.
    intros (? & _ & H)%rbind_ok. cbn [rbind]. exact H. }
  match goal with |- match ?x with _ => _ end = _ -> _ => destruct x as [p'|] eqn:E end; [|done]. intros [= ->].
  apply rbind_ok in E as (q0 & -> & E). cbn [rbind]. apply rbind_ok in E as (q & -> & E). cbn [rbind].
  apply rbind_ok in E as (s & -> & E). cbn [rbind]. apply rbind_ok in E as (v & Hv & E). rewrite (Hr _ _ _ _ Hv). cbn [rbind]. injection E as <-. done.
Qed.
Print Assumptions C77_shows_documents_partial.

(** ** C78 *)
(** What is typed to search for a value; only a text is typed as it is. *)
Definition typed (parse : string -> option Z) (v : value) (s : string) : Prop :=
  match v with VText x => s = x | VInt z => parse s = Some z end.
Definition C78_claim : Prop := forall parse d f row s,
  features_unique (inverted_index d) -> inverted_index d !! f = Some row -> typed parse (f_value row) s ->
  search d (f_field row) s None = Redirect (ToFeature f).
Definition year_db : db := set_inverted_index {[1%N := FeatureRow "year" (VInt 3) 1 {[0%N]}]} empty_db.
Theorem C78_search_refuted : ~ C78_claim.
Proof.
  intros H. specialize (H digits year_db 1%N (FeatureRow "year" (VInt 3) 1 {[0%N]}) "3").
  assert (search year_db "year" "3" None = Crashed KeyError) as Hs by by_computation.
  cbn [f_field] in H. rewrite Hs in H.
  unfold typed in H. cbn [f_value] in H.
  cut (Crashed KeyError = Redirect (ToFeature 1)); [done|]. apply H; [| |reflexivity].
  - intros i j a b. change (inverted_index year_db) with ({[1%N := FeatureRow "year" (VInt 3) 1 {[0%N]}]} : gmap N feature_row).
    rewrite !lookup_singleton_Some. naive_solver.
  - by apply lookup_singleton.
Qed.
Print Assumptions C78_search_refuted.
(** A text is found, on the page asked for; anything else fails and leads nowhere. *)
Theorem C78_search_partial : forall d field s,
  features_unique (inverted_index d) ->
  (forall f row, inverted_index d !! f = Some row -> f_field row = field -> f_value row = VText s ->
     search d field s None = Redirect (ToFeature f) /\
     forall c, search d field s (Some c) = Redirect (ToClusterFeature c f)) /\
  ((forall f row, inverted_index d !! f = Some row -> (f_field row, f_value row) <> (field, VText s)) ->
     forall c, search d field s c = Crashed KeyError).
Proof.
  intros d field s Hu. unfold search. split.
  - intros f row Hf <- Hv. rewrite (proj2 (lookup_feature_id_ok d f (f_field row, VText s) Hu)); [done|].
    apply lookup_feature_ok. exists row. unfold row_key. by rewrite Hv.
  - intros Hn c. unfold lookup_feature_id. destruct (find_feature _ _) as [f|] eqn:E; [|done]. exfalso.
    apply (find_feature_iff _ _ _ Hu) in E as (row & Hr & He). by apply (Hn f row Hr).
Qed.
Print Assumptions C78_search_partial.
Example C78_example :
  map_Forall (fun f row => map_Forall (fun g row' => f = g \/ (f_field row, f_value row) <> (f_field row', f_value row')) (inverted_index sample_db)) (inverted_index sample_db) /\
  search sample_db "text" "c" None = Redirect (ToFeature 3) /\ search sample_db "text" "zz" None = Crashed KeyError.
Proof. by_computation. Qed.

(** ** C79 *)
(** [block rows]: the lines of the export come in one block per cluster. *)
Definition clusters_of (l : list (Z * N * string * value * N)) : list Z := l.*1.*1.*1.*1.
Definition one_block_each (l : list Z) : Prop :=
  forall i j k c, i < j -> j < k -> l !! i = Some c -> l !! k = Some c -> l !! j = Some c.

Lemma one_block_concat (ls : list (Z * list Z)) :
  NoDup ls.*1 -> Forall (fun x => Forall (fun y => y = x.1) x.2) ls -> one_block_each (concat ls.*2).
Proof.
  induction ls as [|[c l] ls IH]; intros Hnd Hf; [by intros i j k c _ _ H|].
  cbn in Hnd |- *. apply NoDup_cons in Hnd as [Hc Hnd']. apply Forall_cons in Hf as [Hl Hf']. cbn in Hl.
  specialize (IH Hnd' Hf'). pose proof (proj1 (Forall_forall _ _) Hl) as Hl1. pose proof (proj1 (Forall_forall _ _) Hf') as Hf1. clear Hl Hf'. rename Hl1 into Hl, Hf1 into Hf'.
  assert (forall y, y ∈ concat ls.*2 -> y <> c) as Hne.
  { intros y Hy ->. apply elem_of_list_In, in_concat in Hy as (l' & Hl' & Hy). apply elem_of_list_In in Hy, Hl'. apply elem_of_list_fmap in Hl' as (x & -> & Hx).
    specialize (Hf' x Hx). rewrite Forall_forall in Hf'. rewrite (Hf' _ Hy) in Hc. apply Hc. apply elem_of_list_fmap. eauto. }
  intros i j k x Hij Hjk Hi Hk.
  destruct (decide (i < length l)) as [H1|H1].
  - rewrite lookup_app_l in Hi by done. assert (x = c) as -> by (apply Hl; eapply elem_of_list_lookup; eauto).
    destruct (decide (k < length l)) as [H2|H2].
    + rewrite lookup_app_l in Hk by done. rewrite lookup_app_l by lia.
      destruct (lookup_lt_is_Some_2 l j ltac:(lia)) as [y Hy]. rewrite Hy. f_equal. apply Hl. eapply elem_of_list_lookup; eauto.
    + rewrite lookup_app_r in Hk by lia. exfalso. eapply Hne; [eapply elem_of_list_lookup; eauto|done].
  - rewrite lookup_app_r in Hi, Hk |- * by lia. eapply (IH (i - length l) (j - length l) (k - length l)); eauto; lia.
Qed.

Lemma export_clusters_blocks d k : references_ok d -> one_block_each (clusters_of (export_clusters d k)).
Proof.
  intros Hr. destruct (C27_top_cluster_features d k) as (Hp & _ & Hrow).
  pose (ls := (fun x : Z * N * list (N * string * value * N) => (x.1.1, (fun _ => x.1.1) <$> x.2)) <$> top_cluster_features d k).
  assert (clusters_of (export_clusters d k) = concat ls.*2) as ->.
  { unfold clusters_of, export_clusters, ls. generalize (top_cluster_features d k). intros l.
    induction l as [|x l IH]; [done|]. rewrite bind_cons, !fmap_app, IH. cbn. f_equal. by rewrite <- !list_fmap_compose. }
  apply one_block_concat.
  - unfold ls. rewrite <- list_fmap_compose. change (NoDup ((fun x : Z * N * list (N * string * value * N) => x.1.1) <$> top_cluster_features d k)).
    assert (forall l : list (Z * N * list (N * string * value * N)), (fun x => x.1.1) <$> l = l.*1.*1) as -> by (intros; by rewrite <- list_fmap_compose).
    rewrite Hp. apply NoDup_cluster_ids.
  - unfold ls. apply Forall_fmap, Forall_forall. intros x _. cbn. apply Forall_fmap, Forall_forall. done.
Qed.

Lemma filter_none {A} (P : A -> Prop) `{!forall x, Decision (P x)} (l : list A) : (forall x, x ∈ l -> ~ P x) -> filter P l = [].
Proof.
  induction l as [|x l IH]; intros Hp; [done|]. rewrite filter_cons, decide_False by (apply Hp; by left). apply IH. intros. apply Hp. by right.
Qed.
Lemma filter_every {A} (P : A -> Prop) `{!forall x, Decision (P x)} (l : list A) : (forall x, x ∈ l -> P x) -> filter P l = l.
Proof.
  induction l as [|x l IH]; intros Hp; [done|]. rewrite filter_cons, decide_True by (apply Hp; by left). f_equal. apply IH. intros. apply Hp. by right.
Qed.
Definition block (d : db) (k : nat) (c : Z) : list (Z * N * string * value * N) :=
  (fun r : N * string * value * N => (c, r.1.1.1, r.1.1.2, r.1.2, r.2)) <$> cluster_features d c (Some k).
Lemma export_clusters_bind d k : export_clusters d k = (top_cluster_features d k).*1.*1 ≫= block d k.
Proof.
  destruct (C27_top_cluster_features d k) as (_ & _ & Hrow). unfold export_clusters. revert Hrow.
  generalize (top_cluster_features d k). intros l Hrow. induction l as [|x l IH]; [done|]. cbn [fmap list_fmap]. rewrite !bind_cons.
  rewrite IH by (intros r Hr; apply Hrow; by right). f_equal. unfold block.
  destruct (Hrow x ltac:(by left)) as (_ & _ & _ & ->). done.
Qed.
Lemma block_ids d k c : (block d k c).*1.*1.*1.*2 = (cluster_features d c (Some k)).*1.*1.*1.
Proof. unfold block. by rewrite <- !list_fmap_compose. Qed.
Lemma block_cluster d k c x : x ∈ block d k c -> x.1.1.1.1 = c.
Proof. unfold block. by intros (r & -> & _)%elem_of_list_fmap. Qed.
Lemma elem_of_members d c f : f ∈ members d c <-> assigned d f = Some c.
Proof.
  unfold members, assigned. rewrite elem_of_dom. unfold is_Some. setoid_rewrite map_filter_lookup_Some. cbn.
  destruct (feature_cluster d !! f); cbn; naive_solver.
Qed.

(** The rows of an export with at most [k] features per cluster. *)
Lemma export_clusters_spec d k : quiet d ->
  NoDup (export_clusters d k).*1.*1.*1.*2 /\
  (forall x, x ∈ export_clusters d k -> export_line d x) /\
  (forall c, length (filter (fun x => x.1.1.1.1 = c) (export_clusters d k)) = min k (size (members d c))) /\
  (forall x f row, x ∈ export_clusters d k -> assigned d f = Some x.1.1.1.1 -> inverted_index d !! f = Some row ->
     f ∉ (export_clusters d k).*1.*1.*1.*2 -> (N.of_nat (size (f_doc_ids row)) <= x.2)%N).
Proof.
  intros Hq. pose proof (proj1 Hq) as Hr. rewrite export_clusters_bind.
  destruct (C27_top_cluster_features d k) as (Hp & _ & _).
  assert (NoDup (top_cluster_features d k).*1.*1) as Hnd by (rewrite Hp; apply NoDup_cluster_ids).
  assert (forall c, c ∉ (top_cluster_features d k).*1.*1 -> members d c = ∅) as Hout.
  { intros c. rewrite Hp, elem_of_cluster_ids, elem_of_dom. destruct Hq as [_ [_ [Hm _]]]. rewrite Hm.
    destruct (decide (members d c = ∅)); tauto. }
  revert Hnd Hout. generalize ((top_cluster_features d k).*1.*1). intros l Hnd Hout.
  assert (forall x, x ∈ l ≫= block d k -> exists c r, c ∈ l /\ r ∈ cluster_features d c (Some k) /\ x = (c, r.1.1.1, r.1.1.2, r.1.2, r.2)) as Hel.
  { intros x (c & Hx & Hc)%elem_of_list_bind. apply elem_of_list_fmap in Hx as (r & -> & Hx). eauto. }
  split_and!.
  - clear Hout Hel. induction Hnd as [|c l Hc Hnd IH]; [constructor|]. rewrite bind_cons, !fmap_app. apply NoDup_app. split_and!; [|  |done].
    + rewrite block_ids. apply C27_cluster_features_top, Hr.
    + intros f Hf Hf'. rewrite block_ids in Hf. apply elem_of_list_fmap in Hf as (r0 & -> & Hf).
      apply elem_of_list_fmap in Hf as (r1 & -> & Hf). apply elem_of_list_fmap in Hf as (r2 & -> & Hf).
      destruct (C27_cluster_features_top d c k Hr) as (_ & _ & Hin). destruct (Hin _ Hf) as [Hm _].
      rewrite <- !list_fmap_compose in Hf'. apply elem_of_list_fmap in Hf' as (x & Hx & Hin').
      apply elem_of_list_bind in Hin' as (c' & Hx' & Hc'). apply elem_of_list_fmap in Hx' as (r' & -> & Hx'). cbn in Hx.
      destruct (C27_cluster_features_top d c' k Hr) as (_ & _ & Hin2). destruct (Hin2 _ Hx') as [Hm' _].
      rewrite <- Hx in Hm'. apply elem_of_members in Hm, Hm'. rewrite Hm in Hm'. injection Hm' as ->. done.
  - intros x (c & r & Hc & Hin & ->)%Hel. unfold export_line.
    destruct (C27_cluster_features_top d c k Hr) as (_ & _ & Htop). destruct (Htop _ Hin) as [Hm _].
    split; [by apply elem_of_members|]. destruct (C27_cluster_features d c (Some k) Hr) as (all & _ & Hrow & _ & Heq).
    rewrite Heq in Hin. destruct (Hrow r) as (ii & Hii & Hreq); [eapply elem_of_list_lookup in Hin as [i Hi]; eapply elem_of_list_lookup; exists i; by apply lookup_take_Some in Hi as [? _]|].
    exists ii. rewrite Hreq. cbn. split_and!; [done|done|done|]. by apply Hr in Hii.
  - intros c. assert (c ∉ l -> length (filter (fun x => x.1.1.1.1 = c) (l ≫= block d k)) = 0) as H0.
    { clear Hout Hnd Hel. induction l as [|c' l IH]; [done|]. intros [Hne Hn]%not_elem_of_cons. rewrite bind_cons, filter_app, app_length, IH by done.
      rewrite filter_none; [done|]. intros x Hx. rewrite (block_cluster _ _ _ _ Hx). congruence. }
    destruct (decide (c ∈ l)) as [Hc|Hc]; [|rewrite H0 by done; rewrite (Hout _ Hc), size_empty; lia].
    clear Hout Hel. induction Hnd as [|c' l Hc' Hnd IH]; [by apply elem_of_nil in Hc|]. rewrite bind_cons, filter_app, app_length.
    destruct (C27_cluster_features_top d c k Hr) as (Hlen & _ & _).
    destruct (decide (c = c')) as [<-|Hne].
    + rewrite (filter_every _ (block d k c)) by apply block_cluster. unfold block at 1. rewrite fmap_length, Hlen.
      rewrite filter_none; [cbn; lia|]. intros x (c2 & Hx & Hc2)%elem_of_list_bind. rewrite (block_cluster _ _ _ _ Hx). by intros ->.
    + apply elem_of_cons in Hc as [->|Hc]; [done|]. rewrite filter_none; [|intros x Hx; rewrite (block_cluster _ _ _ _ Hx); congruence].
      cbn. apply IH; [|done]. done.
  - intros x f row (c & r & Hc & Hin & ->)%Hel Hf Hrow Hnot. cbn in Hf |- *.
    destruct (C27_cluster_features_top d c k Hr) as (_ & _ & Htop). destruct (Htop _ Hin) as [_ Hle].
    assert (f_docs_count row = N.of_nat (size (f_doc_ids row))) as <- by (by eapply (proj1 (proj2 Hr))).
    apply (Hle f row); [by apply elem_of_members|done|]. intros Hb. apply Hnot.
    rewrite <- block_ids in Hb. apply elem_of_list_fmap in Hb as (r0 & -> & Hb). apply elem_of_list_fmap in Hb as (r1 & -> & Hb). apply elem_of_list_fmap in Hb as (r2 & -> & Hb). apply elem_of_list_fmap in Hb as (r3 & -> & Hb).
    do 4 (apply elem_of_list_fmap_1). apply elem_of_list_bind. eauto.
Qed.

Lemma no_limit_enough n : (N.of_nat n <= 2 ^ 62)%N -> n <= no_limit.
Proof. unfold no_limit_of. generalize (2 ^ 62)%N. lia. Qed.
#[global] Opaque no_limit_of.

Lemma export_complete d k x : quiet d -> (forall c, size (members d c) <= k) ->
  export_line d x -> x ∈ export_clusters d k.
Proof.
  destruct x as [[[[c f] field] v] n]. intros Hq Hk (Ha & row & Hrow & <- & <- & ->).
  pose proof (proj1 Hq) as Hr. rewrite export_clusters_bind.
  destruct (C27_top_cluster_features d k) as (Hp & _ & _). apply elem_of_list_bind. exists c.
  apply elem_of_members in Ha. split.
  - destruct (C27_cluster_features d c (Some k) Hr) as (all & Hall & Hrows & _ & Heq).
    unfold block. rewrite Heq, take_ge.
    2:{ apply Permutation_length in Hall. rewrite !fmap_length in Hall. rewrite Hall. apply Hk. }
    apply elem_of_elements in Ha. rewrite <- Hall in Ha.
    apply elem_of_list_fmap in Ha as (r0 & -> & Ha). apply elem_of_list_fmap in Ha as (r1 & -> & Ha). apply elem_of_list_fmap in Ha as (r2 & -> & Ha).
    destruct (Hrows _ Ha) as (ii & Hii & He). rewrite Hrow in Hii. injection Hii as <-.
    apply elem_of_list_fmap. exists r2. split; [|done]. rewrite He. cbn. do 2 f_equal.
    symmetry. by eapply (proj1 (proj2 Hr)).
  - rewrite Hp, elem_of_cluster_ids, elem_of_dom. destruct Hq as [_ [_ [Hm _]]]. apply Hm. set_solver.
Qed.

(** The export of the web application, and that of the command line unless a limit is
    given, is the whole model: one line per clustered feature, cluster by cluster. *)
Theorem C79_export_everything : forall d rows,
  quiet d -> (forall c, N.of_nat (size (members d c)) <= 2 ^ 62)%N ->
  rows = web_export d \/ rows = cli_export d 0 ->
  (forall x, x ∈ rows <-> export_line d x) /\
  NoDup rows.*1.*1.*1.*2 /\ one_block_each (clusters_of rows).
Proof.
  intros d rows Hq Hs Hrows. assert (rows = export_clusters d no_limit) as -> by (by destruct Hrows as [-> | ->]).
  destruct (export_clusters_spec d no_limit Hq) as (H1 & H2 & _ & _). split_and!; [|done|apply export_clusters_blocks, Hq].
  intros x. split; [apply H2|]. apply export_complete; [done|]. intros c. by apply no_limit_enough.
Qed.
Print Assumptions C79_export_everything.

(** With a limit [k] there are min(k, size) lines per cluster, and no feature left out is
    in more documents than one exported for its cluster. *)
Theorem C79_export_limited : forall d k, quiet d -> 0 < k ->
  let rows := cli_export d k in
  (forall x, x ∈ rows -> export_line d x) /\
  NoDup rows.*1.*1.*1.*2 /\ one_block_each (clusters_of rows) /\
  (forall c, length (filter (fun x => x.1.1.1.1 = c) rows) = min k (size (members d c))) /\
  (forall c f row g field v n, (c, g, field, v, n) ∈ rows -> assigned d f = Some c -> inverted_index d !! f = Some row ->
     f ∉ rows.*1.*1.*1.*2 -> (N.of_nat (size (f_doc_ids row)) <= n)%N).
Proof.
  intros d k Hq Hk. cbv zeta. unfold cli_export. destruct k as [|k]; [lia|]. change (S k =? 0) with false. cbv iota.
  destruct (export_clusters_spec d (S k) Hq) as (H1 & H2 & H3 & H4).
  split; [done|]. split; [done|]. split; [apply export_clusters_blocks, Hq|]. split; [done|].
  intros c f row g0 field v n Hin Ha Hrow Hnot. by apply (H4 _ f row Hin).
Qed.
Print Assumptions C79_export_limited.
Example C79_example :
  quiet sample_db /\ map_Forall (fun c row => size (members sample_db c) <= 6) (cluster sample_db) /\
  cli_export sample_db 1 = [(0%Z, 5%N, "lang", VText "en", 4%N); (1%Z, 1%N, "text", VText "a", 3%N)] /\
  (export_clusters sample_db 6).*1.*1 = [(0%Z, 5%N, "lang"); (0%Z, 2%N, "text"); (0%Z, 4%N, "text"); (1%Z, 1%N, "text"); (1%Z, 3%N, "text")].
Proof.
  split; [apply sample_db_quiet|]. split; [by_computation|]. split.
  - change (cli_export sample_db 1) with (export_clusters sample_db 1). by_computation.
  - by_computation.
Qed.
