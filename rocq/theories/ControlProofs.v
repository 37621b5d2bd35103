(** ControlProofs.v: proofs about Controls.v. *)
From Verif Require Import SpecControls HistoryProofs QueryProofs WebProofs SampleDb PropertiesCluster PropertiesQuery PropertiesWeb PropertiesPages PropertiesReports.

(** ** What is sent *)
Definition as_param (l : list string) : option param :=
  match l with [] => None | [v] => Some (One (Text v)) | _ => Some (Several (Text <$> l)) end.
Lemma values_app l1 l2 k : values (l1 ++ l2) k = values l1 k ++ values l2 k.
Proof. unfold values. by rewrite filter_app, fmap_app. Qed.
Lemma as_param_snoc l v : as_param (l ++ [v]) =
  Some (match as_param l with
        | None => One (Text v)
        | Some (One x) => Several [x; Text v]
        | Some (Several l) => Several (l ++ [Text v])
        end).
Proof. destruct l as [|a [|b l]]; [done|done|]. cbn. do 4 f_equal. by rewrite fmap_app. Qed.
Lemma decode_lookup sent k : decode_form sent !! k = as_param (values sent k).
Proof.
  unfold decode_form. induction sent as [|[a v] l IH] using rev_ind; [done|].
  rewrite foldl_app. cbn [foldl]. unfold add_pair at 1. cbn [fst snd]. rewrite values_app.
  destruct (decide (a = k)) as [->|Hne].
  - setoid_rewrite lookup_insert. rewrite IH. replace (values [(k, v)] k) with [v].
    2:{ unfold values. by rewrite filter_cons_True. }
    by rewrite as_param_snoc.
  - setoid_rewrite lookup_insert_ne; [|done]. replace (values [(a, v)] k) with (@nil string).
    2:{ unfold values. by rewrite filter_cons_False. }
    by rewrite app_nil_r.
Qed.
Lemma given_decode sent k : given (decode_form sent) k = Text <$> values sent k.
Proof. unfold given. rewrite decode_lookup. by destruct (values sent k) as [|a [|b l]]. Qed.
Lemma decode_dom sent k : is_Some (decode_form sent !! k) -> k ∈ sent.*1.
Proof.
  rewrite decode_lookup. intros H. destruct (values sent k) as [|v l] eqn:E; [by destruct H|].
  assert (v ∈ values sent k) as Hv by (rewrite E; by left). unfold values in Hv.
  apply elem_of_list_fmap in Hv as ([a b] & _ & [<- Hin]%elem_of_list_filter). apply elem_of_list_fmap. by exists (a, b).
Qed.
Lemma values_same k vs : values ((fun v => (k, v)) <$> vs) k = vs.
Proof. unfold values. induction vs as [|v vs IH]; [done|]. rewrite fmap_cons, filter_cons_True by done. rewrite fmap_cons. cbn [snd]. by rewrite IH. Qed.
Lemma values_other k a vs : a ≠ k -> values ((fun v => (a, v)) <$> vs) k = [].
Proof. intros. unfold values. induction vs as [|v vs IH]; [done|]. rewrite fmap_cons, filter_cons_False by done. done. Qed.
Lemma numbers_shown parse show sent k zs : (forall z, parse (show z) = Some z) ->
  values sent k = show <$> zs -> numbers parse (decode_form sent) k = Some zs.
Proof.
  intros Hp Hv. unfold numbers. rewrite given_decode, Hv. apply mapM_Some. clear Hv.
  induction zs as [|z zs IH]; constructor; [apply Hp|done].
Qed.

(** ** Pages *)
Lemma keyed_feature d f doc : keyed d -> doc ∈ feature_docs d f -> is_Some (doc_key d !! doc).
Proof. intros [_ H]. unfold feature_docs. destruct (inverted_index d !! f) as [row|] eqn:E; [by eapply H|set_solver]. Qed.
Lemma keyed_cluster d c doc : keyed d -> doc ∈ cluster_documents d c -> is_Some (doc_key d !! doc).
Proof. intros Hk H. apply covered_elem in H as (f & _ & Hf). by eapply keyed_feature. Qed.

Lemma cluster_page_fine d rnd workers arrival g w c feature fc n rt :
  quiet d -> keyed d -> rounding rnd -> 0 < workers -> arrival ≡ₚ seq 0 (workers * 2) ->
  (forall x, w = Some x -> w_html x = true) -> c ∈ dom (cluster d) -> (forall x, fc = Some x -> x ∈ dom (cluster d)) ->
  (0 <= n)%Z -> result_kind rt <> "concordance" ->
  exists p, cluster_page_of rnd workers arrival g d w c feature fc n rt = Page p /\
    cp_pinned p = cluster_pinned d c /\ NoDup (listed p) /\ forall f, f ∈ listed p -> f ∈ members d c.
Proof.
  intros Hq Hk Hr Hw Ha Hh Hc Hfc Hn Hkind.
  destruct (C76_cluster_page rnd workers arrival g d w c feature fc n rt Hr Hq Hw Ha (proj1 Hk)) as (p & Hp & _ & Hpin & Hnd & Hl & _); try done.
  { unfold page_documents. intros doc Hd. apply (keyed_cluster d c doc Hk). set_solver. }
  exists p. split_and!; [done|done|done|]. intros f Hf. by apply Hl.
Qed.
Lemma page_exists d rnd workers arrival g w c feature fc n rt p :
  cluster_page_of rnd workers arrival g d w c feature fc n rt = Page p ->
  c ∈ dom (cluster d) /\ forall x, fc = Some x -> x ∈ dom (cluster d).
Proof.
  intros H. split; [by eapply C60_links_of_the_page|]. unfold cluster_page_of in H.
  destruct (neighbours _ _) as [[a b]|]; [|done].
  match type of H with match ?x with _ => _ end = _ => destruct x as [p'|] eqn:E end; [|done]. clear H.
  apply rbind_ok in E as (q0 & _ & E). apply rbind_ok in E as (q & Eq & _). intros x ->.
  unfold docs_or_type_error, cluster_docs in Eq. destruct (cluster d !! x) eqn:Ex; [|done]. apply elem_of_dom. by eexists.
Qed.
Lemma shown_page_facts d c p : quiet d -> keyed d -> shown_page d c p ->
  c ∈ dom (cluster d) /\ next d c = Some (cp_next p) /\ prev d c = Some (cp_prev p) /\ cp_pinned p = cluster_pinned d c /\
  NoDup (listed p) /\ forall f, f ∈ listed p -> f ∈ members d c.
Proof.
  intros Hq Hk (rnd & workers & arrival & g & w & feature & fc & n & rt & Hr & Hw & Ha & Hh & Hn & Hp).
  destruct (page_exists _ _ _ _ _ _ _ _ _ _ _ _ Hp) as [Hc Hfc].
  destruct (proj2 (C60_links_of_the_page _ _ _ _ _ _ _ _ _ _ _) p Hp) as (_ & Hnx & Hpv).
  split; [done|]. split; [done|]. split; [done|].
  assert (exists rt', result_kind rt' <> "concordance" /\ cluster_page_of rnd workers arrival g d w c feature fc n rt' = Page p) as (rt' & Hk' & Hp').
  { destruct (decide (result_kind rt = "concordance")) as [E|E]; [|by exists rt].
    exists (Some "document"). split; [done|]. eapply C77_shows_documents_partial.
    destruct rt as [s|]; [|done]. unfold result_kind in E. case_bool_decide; [done|]. subst s. exact Hp. }
  destruct (cluster_page_fine d rnd workers arrival g w c feature fc n rt') as (p' & Hp2 & H); try done.
  rewrite Hp' in Hp2. injection Hp2 as <-. exact H.
Qed.

Lemma opens_cluster parse d p c : quiet d -> keyed d -> url_number parse p = Some c -> c ∈ dom (cluster d) ->
  opens parse d (Go (ToCluster p)) /\ forall f, opens parse d (Go (ToClusterFeature p f)).
Proof.
  intros Hq Hk Hp Hc. split; [|intros f]; intros rnd workers arrival g w Hr Hw Ha Hh; unfold open_page; rewrite Hp.
  - destruct (cluster_page_fine d rnd workers arrival g w c None None 30 None) as (pg & -> & _); done.
  - destruct (cluster_page_fine d rnd workers arrival g w c (Some f) None 30 None) as (pg & -> & _); done.
Qed.
Lemma opens_filtered parse d c x : quiet d -> keyed d -> c ∈ dom (cluster d) -> x ∈ dom (cluster d) -> opens parse d (GoFiltered c x).
Proof.
  intros Hq Hk Hc Hx rnd workers arrival g w Hr Hw Ha Hh. unfold open_page.
  destruct (cluster_page_fine d rnd workers arrival g w c None (Some x) 30 None) as (pg & -> & _); try done. by intros ? [= <-].
Qed.
Lemma overview_fine d rnd workers arrival g w feature c n : quiet d -> keyed d -> rounding rnd -> 0 < workers ->
  arrival ≡ₚ seq 0 (workers * 2) -> (forall x, w = Some x -> w_html x = true) -> (forall x, c = Some x -> x ∈ dom (cluster d)) -> (0 <= n)%Z ->
  page_fine (AtOverview (overview_of rnd workers arrival g d w feature c 40 n None)).
Proof.
  intros Hq Hk Hr Hw Ha Hh Hc Hn. destruct (decide (dom (cluster d) = ∅)) as [He|He]; [by rewrite C82_no_model|].
  destruct (decide (overview_documents d feature c = ∅)) as [Hd|Hd].
  - destruct (C82_overview_of_model rnd workers arrival g d w feature c 40 n None) as (o & -> & _); done.
  - destruct (C82_overview_of_documents rnd workers arrival g d w feature c 40 n None) as (o & -> & _); try done; [lia|exact (proj1 Hk)|].
    intros doc. unfold overview_documents. destruct feature as [f|]; [by apply keyed_feature|].
    destruct c as [c|]; [by apply keyed_cluster|set_solver].
Qed.
Lemma opens_overview parse d : quiet d -> keyed d -> opens parse d (Go ToIndex) /\ (forall f, opens parse d (Go (ToFeature f))) /\
  forall c, c ∈ dom (cluster d) -> opens parse d (Go (ToIndexOf c)).
Proof.
  intros Hq Hk. split_and!; intros; intros rnd workers arrival g w Hr Hw Ha Hh; unfold open_page; apply overview_fine; try done.
  by intros ? [= <-].
Qed.
Lemma not_opens parse d p c : url_number parse p = Some c -> c ∉ dom (cluster d) -> ~ opens parse d (Go (ToCluster p)).
Proof.
  intros Hp Hc H. specialize (H exact_division 1 [0; 1] rng0 None exact_rounding ltac:(lia) ltac:(reflexivity) ltac:(done)).
  unfold open_page in H. rewrite Hp in H. rewrite (proj1 (C60_links_of_the_page _ _ _ _ _ _ _ _ _ _ _) Hc) in H. exact H.
Qed.
Lemma keyed_same_index d d' : same_index d d' -> keyed d -> keyed d'.
Proof. intros (H1 & H2 & _). unfold keyed. by rewrite H1, H2. Qed.
Lemma quiet_dom d c : quiet d -> c ∈ dom (cluster d) <-> exists f, assigned d f = Some c.
Proof.
  intros [_ (_ & H & _)]. rewrite elem_of_dom, H. split.
  - intros Hne. apply set_choose_L in Hne as [f Hf]. exists f. by apply elem_of_members.
  - intros [f Hf]. apply elem_of_members in Hf. set_solver.
Qed.

Lemma overview_clusters d feature c o : quiet d -> shown_overview d feature c o ->
  NoDup (o_clusters o).*1 /\ (forall x, x ∈ (o_clusters o).*1 -> x ∈ dom (cluster d)) /\
  (feature = None -> forall x, c = Some x -> x ∈ dom (cluster d)).
Proof.
  intros Hq (rnd & workers & arrival & g & w & k & n & kind & Hr & Hw & Ha & Hk & Ho).
  unfold overview_of in Ho. destruct (cluster_ids d) as [|c0 cs]; [done|].
  match type of Ho with match ?x with _ => _ end = _ => destruct x as [o'|] eqn:E end; [|done]. injection Ho as ->.
  apply rbind_ok in E as (query & E1 & E2).
  assert (NoDup (top_cluster_features d k).*1.*1 /\ forall x, x ∈ (top_cluster_features d k).*1.*1 -> x ∈ dom (cluster d)) as [Ht1 Ht2].
  { destruct (C27_top_cluster_features d k) as (H & _). split; [rewrite H; apply NoDup_cluster_ids|]. intros x. by rewrite H, elem_of_cluster_ids. }
  assert (forall A B (l : list (Z * A * list (B * A))), ((fun x : Z * A * list (B * A) => (x.1.1, x.2.*1)) <$> l).*1 = l.*1.*1) as Hf.
  { intros A B l. by rewrite <- !list_fmap_compose. }
  split; [|split].
  - destruct query as [[[q refs] pq]|].
    + case_bool_decide.
      * injection E2 as <-. cbn [o_clusters]. by rewrite Hf.
      * apply rbind_ok in E2 as (rows & Hrows & E2). apply rbind_ok in E2 as (v & _ & E2). injection E2 as <-. cbn [o_clusters]. rewrite Hf.
        destruct (C40_pivot_covers_clusters rnd workers arrival d q None k Hr Hq Hw Ha Hk) as (out & Ho & Hcov & _).
        { intros x. cbn. by rewrite elem_of_elements. }
        rewrite Hrows in Ho. injection Ho as <-. rewrite Hcov. apply NoDup_filter, NoDup_elements.
    + injection E2 as <-. cbn [o_clusters]. by rewrite Hf.
  - intros x. destruct query as [[[q refs] pq]|].
    + case_bool_decide.
      * injection E2 as <-. cbn [o_clusters]. rewrite Hf. apply Ht2.
      * apply rbind_ok in E2 as (rows & Hrows & E2). apply rbind_ok in E2 as (v & _ & E2). injection E2 as <-. cbn [o_clusters]. rewrite Hf.
        destruct (C40_pivot_covers_clusters rnd workers arrival d q None k Hr Hq Hw Ha Hk) as (out & Ho & Hcov & _).
        { intros y. cbn. by rewrite elem_of_elements. }
        rewrite Hrows in Ho. injection Ho as <-. rewrite Hcov. intros [_ Hx]%elem_of_list_filter. cbn [requested] in Hx. by apply elem_of_elements in Hx.
    + injection E2 as <-. cbn [o_clusters]. rewrite Hf. apply Ht2.
  - intros -> x ->. unfold cluster_docs in E1. destruct (cluster d !! x) eqn:Ex; [|done]. apply elem_of_dom. by eexists.
Qed.
Lemma not_opens_overview parse d c : dom (cluster d) <> ∅ -> c ∉ dom (cluster d) -> ~ opens parse d (Go (ToIndexOf c)).
Proof.
  intros Hm Hc H. specialize (H exact_division 1 [0; 1] rng0 None exact_rounding ltac:(lia) ltac:(reflexivity) ltac:(done)).
  unfold open_page, overview_of in H. destruct (cluster_ids d) as [|c0 cs] eqn:Eids.
  { apply Hm. apply set_eq. intros x. rewrite <- elem_of_cluster_ids, Eids. set_solver. }
  unfold cluster_docs in H. destruct (cluster d !! c) eqn:E; [|exact H]. apply Hc, elem_of_dom. by eexists.
Qed.
