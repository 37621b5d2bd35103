(** PropertiesControls.v: C101-C103: the buttons and links of the web pages. Vocabulary:
    Controls.v (the forms and links of the templates), SpecControls.v, SpecWeb.v. *)
From Verif Require Import SpecControls HistoryProofs QueryProofs WebProofs SampleDb PropertiesCluster PropertiesRefine PropertiesQuery PropertiesWeb PropertiesPages PropertiesReports ControlProofs.
From Coq Require Import DecimalString DecimalZ.

(** ** Forms *)
Definition input_name (i : input) : string := match i with Hidden n _ | Choose n _ | Box n _ => n end.
Lemma sends_names f sent : sends f sent -> forall k, k ∈ sent.*1 -> k ∈ input_name <$> f_inputs f.
Proof.
  intros (parts & HF & ->) k. induction HF as [|i part is' parts Hi HF IH]; cbn; [by intros ?%elem_of_nil|].
  rewrite fmap_app, elem_of_app, elem_of_cons. intros [H|H]; [left|right; by apply IH].
  destruct Hi as [n v|n os ch Hs|n i t]; cbn in *.
  - by apply elem_of_list_singleton in H.
  - apply elem_of_list_fmap in H as ([a b] & -> & H). by apply elem_of_list_fmap in H as (v & [= -> ->] & _).
  - by apply elem_of_list_singleton in H.
Qed.
Lemma form_accepted parse idx f sent : parse idx = Some 0%Z -> sends f sent ->
  (match takes (f_route f) with None => True | Some names => Forall (fun n => n ∈ names) (input_name <$> f_inputs f) end) ->
  accepted parse (Request true idx (f_route f) (decode_form sent)).
Proof.
  intros Hi Hs Hn. split; [done|]. split; [done|]. cbn. intros names Ht key Hk. rewrite Ht in Hn.
  rewrite Forall_forall in Hn. apply Hn. eapply sends_names; [done|]. by apply decode_dom.
Qed.
Ltac form_cases H :=
  repeat match type of H with
  | _ ∈ [] => by apply elem_of_nil in H
  | _ ∈ _ :: _ => apply elem_of_cons in H as [H|H]
  | _ ∈ _ ++ _ => apply elem_of_app in H as [H|H]
  | _ ∈ (if _ then _ else _) => case_match
  end.

Ltac sent_inv H := destruct H as (?parts & HF & ->); cbn [f_inputs] in HF; unfold pin_inputs in HF;
  repeat match goal with H : Forall2 fills (_ :: _) _ |- _ => inversion H; clear H; subst | H : Forall2 fills [] _ |- _ => inversion H; clear H; subst end;
  repeat match goal with H : fills _ _ |- _ => inversion H; clear H; subst end.
Lemma all_among (names l : list string) : bool_decide (Forall (fun n => n ∈ names) l) = true -> Forall (fun n => n ∈ names) l.
Proof. intros H. by apply bool_decide_eq_true in H. Qed.
Ltac takes_ok := cbn [f_route f_inputs takes]; first [exact I|apply all_among; reflexivity].
Lemma sublist_fmap {A B} (h : A -> B) (l : list A) (k : list B) : k `sublist_of` (h <$> l) -> exists l', k = h <$> l' /\ l' `sublist_of` l.
Proof.
  revert k. induction l as [|a l IH]; intros k H; cbn in H.
  - apply sublist_nil_r in H as ->. by exists [].
  - apply sublist_cons_r in H as [H|(k' & -> & H)].
    + destruct (IH _ H) as (l' & -> & Hs). exists l'. split; [done|]. by apply sublist_cons.
    + destruct (IH _ H) as (l' & -> & Hs). exists (a :: l'). split; [done|]. by apply sublist_skip.
Qed.
Lemma fmap_injective {A B} (h : A -> B) (l k : list A) : (forall a b, h a = h b -> a = b) -> h <$> l = h <$> k -> l = k.
Proof. intros Hh. revert k. induction l as [|a l IH]; intros [|b k] E; try done. cbn in E. injection E as E1 E2. f_equal; [by apply Hh|by apply IH]. Qed.
Lemma elem_of_sublist {A} (l k : list A) x : l `sublist_of` k -> x ∈ l -> x ∈ k.
Proof. intros H. induction H; [done|rewrite !elem_of_cons; naive_solver|rewrite elem_of_cons; naive_solver]. Qed.
Lemma chosen_features parse show pg sent : (forall z, parse (show z) = Some z) ->
  values sent "feature_id" `sublist_of` feature_ids show pg ->
  exists sel, sel `sublist_of` listed pg /\ values sent "feature_id" = (fun f => show (Z.of_N f)) <$> sel /\
    numbers parse (decode_form sent) "feature_id" = Some (Z.of_N <$> sel) /\ Z.to_N <$> (Z.of_N <$> sel) = sel.
Proof.
  intros Hp H. unfold feature_ids in H. apply sublist_fmap in H as (sel & Hv & Hs). exists sel. split; [done|]. split; [done|]. split.
  - apply (numbers_shown parse show); [done|]. rewrite Hv, <- list_fmap_compose. done.
  - rewrite <- list_fmap_compose. clear. induction sel as [|x l IH]; [done|]. cbn. rewrite IH. f_equal. lia.
Qed.

(** ** C101 *)
(** No form is turned away, whatever is chosen and typed: the handler of each button takes
    every parameter the form sends. *)
Theorem C101_forms_accepted : forall parse show idx p g1 g2 d f sent,
  parse idx = Some 0%Z ->
  (exists c pg, f ∈ cluster_forms show c pg) \/ (exists o, f ∈ overview_forms show o) \/
  (exists fields n, f ∈ details_forms show fields n) ->
  sends f sent -> forall code, (press parse idx p g1 g2 f sent d).2 <> HttpError code.
Proof.
  intros parse show idx p g1 g2 d f sent Hi Hf Hs code.
  assert (match takes (f_route f) with None => True | Some names => Forall (fun n => n ∈ names) (input_name <$> f_inputs f) end) as Ht.
  { destruct Hf as [(c & pg & Hf)|[(o & Hf)|(fields & n & Hf)]].
    - unfold cluster_forms in Hf. destruct (cp_pinned pg) eqn:E; cbn [app] in Hf; form_cases Hf; subst f; takes_ok.
    - unfold overview_forms in Hf. form_cases Hf; subst f; takes_ok.
    - unfold details_forms in Hf. form_cases Hf; subst f; takes_ok. }
  destruct (form_accepted parse idx f sent Hi Hs Ht) as (_ & _ & H). cbn in H.
  unfold press, serve. cbn [q_post q_index q_route q_params negb]. rewrite Hi. cbn [Z.eqb negb].
  destruct (ensure_list _ _); [|done]. rewrite (proj2 (takes_all_iff _ _) H). cbn [negb].
  destruct (handle _ _ _ _ _ _) as [c r]. by destruct r.
Qed.
Print Assumptions C101_forms_accepted.

(** The buttons a page offers. *)
Theorem C101_buttons : forall show d c pg, quiet d -> keyed d -> shown_page d c pg ->
  f_label <$> cluster_forms show c pg =
    if cluster_pinned d c then ["Unpin Cluster"] else
      ["Delete Selected Features"; "Create From Selected Features"; "Delete and go to next cluster"]
      ++ (if bool_decide (listed pg = []) then [] else ["Create New Cluster From All Visible Features"])
      ++ ["Pin Cluster"; "Split Cluster"].
Proof.
  intros show d c pg Hq Hk Hs. destruct (shown_page_facts d c pg Hq Hk Hs) as (_ & _ & _ & <- & _).
  unfold cluster_forms. destruct (cp_pinned pg); [done|]. cbn [app fmap list_fmap f_label].
  do 3 f_equal. unfold listed. destruct (cp_features pg) as [|[[f F] v] l]; [done|]. done.
Qed.
Print Assumptions C101_buttons.

(** Pin and Unpin: the pin of this cluster is turned over, nothing else changes, and the
    page of the cluster opens again. *)
Theorem C101_pin_button : forall parse show idx p g1 g2 d c pg f sent,
  python_ints parse show -> parse idx = Some 0%Z -> quiet d -> keyed d -> p 0 = None ->
  shown_page d c pg -> f ∈ cluster_forms show c pg ->
  f_label f = "Pin Cluster" \/ f_label f = "Unpin Cluster" -> sends f sent ->
  exists d' t, press parse idx p g1 g2 f sent d = (d', Redirect t) /\ model_changed d d' /\
    (forall x, x ∈ dom (cluster d) -> cluster_pinned d' x = if decide (x = c) then negb (cluster_pinned d c) else cluster_pinned d x) /\
    (forall h, assigned d' h = assigned d h) /\ (forall h, feature_pinned d' h = feature_pinned d h) /\
    leads_to_cluster parse t c /\ opens parse d' (Go t).
Proof.
  intros parse show idx p g1 g2 d c pg f sent (Hp & Hp0 & Hp1 & _) Hi Hq Hk Hw Hs Hf Hl Hsend.
  destruct (shown_page_facts d c pg Hq Hk Hs) as (Hc & _ & _ & Hpin & _).
  assert (exists l, f = Form l RPinClusters (pin_inputs show c pg)) as (l & ->).
  { exists (f_label f). unfold cluster_forms in Hf. destruct (cp_pinned pg) eqn:E; cbn [app] in Hf; form_cases Hf; subst f; cbn in Hl; try done; by destruct Hl. }
  clear Hf Hl. assert (sent = [("return_to", "cluster"); ("cluster_id", show c); ("pinned", if cp_pinned pg then "0" else "1")]) as Es.
  { sent_inv Hsend. done. }
  destruct (C74_pin_clusters parse p g1 g2 (Request true idx RPinClusters (decode_form sent)) d c [] (negb (cp_pinned pg)))
    as (d' & t & Hserve & [Hq' Hsi] & H1 & H2 & H3 & Ht).
  - apply (form_accepted parse idx _ sent Hi Hsend). takes_ok.
  - done.
  - by apply quiet_usable.
  - done.
  - cbn. apply (numbers_shown parse show sent "cluster_id" [c] Hp). by rewrite Es.
  - cbn. unfold flag. rewrite decode_lookup, Es. unfold values. cbn. destruct (cp_pinned pg); cbn; [exists 0%Z|exists 1%Z]; done.
  - apply proj1 in Ht. cbn in Ht. rewrite decode_lookup, Es in Ht. specialize (Ht (or_intror eq_refl)). subst t.
    exists d', (ToCluster (One (Int c))). split; [exact Hserve|]. split; [by split|]. split.
    { intros x Hx. rewrite H3.
      * rewrite <- Hpin. destruct (decide (x ∈ [c])) as [E|E]; destruct (decide (x = c)) as [E'|E']; try done.
        -- by apply elem_of_list_singleton in E.
        -- subst. destruct E. by left.
      * destruct Hq as [_ (_ & H & _)]. apply H. by apply elem_of_dom. }
    split; [exact H1|]. split; [exact H2|]. split; [by eexists|].
    eapply (opens_cluster parse d' _ c); [done|by eapply keyed_same_index|done|].
    apply (quiet_dom d' c Hq'). apply (quiet_dom d c Hq) in Hc as [h Hh]. exists h. by rewrite H1.
Qed.
Print Assumptions C101_pin_button.

(** Delete Selected Features: exactly the selected ones, which are features of this cluster,
    leave it. The browser is sent back to the page of the cluster, which opens if the
    cluster still has a feature, and is an error page (404) otherwise. *)
Theorem C101_delete_features_button_partial : forall parse show idx p g1 g2 d c pg f sent,
  python_ints parse show -> parse idx = Some 0%Z -> quiet d -> keyed d -> p 0 = None ->
  shown_page d c pg -> f ∈ cluster_forms show c pg -> f_label f = "Delete Selected Features" -> sends f sent ->
  exists sel d' t, values sent "feature_id" = (fun h => show (Z.of_N h)) <$> sel /\
    (forall h, h ∈ sel -> assigned d h = Some c) /\
    press parse idx p g1 g2 f sent d = (d', Redirect t) /\ model_changed d d' /\
    (forall h, assigned d' h = if decide (h ∈ sel) then None else assigned d h) /\
    feature_pins_kept d d' /\ cluster_pins_kept d d' /\
    leads_to_cluster parse t c /\
    (opens parse d' (Go t) <-> exists h, assigned d h = Some c /\ h ∉ sel).
Proof.
  intros parse show idx p g1 g2 d c pg f sent (Hp & Hp0 & Hp1 & _) Hi Hq Hk Hw Hs Hf Hl Hsend.
  destruct (shown_page_facts d c pg Hq Hk Hs) as (Hc & _ & _ & Hpin & _ & Hm).
  assert (exists l, f = Form l RRemove [Hidden "cluster_id" (show c); Choose "feature_id" (feature_ids show pg)]) as (l & ->).
  { exists (f_label f). unfold cluster_forms in Hf. destruct (cp_pinned pg) eqn:E; cbn [app] in Hf; form_cases Hf; subst f; cbn in Hl; done. }
  clear Hf Hl. assert (exists ch, ch `sublist_of` feature_ids show pg /\ sent = ("cluster_id", show c) :: ((fun v => ("feature_id", v)) <$> ch)) as (ch & Hch & Es).
  { sent_inv Hsend. exists chosen. split; [done|]. cbn. by rewrite app_nil_r. }
  assert (values sent "feature_id" = ch) as Hv.
  { rewrite Es. change (?a :: ?b) with ([a] ++ b). rewrite values_app, values_same. done. }
  assert (values sent "cluster_id" = [show c]) as Hv2.
  { rewrite Es. change (?a :: ?b) with ([a] ++ b). rewrite values_app, values_other by done. done. }
  destruct (chosen_features parse show pg sent Hp) as (sel & Hsel & Hsv & Hn & Hto); [by rewrite Hv|].
  destruct (C74_remove_features parse p g1 g2 (Request true idx RRemove (decode_form sent)) d (Z.of_N <$> sel))
    as (d' & t & Hserve & [Hq' Hsi] & H1 & H2 & H3 & Ht); [|done|by apply quiet_usable|done|done|].
  { apply (form_accepted parse idx _ sent Hi Hsend). takes_ok. }
  rewrite Hto in H1. apply proj2 in Ht. cbn in Ht. rewrite decode_lookup, Hv2 in Ht. specialize (Ht _ eq_refl). subst t.
  exists sel, d', (ToCluster (One (Text (show c)))). split; [done|]. split.
  { intros h Hh. apply elem_of_members, Hm. by eapply elem_of_sublist. }
  split; [exact Hserve|]. split; [by split|]. split; [exact H1|]. split; [exact H2|]. split; [exact H3|].
  assert (url_number parse (One (Text (show c))) = Some c) as Hu by apply Hp.
  split; [by eexists|].
  assert ((exists h, assigned d h = Some c /\ h ∉ sel) <-> c ∈ dom (cluster d')) as ->.
  { rewrite (quiet_dom d' c Hq'). split; intros [h Hh]; exists h; rewrite H1 in *; destruct (decide (h ∈ sel)); naive_solver. }
  split.
  - intros Ho. destruct (decide (c ∈ dom (cluster d'))) as [|Hn']; [done|]. by destruct (not_opens parse d' _ c Hu Hn').
  - intros Hin. eapply (opens_cluster parse d' _ c); [done|by eapply keyed_same_index|done|done].
Qed.
Print Assumptions C101_delete_features_button_partial.

(** Create From Selected Features, and Create New Cluster From All Visible Features: a new
    cluster with exactly those features, whose page is opened - unless nothing was selected:
    then there is no such cluster, and its page is an error page. *)
Theorem C101_create_buttons_partial : forall parse show idx p g1 g2 d c pg f sent,
  python_ints parse show -> parse idx = Some 0%Z -> quiet d -> keyed d -> p 0 = None ->
  shown_page d c pg -> f ∈ cluster_forms show c pg ->
  f_label f = "Create From Selected Features" \/ f_label f = "Create New Cluster From All Visible Features" -> sends f sent ->
  exists sel d' t id, values sent "feature_id" = (fun h => show (Z.of_N h)) <$> sel /\
    (forall h, h ∈ sel -> assigned d h = Some c) /\
    (f_label f = "Create New Cluster From All Visible Features" -> sel = listed pg /\ sel <> []) /\
    press parse idx p g1 g2 f sent d = (d', Redirect t) /\ model_changed d d' /\
    (forall x, x ∈ dom (cluster d) -> (x < id)%Z) /\
    (forall h, assigned d' h = if decide (h ∈ sel) then Some id else assigned d h) /\
    (forall h, feature_pinned d' h = feature_pinned d h) /\
    leads_to_cluster parse t id /\
    (opens parse d' (Go t) <-> sel <> []).
Proof.
  intros parse show idx p g1 g2 d c pg f sent (Hp & Hp0 & Hp1 & _) Hi Hq Hk Hw Hs Hf Hl Hsend.
  destruct (shown_page_facts d c pg Hq Hk Hs) as (Hc & _ & _ & Hpin & _ & Hm).
  assert (values sent "feature_id" `sublist_of` feature_ids show pg /\ f_route f = RCreate /\
          (f_label f = "Create New Cluster From All Visible Features" -> values sent "feature_id" = feature_ids show pg /\ cp_features pg <> [])) as (Hsub & Hr & Hall).
  { unfold cluster_forms in Hf. destruct (cp_pinned pg) eqn:E; cbn [app] in Hf; form_cases Hf; subst f; cbn in Hl; try done; try (by destruct Hl).
    - sent_inv Hsend. match goal with |- values ?s _ `sublist_of` _ /\ _ => assert (values s "feature_id" = chosen) as -> end.
      { cbn [concat]. rewrite !values_app, values_same. cbn. by rewrite app_nil_r. }
      split; [done|]. split; [done|]. done.
    - match goal with H : bool_decide _ = false |- _ => apply bool_decide_eq_false in H end. destruct Hsend as (parts & HF & ->). cbn in HF.
      assert (values (concat parts) "feature_id" = feature_ids show pg) as Hv.
      { clear Hl. revert parts HF. induction (feature_ids show pg) as [|x l IH]; intros parts HF; cbn in HF; inversion HF as [|? ? ? ? H1 H2]; subst; [done|].
        inversion H1; subst. cbn [concat]. rewrite values_app, (IH _ H2). done. }
      rewrite Hv. done. }
  destruct (chosen_features parse show pg sent Hp Hsub) as (sel & Hsel & Hsv & Hn & Hto).
  destruct (C74_create_cluster parse p g1 g2 (Request true idx RCreate (decode_form sent)) d (Z.of_N <$> sel))
    as (d' & id & Hserve & [Hq' Hsi] & H1 & H2 & H3); [|done|by apply quiet_usable|done|done| |].
  { split; [done|]. split; [done|]. done. }
  { rewrite Hto. intros h Hh. destruct Hq as [[Hrf _] _].
    assert (h ∈ members d c) as Hmc by (apply Hm; by eapply elem_of_sublist). apply elem_of_members in Hmc. unfold assigned in Hmc.
    destruct (feature_cluster d !! h) as [row|] eqn:E; [|done]. destruct (Hrf _ _ E) as [(ii & Hii & _) _]. by rewrite Hii. }
  rewrite Hto in H2. exists sel, d', (ToCluster (One (Int id))), id. split; [done|]. split.
  { intros h Hh. apply elem_of_members, Hm. by eapply elem_of_sublist. }
  split.
  { intros Hlab. destruct (Hall Hlab) as [Ha Hne]. assert (sel = listed pg) as ->.
    - rewrite Hsv in Ha. unfold feature_ids in Ha. apply fmap_injective in Ha; [done|].
      intros a b Hab. assert (Some (Z.of_N a) = Some (Z.of_N b)) as E by (rewrite <- !Hp; by rewrite Hab). injection E. lia.
    - split; [done|]. unfold listed. by destruct (cp_features pg). }
  split. { unfold press. rewrite Hr. exact Hserve. }
  split; [by split|]. split; [intros x Hx; apply H1; by apply elem_of_cluster_ids|]. split; [exact H2|]. split; [exact H3|].
  split; [by eexists|].
  assert (sel <> [] <-> id ∈ dom (cluster d')) as ->.
  { rewrite (quiet_dom d' id Hq'). split.
    - intros Hne. destruct sel as [|h l]; [done|]. exists h. rewrite H2, decide_True by (by left). done.
    - intros [h Hh] ->. rewrite H2, decide_False in Hh by (by apply not_elem_of_nil).
      assert (id ∈ dom (cluster d)) as Hid by (apply (quiet_dom d id Hq); eauto). apply elem_of_cluster_ids, H1 in Hid. lia. }
  split.
  - intros Ho. destruct (decide (id ∈ dom (cluster d'))) as [|Hn']; [done|]. by destruct (not_opens parse d' (One (Int id)) id eq_refl Hn').
  - intros Hin. eapply (opens_cluster parse d' _ id); [done|by eapply keyed_same_index|done|done].
Qed.
Print Assumptions C101_create_buttons_partial.

(** Delete and go to next cluster: the features of this cluster, and no others, leave the
    model; the page of the next cluster opens - unless there is no other cluster: then the
    "next" cluster is the deleted one, and its page is an error page. *)
Theorem C101_delete_button_partial : forall parse show idx p g1 g2 d c pg f sent,
  python_ints parse show -> parse idx = Some 0%Z -> quiet d -> keyed d -> p 0 = None ->
  shown_page d c pg -> f ∈ cluster_forms show c pg -> f_label f = "Delete and go to next cluster" -> sends f sent ->
  exists d' t following, next d c = Some following /\
    press parse idx p g1 g2 f sent d = (d', Redirect t) /\ model_changed d d' /\
    (forall h, assigned d' h = if decide (assigned d h = Some c) then None else assigned d h) /\
    feature_pins_kept d d' /\ cluster_pins_kept d d' /\
    leads_to_cluster parse t following /\
    (opens parse d' (Go t) <-> dom (cluster d) <> {[c]}).
Proof.
  intros parse show idx p g1 g2 d c pg f sent (Hp & Hp0 & Hp1 & Hpe) Hi Hq Hk Hw Hs Hf Hl Hsend.
  destruct (shown_page_facts d c pg Hq Hk Hs) as (Hc & Hnext & _ & Hpin & _ & Hm).
  assert (exists l, f = Form l RDelete [Hidden "return_cluster_id" (show (cp_next pg)); Hidden "cluster_id" (show c)]) as (l & ->).
  { exists (f_label f). unfold cluster_forms in Hf. destruct (cp_pinned pg) eqn:E; cbn [app] in Hf; form_cases Hf; subst f; cbn in Hl; done. }
  clear Hf Hl. assert (sent = [("return_cluster_id", show (cp_next pg)); ("cluster_id", show c)]) as Es by (sent_inv Hsend; done).
  destruct (C74_delete_clusters parse p g1 g2 (Request true idx RDelete (decode_form sent)) d [c])
    as (d' & t & Hserve & [Hq' Hsi] & H1 & H2 & H3 & _ & Ht); [done|done|by apply quiet_usable|done| |].
  { apply (numbers_shown parse show sent "cluster_id" [c] Hp). by rewrite Es. }
  cbn in Ht. rewrite decode_lookup in Ht. specialize (Ht (show (cp_next pg))). rewrite Es in Ht. specialize (Ht eq_refl).
  rewrite bool_decide_eq_false_2 in Ht by (intros E; specialize (Hp (cp_next pg)); rewrite E in Hp; congruence). subst t.
  assert (forall h, assigned d' h = if decide (assigned d h = Some c) then None else assigned d h) as H1'.
  { intros h. rewrite H1. destruct (assigned d h) as [x|]; [|by case_decide].
    destruct (decide (x ∈ [c])) as [E|E]; destruct (decide (Some x = Some c)) as [E'|E']; try done.
    - apply elem_of_list_singleton in E. congruence.
    - injection E' as ->. destruct E. by left. }
  exists d', (ToCluster (One (Text (show (cp_next pg))))), (cp_next pg). split; [done|]. split; [exact Hserve|].
  split; [by split|]. split; [exact H1'|]. split; [exact H2|]. split; [exact H3|].
  assert (url_number parse (One (Text (show (cp_next pg)))) = Some (cp_next pg)) as Hu by apply Hp.
  split; [by eexists|].
  assert (cp_next pg ∈ dom (cluster d)) as Hnd.
  { apply C60_next_and_prev_inverse in Hnext. unfold prev, links in Hnext. destruct (neighbours _ _) as [[a b]|] eqn:E; [|done].
    apply elem_of_cluster_ids. destruct (decide (cp_next pg ∈ cluster_ids d)) as [|Hn]; [done|]. apply position_of_None in Hn.
    unfold neighbours in E. by rewrite Hn in E. }
  assert (dom (cluster d) <> {[c]} <-> cp_next pg ≠ c) as ->.
  { split.
    - intros Hne E. apply Hne. destruct (C60_visits_every_cluster d c Hc) as [_ Hv].
      assert (forall k, follow (next d) k c = Some c) as Hfix by (induction k as [|k IH]; [done|]; cbn; by rewrite Hnext, E).
      apply leibniz_equiv. intros x. rewrite elem_of_singleton. rewrite <- elem_of_elements, <- Hv.
      rewrite elem_of_list_omap. split; [intros (k & _ & Hx); rewrite Hfix in Hx; congruence|]. intros ->. exists 0. split; [|done].
      apply elem_of_seq. assert (size (dom (cluster d)) ≠ 0); [|lia]. intros E0%size_empty_inv. set_solver.
    - intros Hne E. rewrite E in Hnd. by apply elem_of_singleton in Hnd. }
  assert (cp_next pg ≠ c <-> cp_next pg ∈ dom (cluster d')) as ->.
  { rewrite (quiet_dom d' _ Hq'). split.
    - intros Hne. apply (quiet_dom d _ Hq) in Hnd as [h Hh]. exists h. rewrite H1', decide_False; [done|]. congruence.
    - intros [h Hh] E. rewrite H1' in Hh. case_decide; congruence. }
  split.
  - intros Ho. destruct (decide (cp_next pg ∈ dom (cluster d'))) as [|Hn']; [done|]. by destruct (not_opens parse d' _ _ Hu Hn').
  - intros Hin. eapply (opens_cluster parse d' _ _); [done|by eapply keyed_same_index|done|done].
Qed.
Print Assumptions C101_delete_button_partial.

(** Split Cluster: whatever is typed in and whatever the answer, the features of the other
    clusters, pinned features and all pins stay as they are; the features of this cluster
    stay in it or go to new clusters. When the browser is sent on, it is to the page of this
    cluster, which is an error page if no feature has been left in it. *)
Theorem C101_split_button_partial : forall parse show idx p g1 g2 d c pg f sent d' a,
  python_ints parse show -> parse idx = Some 0%Z -> quiet d -> keyed d ->
  shown_page d c pg -> f ∈ cluster_forms show c pg -> f_label f = "Split Cluster" -> sends f sent ->
  press parse idx p g1 g2 f sent d = (d', a) ->
  quiet d' /\ same_index d d' /\
  (forall h, assigned d h <> Some c -> assigned d' h = assigned d h) /\
  (forall h, assigned d h = Some c -> exists x, assigned d' h = Some x /\ (x = c \/ x ∉ dom (cluster d))) /\
  (forall h, feature_pinned d' h = feature_pinned d h) /\ cluster_pins_kept d d' /\
  (forall h, feature_pinned d h = true -> assigned d' h = assigned d h) /\
  (forall t, a = Redirect t -> leads_to_cluster parse t c /\ (opens parse d' (Go t) <-> exists h, assigned d' h = Some c)).
Proof.
  intros parse show idx p g1 g2 d c pg f sent d' a (Hp & Hp0 & Hp1 & Hpe) Hi Hq Hk Hs Hf Hl Hsend Hpress.
  destruct (shown_page_facts d c pg Hq Hk Hs) as (Hc & _ & _ & Hpin & _ & Hm).
  assert (exists l, f = Form l RRefine [Hidden "cluster_id" (show c); Hidden "return_to" "cluster"; Box "target_clusters" "2";
         Box "iterations" "10"; Box "minimum_cluster_features" "1"]) as (l & ->).
  { exists (f_label f). unfold cluster_forms in Hf. destruct (cp_pinned pg) eqn:E; cbn [app] in Hf; form_cases Hf; subst f; cbn in Hl; done. }
  clear Hf Hl.
  assert (values sent "cluster_id" = [show c] /\ values sent "return_to" = ["cluster"]) as [Hv Hv2] by (sent_inv Hsend; done).
  assert (numbers parse (decode_form sent) "cluster_id" = Some [c]) as Hn by (by apply (numbers_shown parse show)).
  destruct (C74_refine parse p g1 g2 (Request true idx RRefine (decode_form sent)) d d' a (or_introl eq_refl) (quiet_usable _ Hq) Hpress)
    as (Hch & H1 & H2 & H3 & H4 & _ & H5 & Ht).
  assert (quiet d' /\ same_index d d') as [Hq' Hsi] by (destruct Hch as [->|[? ?]]; [split; [done|]|done]; by apply same_index_refl).
  assert (forall x, x ≠ c -> x ∈ dom (cluster d) -> members d' x = members d x) as Hother.
  { intros x Hne Hx. apply (H5 [c] x); [done|exact Hn|done| |by apply elem_of_cluster_ids]. by intros ?%elem_of_list_singleton. }
  split; [done|]. split; [done|]. split.
  { intros h Hh. destruct (assigned d h) as [x|] eqn:E.
    - apply elem_of_members. rewrite Hother; [by apply elem_of_members|congruence|]. apply (quiet_dom d x Hq). eauto.
    - destruct (assigned d' h) as [x|] eqn:E'; [|done]. destruct (proj1 (H1 h)) as [y Hy]; [by rewrite E'|]. congruence. }
  split.
  { intros h Hh. destruct (proj2 (H1 h)) as [x Hx]; [by rewrite Hh|]. exists x. split; [done|].
    destruct (decide (x = c)) as [|Hne]; [by left|right]. intros Hx'. specialize (Hother x Hne Hx').
    apply elem_of_members in Hx. rewrite Hother in Hx. apply elem_of_members in Hx. congruence. }
  split; [exact H2|]. split; [exact H3|]. split; [exact H4|].
  intros t ->. destruct (Ht t eq_refl) as (c0 & cs & Hn' & Hto). cbn [q_params] in Hn', Hto. rewrite Hn in Hn'. injection Hn' as <- <-.
  apply proj1 in Hto. rewrite decode_lookup, Hv2 in Hto. specialize (Hto (or_intror eq_refl)). subst t. split; [by eexists|].
  rewrite <- (quiet_dom d' c Hq'). split.
  - intros Ho. destruct (decide (c ∈ dom (cluster d'))) as [|Hn']; [done|]. by destruct (not_opens parse d' (One (Int c)) c eq_refl Hn').
  - intros Hin. eapply (opens_cluster parse d' _ c); [done|by eapply keyed_same_index|done|done].
Qed.
Print Assumptions C101_split_button_partial.

(** ** A sample page *)
Definition dec_show (z : Z) : string := NilZero.string_of_int (Z.to_int z).
Definition dec_parse (s : string) : option Z := Z.of_int <$> NilZero.int_of_string s.
Lemma dec_ints : python_ints dec_parse dec_show.
Proof.
  split; [|done]. intros z. unfold dec_parse, dec_show. rewrite NilZero.isi.
  - cbn. by rewrite DecimalZ.of_to.
  - destruct z as [|p|p]; cbn; try done. intros [= E]. by apply (DecimalPos.Unsigned.to_uint_nonnil p).
  - destruct z as [|p|p]; cbn; try done. intros [= E]. by apply (DecimalPos.Unsigned.to_uint_nonnil p).
Qed.
Lemma page_keyed : keyed page_db.
Proof.
  split; [apply page_keys_unique|].
  assert (map_Forall (fun _ row => set_Forall (fun doc => is_Some (doc_key page_db !! doc)) (f_doc_ids row)) (inverted_index page_db)) as H by by_computation.
  intros f row doc Hf Hd. exact (H f row Hf doc Hd).
Qed.
(** The page of cluster 1 of the sample index, without documents. *)
Definition page1 : cluster_page := ClusterPage [(1%N, "text", VText "a"); (3%N, "text", VText "c")] 5 0 0 false NoResults.
Lemma page1_shown : shown_page page_db 1 page1.
Proof.
  exists exact_division, 1, [0; 1], rng0, None, None, None, 30%Z, None. split; [apply exact_rounding|]. split; [lia|].
  split; [reflexivity|]. split; [done|]. split; [lia|]. vm_compute. reflexivity.
Qed.

(** ** C101, refuted as stated: that a button leaves the user on a page that opens. *)
Definition C101_claim (button : string) : Prop := forall parse show idx p g1 g2 d c pg f sent,
  python_ints parse show -> parse idx = Some 0%Z -> quiet d -> keyed d -> (forall i, p i = None) ->
  shown_page d c pg -> f ∈ cluster_forms show c pg -> f_label f = button -> sends f sent ->
  exists d' t, press parse idx p g1 g2 f sent d = (d', Redirect t) /\ opens parse d' (Go t).

Lemma C101_pin_claim : C101_claim "Pin Cluster" /\ C101_claim "Unpin Cluster".
Proof.
  split; intros parse show idx p g1 g2 d c pg f sent H1 H2 H3 H4 H5 H6 H7 H8 H9;
    (destruct (C101_pin_button parse show idx p g1 g2 d c pg f sent) as (d' & t & Hp & _ & _ & _ & _ & _ & Ho);
     [done|done|done|done|apply H5|done|done|rewrite H8; by auto|done|]; by exists d', t).
Qed.

(** All features selected and deleted. *)
Theorem C101_delete_all_features_refuted : ~ C101_claim "Delete Selected Features".
Proof.
  intros H. set (f := Form "Delete Selected Features" RRemove [Hidden "cluster_id" "1"; Choose "feature_id" ["1"; "3"]]).
  assert (f ∈ cluster_forms dec_show 1 page1) as Hf by (left; reflexivity).
  assert (sends f [("cluster_id", "1"); ("feature_id", "1"); ("feature_id", "3")]) as Hs.
  { exists [[("cluster_id", "1")]; [("feature_id", "1"); ("feature_id", "3")]]. split; [|done].
    constructor; [constructor|]. constructor; [|constructor]. by apply (fills_choose "feature_id" ["1"; "3"] ["1"; "3"]). }
  destruct (H dec_parse dec_show "0" pool_ok rng0 rng0 page_db 1%Z page1 f _ dec_ints eq_refl page_db_quiet page_keyed (fun _ => eq_refl) page1_shown Hf eq_refl Hs)
    as (d' & t & Hp & Ho).
  destruct (C101_delete_features_button_partial dec_parse dec_show "0" pool_ok rng0 rng0 page_db 1%Z page1 f _ dec_ints eq_refl page_db_quiet page_keyed eq_refl page1_shown Hf eq_refl Hs)
    as (sel & d2 & t2 & Hv & _ & Hp2 & _ & _ & _ & _ & _ & Hiff).
  assert (d2 = d' /\ t2 = t) as [E1 E2] by (rewrite Hp in Hp2; split; congruence). rewrite E1, E2 in Hiff. destruct (proj1 Hiff Ho) as (h & Hh & Hn).
  assert (sel = [1; 3]%N) as ->.
  { apply (fmap_injective (fun h => dec_show (Z.of_N h))).
    - intros a b E. assert (Some (Z.of_N a) = Some (Z.of_N b)) as E3 by (rewrite <- !(proj1 dec_ints); by rewrite E). injection E3. lia.
    - rewrite <- Hv. reflexivity. }
  apply elem_of_members in Hh. assert (members page_db 1 = {[1; 3]}%N) as Em by by_computation. rewrite Em in Hh. clear -Hh Hn. set_solver.
Qed.
Print Assumptions C101_delete_all_features_refuted.

(** Nothing selected for a new cluster. *)
Theorem C101_create_from_nothing_refuted : ~ C101_claim "Create From Selected Features".
Proof.
  intros H. set (f := Form "Create From Selected Features" RCreate [Hidden "cluster_id" "1"; Choose "feature_id" ["1"; "3"]]).
  assert (f ∈ cluster_forms dec_show 1 page1) as Hf by (right; left; reflexivity).
  assert (sends f [("cluster_id", "1")]) as Hs.
  { exists [[("cluster_id", "1")]; []]. split; [|done].
    constructor; [constructor|]. constructor; [|constructor]. apply (fills_choose "feature_id" ["1"; "3"] []). apply sublist_nil_l. }
  destruct (H dec_parse dec_show "0" pool_ok rng0 rng0 page_db 1%Z page1 f _ dec_ints eq_refl page_db_quiet page_keyed (fun _ => eq_refl) page1_shown Hf eq_refl Hs)
    as (d' & t & Hp & Ho).
  destruct (C101_create_buttons_partial dec_parse dec_show "0" pool_ok rng0 rng0 page_db 1%Z page1 f _ dec_ints eq_refl page_db_quiet page_keyed eq_refl page1_shown Hf (or_introl eq_refl) Hs)
    as (sel & d2 & t2 & id & Hv & _ & _ & Hp2 & _ & _ & _ & _ & _ & Hiff).
  assert (d2 = d' /\ t2 = t) as [E1 E2] by (rewrite Hp in Hp2; split; congruence). rewrite E1, E2 in Hiff. apply (proj1 Hiff Ho). clear -Hv. destruct sel as [|x l]; [reflexivity|]. discriminate Hv.
Qed.
Print Assumptions C101_create_from_nothing_refuted.

(** The only cluster deleted. *)
Definition solo_db : db := (serve dec_parse pool_ok rng0 rng0 (Request true "0" RDelete {["cluster_id" := One (Text "0")]}) page_db).1.
Lemma solo_quiet : quiet solo_db /\ keyed solo_db.
Proof.
  destruct (C74_delete_clusters dec_parse pool_ok rng0 rng0 (Request true "0" RDelete {["cluster_id" := One (Text "0")]}) page_db [0%Z])
    as (d' & t & E & [Hq Hs] & _); [done|done|apply quiet_usable, page_db_quiet|done|reflexivity|].
  unfold solo_db. rewrite E. split; [exact Hq|]. eapply keyed_same_index; [exact Hs|apply page_keyed].
Qed.
Theorem C101_delete_last_cluster_refuted : ~ C101_claim "Delete and go to next cluster".
Proof.
  intros H. destruct solo_quiet as [Hq Hk].
  assert (dom (cluster solo_db) = {[1%Z]}) as Hd by by_computation.
  assert (exists pg, cluster_page_of exact_division 1 [0; 1] rng0 solo_db None 1 None None 30 None = Page pg /\ cp_pinned pg = cluster_pinned solo_db 1) as (pg & Hpg & Hpin).
  { destruct (cluster_page_fine solo_db exact_division 1 [0; 1] rng0 None 1%Z None None 30%Z None Hq Hk exact_rounding) as (pg & Hpg & Hpin & _).
    - lia.
    - reflexivity.
    - intros x [=].
    - rewrite Hd. apply elem_of_singleton. reflexivity.
    - intros x [=].
    - lia.
    - intros [=].
    - exists pg. split; [exact Hpg|exact Hpin]. }
  assert (shown_page solo_db 1 pg) as Hs.
  { exists exact_division, 1, [0; 1], rng0, None, None, None, 30%Z, None. split; [apply exact_rounding|]. split; [lia|].
    split; [reflexivity|]. split; [intros x [=]|]. split; [lia|]. exact Hpg. }
  assert (cluster_pinned solo_db 1 = false) as Hnp by by_computation. rewrite Hnp in Hpin.
  set (f := Form "Delete and go to next cluster" RDelete [Hidden "return_cluster_id" (dec_show (cp_next pg)); Hidden "cluster_id" "1"]).
  assert (f ∈ cluster_forms dec_show 1 pg) as Hf.
  { unfold cluster_forms. rewrite Hpin. right. right. left. }
  assert (sends f [("return_cluster_id", dec_show (cp_next pg)); ("cluster_id", "1")]) as Hse.
  { exists [[("return_cluster_id", dec_show (cp_next pg))]; [("cluster_id", "1")]]. split; [repeat constructor|reflexivity]. }
  destruct (H dec_parse dec_show "0" pool_ok rng0 rng0 solo_db 1%Z pg f _ dec_ints eq_refl Hq Hk (fun _ => eq_refl) Hs Hf eq_refl Hse)
    as (d' & t & Hp & Ho).
  destruct (C101_delete_button_partial dec_parse dec_show "0" pool_ok rng0 rng0 solo_db 1%Z pg f _ dec_ints eq_refl Hq Hk eq_refl Hs Hf eq_refl Hse)
    as (d2 & t2 & x & _ & Hp2 & _ & _ & _ & _ & _ & Hiff).
  assert (d2 = d' /\ t2 = t) as [E1 E2] by (rewrite Hp in Hp2; split; congruence). rewrite E1, E2 in Hiff. exact (proj1 Hiff Ho Hd).
Qed.
Print Assumptions C101_delete_last_cluster_refuted.

(** The random split moved every feature to the new cluster. *)
Theorem C101_split_page_refuted : ~ C101_claim "Split Cluster".
Proof.
  intros H. set (sent := [("cluster_id", "1"); ("return_to", "cluster"); ("target_clusters", "2"); ("iterations", "10"); ("minimum_cluster_features", "1")]).
  set (f := Form "Split Cluster" RRefine [Hidden "cluster_id" "1"; Hidden "return_to" "cluster"; Box "target_clusters" "2"; Box "iterations" "10"; Box "minimum_cluster_features" "1"]).
  assert (f ∈ cluster_forms dec_show 1 page1) as Hf by (do 5 right; left; reflexivity).
  assert (sends f sent) as Hs.
  { exists [[("cluster_id", "1")]; [("return_to", "cluster")]; [("target_clusters", "2")]; [("iterations", "10")]; [("minimum_cluster_features", "1")]]. split; [|done]. repeat constructor. }
  destruct (H dec_parse dec_show "0" pool_ok (Rng (fun _ => 1) 0) rng0 page_db 1%Z page1 f sent dec_ints eq_refl page_db_quiet page_keyed (fun _ => eq_refl) page1_shown Hf eq_refl Hs)
    as (d' & t & Hp & Ho).
  destruct (C101_split_button_partial dec_parse dec_show "0" pool_ok (Rng (fun _ => 1) 0) rng0 page_db 1%Z page1 f sent d' (Redirect t) dec_ints eq_refl page_db_quiet page_keyed page1_shown Hf eq_refl Hs Hp)
    as (_ & _ & _ & _ & _ & _ & _ & Hl). destruct (Hl t eq_refl) as [_ Hiff]. destruct (proj1 Hiff Ho) as [h Hh]. apply elem_of_members in Hh.
  assert (members (press dec_parse "0" pool_ok (Rng (fun _ => 1) 0) rng0 f sent page_db).1 1 = ∅) as Em by by_computation.
  rewrite Hp in Em. cbn [fst] in Em. rewrite Em in Hh. clear -Hh. set_solver.
Qed.
Print Assumptions C101_split_page_refuted.

Example C101_example :
  python_ints dec_parse dec_show /\ dec_parse "0" = Some 0%Z /\ quiet page_db /\ keyed page_db /\ shown_page page_db 1 page1 /\
  (f_label <$> cluster_forms dec_show 1 page1) =
    ["Delete Selected Features"; "Create From Selected Features"; "Delete and go to next cluster";
     "Create New Cluster From All Visible Features"; "Pin Cluster"; "Split Cluster"] /\
  sends (Form "Delete Selected Features" RRemove [Hidden "cluster_id" "1"; Choose "feature_id" ["1"; "3"]]) [("cluster_id", "1"); ("feature_id", "3")] /\
  (press dec_parse "0" pool_ok rng0 rng0 (Form "Delete Selected Features" RRemove []) [("cluster_id", "1"); ("feature_id", "3")] page_db).2
    = Redirect (ToCluster (One (Text "1"))) /\
  members (press dec_parse "0" pool_ok rng0 rng0 (Form "Delete Selected Features" RRemove []) [("cluster_id", "1"); ("feature_id", "3")] page_db).1 1 = {[1%N]}.
Proof.
  split; [apply dec_ints|]. split; [reflexivity|]. split; [apply page_db_quiet|]. split; [apply page_keyed|]. split; [apply page1_shown|].
  split; [reflexivity|]. split.
  - exists [[("cluster_id", "1")]; [("feature_id", "3")]]. split; [|done]. constructor; [constructor|]. constructor; [|constructor].
    apply (fills_choose "feature_id" ["1"; "3"] ["3"]). by apply sublist_cons.
  - split; by_computation.
Qed.

(** ** C102 *)
Lemma next_exists d c x : next d c = Some x -> x ∈ dom (cluster d).
Proof.
  intros H. apply C60_next_and_prev_inverse in H. unfold prev, links in H. destruct (neighbours _ _) as [[a b]|] eqn:E; [|done].
  apply elem_of_cluster_ids. destruct (decide (x ∈ cluster_ids d)) as [|Hn]; [done|]. apply position_of_None in Hn.
  unfold neighbours in E. by rewrite Hn in E.
Qed.
Lemma prev_exists d c x : prev d c = Some x -> x ∈ dom (cluster d).
Proof.
  intros H. apply C60_next_and_prev_inverse in H. unfold next, links in H. destruct (neighbours _ _) as [[a b]|] eqn:E; [|done].
  apply elem_of_cluster_ids. destruct (decide (x ∈ cluster_ids d)) as [|Hn]; [done|]. apply position_of_None in Hn.
  unfold neighbours in E. by rewrite Hn in E.
Qed.

(** Every link of a page that is shown opens. *)
Theorem C102_cluster_links_open : forall parse show d c pg name k,
  python_ints parse show -> quiet d -> keyed d -> shown_page d c pg ->
  (name, k) ∈ cluster_links show c pg -> opens parse d k.
Proof.
  intros parse show d c pg name k (Hp & _) Hq Hk Hs Hin.
  destruct (shown_page_facts d c pg Hq Hk Hs) as (Hc & Hnx & Hpv & _).
  apply next_exists in Hnx. apply prev_exists in Hpv.
  assert (forall x, x ∈ dom (cluster d) -> opens parse d (Go (ToCluster (One (Text (show x)))))) as Hx.
  { intros x Hx. eapply (opens_cluster parse d _ x); [done|done|apply Hp|done]. }
  unfold cluster_links in Hin. cbn [app] in Hin. form_cases Hin; try (injection Hin as -> ->).
  - apply opens_overview; done.
  - by apply Hx.
  - by apply Hx.
  - by apply Hx.
  - apply opens_overview; done.
  - apply elem_of_list_fmap in Hin as (f & E & _). injection E as -> ->.
    eapply (opens_cluster parse d _ c); [done|done|apply Hp|done].
Qed.
Print Assumptions C102_cluster_links_open.

Theorem C102_overview_links_open : forall parse show d feature c o name k,
  python_ints parse show -> quiet d -> keyed d -> shown_overview d feature c o ->
  (name, k) ∈ overview_links show feature c o -> opens parse d k.
Proof.
  intros parse show d feature c o name k (Hp & _) Hq Hk Hs Hin.
  destruct (overview_clusters d feature c o Hq Hs) as (_ & Hd & Hc).
  unfold overview_links in Hin. apply elem_of_list_bind in Hin as ([x rows] & Hin & Hx). cbn [fst snd] in Hin.
  assert (x ∈ dom (cluster d)) as Hxd by (apply Hd, elem_of_list_fmap; by exists (x, rows)).
  apply elem_of_app in Hin as [Hin|Hin].
  { apply elem_of_list_fmap in Hin as (f & E & _). injection E as -> ->. apply opens_overview; done. }
  apply elem_of_cons in Hin as [Hin|Hin].
  - destruct feature as [f|]; [|destruct c as [y|]]; injection Hin as -> ->.
    + eapply (opens_cluster parse d _ x); [done|done|apply Hp|done].
    + apply opens_filtered; try done. by apply Hc.
    + eapply (opens_cluster parse d _ x); [done|done|apply Hp|done].
  - apply elem_of_list_singleton in Hin. injection Hin as -> ->. apply opens_overview; done.
Qed.
Print Assumptions C102_overview_links_open.

(** Where a link leads: to the page of cluster [c] about the documents [docs] ... *)
Definition leads_to_documents (parse : string -> option Z) (d : db) (k : link) (c : Z) (docs : gset N) : Prop :=
  forall rnd workers arrival g w,
    rounding rnd -> 0 < workers -> arrival ≡ₚ seq 0 (workers * 2) -> (forall x, w = Some x -> w_html x = true) ->
    exists p, open_page parse rnd workers arrival g d w k = AtCluster c (Page p) /\
      cp_total p = size docs /\ shows d w "document" docs 30 [] (cp_shown p).
(** ... or to the overview of the documents [docs]. *)
Definition leads_to_overview (parse : string -> option Z) (d : db) (k : link) (docs : gset N) : Prop :=
  forall rnd workers arrival g w,
    rounding rnd -> 0 < workers -> arrival ≡ₚ seq 0 (workers * 2) -> (forall x, w = Some x -> w_html x = true) ->
    exists o, open_page parse rnd workers arrival g d w k = AtOverview (OverviewPage o) /\
      Web.o_total o = size docs /\ (docs = ∅ -> o_shown o = NoResults) /\ (docs <> ∅ -> shows d w "document" docs 5 [] (o_shown o)).
Lemma shows_documents d w docs n l v : shows d w "document" docs n l v -> shows d w "document" docs n [] v.
Proof. destruct w; exact id. Qed.
Lemma leads_documents parse d k c feature x : quiet d -> keyed d -> c ∈ dom (cluster d) -> (forall y, x = Some y -> y ∈ dom (cluster d)) ->
  (forall rnd workers arrival g w, open_page parse rnd workers arrival g d w k = AtCluster c (cluster_page_of rnd workers arrival g d w c feature x 30 None)) ->
  leads_to_documents parse d k c (page_documents d c feature x).
Proof.
  intros Hq Hk Hc Hx Ho rnd workers arrival g w Hr Hw Ha Hh. rewrite Ho.
  destruct (C76_cluster_page rnd workers arrival g d w c feature x 30 None Hr Hq Hw Ha (proj1 Hk)) as (p & -> & Ht & _ & _ & _ & _ & _ & Hs); try done.
  { unfold page_documents. intros doc Hd. apply (keyed_cluster d c doc Hk). set_solver. }
  exists p. split; [done|]. split; [done|]. by eapply shows_documents.
Qed.
Lemma leads_overview parse d k feature c : quiet d -> keyed d -> dom (cluster d) <> ∅ -> (forall y, c = Some y -> y ∈ dom (cluster d)) ->
  (forall rnd workers arrival g w, open_page parse rnd workers arrival g d w k = AtOverview (overview_of rnd workers arrival g d w feature c 40 5 None)) ->
  leads_to_overview parse d k (overview_documents d feature c).
Proof.
  intros Hq Hk Hm Hc Ho rnd workers arrival g w Hr Hw Ha Hh. rewrite Ho.
  destruct (decide (overview_documents d feature c = ∅)) as [Hd|Hd].
  - destruct (C82_overview_of_model rnd workers arrival g d w feature c 40 5 None) as (o & -> & Ht & Hs & _); try done.
    exists o. split; [done|]. rewrite Hd. split; [by rewrite size_empty|]. split; [done|]. by intros [].
  - destruct (C82_overview_of_documents rnd workers arrival g d w feature c 40 5 None) as (o & -> & Ht & _ & _ & _ & Hs); try done; [lia|exact (proj1 Hk)| |].
    { intros doc. unfold overview_documents. destruct feature as [f|]; [by apply keyed_feature|].
      destruct c as [c|]; [by apply keyed_cluster|set_solver]. }
    exists o. split; [done|]. split; [done|]. split; [done|]. intros _. by eapply shows_documents.
Qed.

(** A page lists its features with links to those documents of the cluster that have them,
    and offers the overview of its documents. *)
Theorem C102_cluster_links_lead : forall parse show d c pg, python_ints parse show -> quiet d -> keyed d -> shown_page d c pg ->
  (forall h, h ∈ listed pg -> exists k, ("feature", k) ∈ cluster_links show c pg /\
     leads_to_documents parse d k c (cluster_documents d c ∩ feature_docs d h)) /\
  (exists k, ("Cluster Overview", k) ∈ cluster_links show c pg /\ leads_to_documents parse d k c (cluster_documents d c)) /\
  (exists k, ("Pivot By Cluster", k) ∈ cluster_links show c pg /\ leads_to_overview parse d k (cluster_documents d c)).
Proof.
  intros parse show d c pg (Hp & _) Hq Hk Hs. destruct (shown_page_facts d c pg Hq Hk Hs) as (Hc & _).
  assert (forall s : list (string * link), forall a b, a ∈ s -> b = a -> b ∈ s) as Hin by (by intros s a b ? ->).
  split; [|split].
  - intros h Hh. eexists. split.
    + unfold cluster_links. rewrite !elem_of_app. do 3 right. apply elem_of_list_fmap. exists h. split; [reflexivity|exact Hh].
    + replace (cluster_documents d c ∩ feature_docs d h) with (page_documents d c (Some h) None).
      * apply leads_documents; try done. intros. unfold open_page. cbn [url_number]. by rewrite Hp.
      * unfold page_documents. apply set_eq. set_solver.
  - eexists. split.
    + unfold cluster_links. right. left.
    + replace (cluster_documents d c) with (page_documents d c None None).
      * apply leads_documents; try done. intros. unfold open_page. cbn [url_number]. by rewrite Hp.
      * unfold page_documents. apply set_eq. set_solver.
  - eexists. split.
    + unfold cluster_links. rewrite !elem_of_app. do 2 right. left. by apply elem_of_list_singleton.
    + change (cluster_documents d c) with (overview_documents d None (Some c)).
      apply leads_overview; try done; [set_solver|by intros ? [= <-]].
Qed.
Print Assumptions C102_cluster_links_lead.

(** The overview offers, for each cluster listed, its page, restricted to the feature or
    cluster it is about, the overview of the documents of that cluster, and for each feature
    listed the overview of its documents. *)
Theorem C102_overview_links_lead : forall parse show d feature c o, python_ints parse show -> quiet d -> keyed d -> shown_overview d feature c o ->
  forall x rows, (x, rows) ∈ o_clusters o ->
  (exists name k, (name, k) ∈ overview_links show feature c o /\
     leads_to_documents parse d k x (cluster_documents d x ∩
       match feature, c with
       | Some h, _ => feature_docs d h
       | None, Some y => cluster_documents d y
       | None, None => cluster_documents d x
       end) /\
     name = match feature, c with
            | Some _, _ => "Intersect selected feature"
            | None, Some _ => "Intersect selected cluster"
            | None, None => "See all in cluster"
            end) /\
  (exists k, ("Pivot", k) ∈ overview_links show feature c o /\ leads_to_overview parse d k (cluster_documents d x)) /\
  (forall h, h ∈ rows.*1.*1 -> exists k, ("feature", k) ∈ overview_links show feature c o /\ leads_to_overview parse d k (feature_docs d h)).
Proof.
  intros parse show d feature c o (Hp & _) Hq Hk Hs x rows Hx.
  destruct (overview_clusters d feature c o Hq Hs) as (_ & Hd & Hc).
  assert (x ∈ dom (cluster d)) as Hxd by (apply Hd, elem_of_list_fmap; by exists (x, rows)).
  assert (dom (cluster d) <> ∅) as Hm by set_solver.
  assert (forall nk, nk ∈ ((fun f => ("feature", Go (ToFeature f))) <$> rows.*1.*1)
     ++ [match feature, c with
         | Some f, _ => ("Intersect selected feature", Go (ToClusterFeature (One (Text (show x))) f))
         | None, Some c => ("Intersect selected cluster", GoFiltered x c)
         | None, None => ("See all in cluster", Go (ToCluster (One (Text (show x)))))
         end; ("Pivot", Go (ToIndexOf x))] -> nk ∈ overview_links show feature c o) as Hl.
  { intros nk Hnk. unfold overview_links. apply elem_of_list_bind. exists (x, rows). split; [exact Hnk|exact Hx]. }
  split; [|split].
  - destruct feature as [h|]; [|destruct c as [y|]]; (eexists _, _; split; [apply Hl, elem_of_app; right; left|split; [|reflexivity]]).
    + replace (cluster_documents d x ∩ feature_docs d h) with (page_documents d x (Some h) None).
      * apply leads_documents; try done. intros. unfold open_page. cbn [url_number]. by rewrite Hp.
      * unfold page_documents. apply set_eq. set_solver.
    + replace (cluster_documents d x ∩ cluster_documents d y) with (page_documents d x None (Some y)).
      * apply leads_documents; try done. intros ? [= <-]. by apply Hc.
      * unfold page_documents. apply set_eq. set_solver.
    + replace (cluster_documents d x ∩ cluster_documents d x) with (page_documents d x None None).
      * apply leads_documents; try done. intros. unfold open_page. cbn [url_number]. by rewrite Hp.
      * unfold page_documents. apply set_eq. set_solver.
  - eexists. split; [apply Hl, elem_of_app; right; right; left|].
    change (cluster_documents d x) with (overview_documents d None (Some x)). apply leads_overview; try done. by intros ? [= <-].
  - intros h Hh. eexists. split; [apply Hl, elem_of_app; left; apply elem_of_list_fmap; exists h; split; [reflexivity|exact Hh]|].
    change (feature_docs d h) with (overview_documents d (Some h) None). apply leads_overview; done.
Qed.
Print Assumptions C102_overview_links_lead.

(** The links to the neighbours lead to them. *)
Theorem C102_neighbour_links : forall parse show d c pg k,
  python_ints parse show -> quiet d -> keyed d -> shown_page d c pg ->
  (("Next Cluster", k) ∈ cluster_links show c pg -> exists t x, k = Go t /\ next d c = Some x /\ leads_to_cluster parse t x) /\
  (("Previous Cluster", k) ∈ cluster_links show c pg -> exists t x, k = Go t /\ prev d c = Some x /\ leads_to_cluster parse t x).
Proof.
  intros parse show d c pg k (Hp & _) Hq Hk Hs.
  destruct (shown_page_facts d c pg Hq Hk Hs) as (Hc & Hnx & Hpv & _).
  split; intros Hin; unfold cluster_links in Hin; cbn [app] in Hin; form_cases Hin;
    first [apply elem_of_list_fmap in Hin as (f & E & _); discriminate E|discriminate Hin|injection Hin as ->].
  - eexists _, _. split; [reflexivity|]. split; [exact Hnx|]. eexists. split; [reflexivity|]. apply Hp.
  - eexists _, _. split; [reflexivity|]. split; [exact Hpv|]. eexists. split; [reflexivity|]. apply Hp.
Qed.
Print Assumptions C102_neighbour_links.

(** They are there unless the neighbours on both sides are cluster 0. *)
Theorem C102_neighbours_offered_partial : forall show d c pg, quiet d -> keyed d -> shown_page d c pg ->
  (forall label, label = "Next Cluster" \/ label = "Previous Cluster" ->
    ((exists k, (label, k) ∈ cluster_links show c pg) <-> ~ (next d c = Some 0%Z /\ prev d c = Some 0%Z))).
Proof.
  intros show d c pg Hq Hk Hs label Hl.
  destruct (shown_page_facts d c pg Hq Hk Hs) as (Hc & -> & -> & _). unfold cluster_links.
  destruct (Z.eqb_spec (cp_prev pg) 0) as [->|E1]; [destruct (Z.eqb_spec (cp_next pg) 0) as [->|E2]|]; cbn [andb app].
  - split; [|intros H; by destruct H]. intros [k Hin]. exfalso. form_cases Hin; try (injection Hin as ? ?; subst label; by destruct Hl).
    apply elem_of_list_fmap in Hin as (f & E & _). injection E as -> ->. by destruct Hl.
  - split; [naive_solver|]. intros _. destruct Hl as [->| ->]; eexists.
    + do 3 right. left.
    + do 2 right. left.
  - split; [naive_solver|]. intros _. destruct Hl as [->| ->]; eexists.
    + do 3 right. left.
    + do 2 right. left.
Qed.
Print Assumptions C102_neighbours_offered_partial.

(** Refuted: that a page offers to go on to the next cluster whenever there is another one.
    With the clusters 0 and 1, the page of cluster 1 does not. *)
Definition C102_claim : Prop := forall show d c pg, quiet d -> keyed d -> shown_page d c pg ->
  next d c <> Some c -> exists k, ("Next Cluster", k) ∈ cluster_links show c pg.
Theorem C102_neighbours_offered_refuted : ~ C102_claim.
Proof.
  intros H. destruct (H dec_show page_db 1%Z page1 page_db_quiet page_keyed page1_shown) as [k Hk].
  - assert (next page_db 1 = Some 0%Z) as E by by_computation. rewrite E. discriminate.
  - clear H. change (cluster_links dec_show 1 page1) with
      [("Model Overview", Go ToIndex); ("Cluster Overview", Go (ToCluster (One (Text "1")))); ("Pivot By Cluster", Go (ToIndexOf 1));
       ("feature", Go (ToClusterFeature (One (Text "1")) 1)); ("feature", Go (ToClusterFeature (One (Text "1")) 3))] in Hk.
    repeat (apply elem_of_cons in Hk as [Hk|Hk]; [discriminate Hk|]). by apply elem_of_nil in Hk.
Qed.
Print Assumptions C102_neighbours_offered_refuted.

(** The search box of a page: a text that is a value of the field is found, and, from the
    page of a cluster other than cluster 0, the user is sent to the documents of that
    cluster with it; the page opens. *)
Theorem C102_search_stays_partial : forall parse show d field s f row,
  python_ints parse show -> quiet d -> keyed d -> features_unique (inverted_index d) ->
  inverted_index d !! f = Some row -> f_field row = field -> f_value row = VText s ->
  search_from show d None field s = Redirect (ToFeature f) /\
  opens parse d (Go (ToFeature f)) /\
  forall c, c ∈ dom (cluster d) ->
    search_from show d (Some c) field s =
      Redirect (if decide (c = 0%Z) then ToFeature f else ToClusterFeature (One (Text (show c))) f) /\
    url_number parse (One (Text (show c))) = Some c /\
    opens parse d (Go (ToClusterFeature (One (Text (show c))) f)).
Proof.
  intros parse show d field s f row (Hp & _) Hq Hk Hu Hf Hfd Hv.
  destruct (C78_search_partial d field s Hu) as [H _]. destruct (H f row Hf Hfd Hv) as [H1 H2].
  split; [exact H1|]. split; [apply opens_overview; done|]. intros c Hc. split.
  - unfold search_from. case_decide as E; [subst c; exact H1|]. rewrite (proj2 (Z.eqb_neq _ _) E). apply H2.
  - split; [apply Hp|]. eapply (opens_cluster parse d _ c); [done|done|apply Hp|done].
Qed.
Print Assumptions C102_search_stays_partial.

(** Refuted: that a search from the page of a cluster stays within it: from cluster 0 it
    leads to the overview of the whole model. *)
Definition C102_search_claim : Prop := forall parse show d c field s f row,
  python_ints parse show -> quiet d -> keyed d -> features_unique (inverted_index d) ->
  inverted_index d !! f = Some row -> f_field row = field -> f_value row = VText s -> c ∈ dom (cluster d) ->
  search_from show d (Some c) field s = Redirect (ToClusterFeature (One (Text (show c))) f).
Theorem C102_search_stays_refuted : ~ C102_search_claim.
Proof.
  intros H. specialize (H dec_parse dec_show page_db 0%Z "text" "c" 3%N (FeatureRow "text" (VText "c") 2 {[3; 4]}%N)).
  assert (search_from dec_show page_db (Some 0%Z) "text" "c" = Redirect (ToFeature 3)) as E by by_computation.
  rewrite E in H. cut (Redirect (ToFeature 3) = Redirect (ToClusterFeature (One (Text (dec_show 0))) 3)); [discriminate|].
  clear E. apply H; clear H; [apply dec_ints|apply page_db_quiet|apply page_keyed| | |reflexivity|reflexivity|].
  - intros i j a b Hi Hj E E2.
    assert (map_Forall (fun f row => map_Forall (fun g row' => f = g \/ (f_field row, f_value row) <> (f_field row', f_value row')) (inverted_index page_db)) (inverted_index page_db)) as Hall by by_computation.
    destruct (Hall _ _ Hi _ _ Hj) as [->|Hne]; [reflexivity|]. exfalso. apply Hne. by rewrite E, E2.
  - by_computation.
  - by_computation.
Qed.
Print Assumptions C102_search_stays_refuted.
Example C102_example :
  python_ints dec_parse dec_show /\ quiet page_db /\ keyed page_db /\ shown_page page_db 1 page1 /\
  ("feature", Go (ToClusterFeature (One (Text "1")) 3)) ∈ cluster_links dec_show 1 page1 /\
  (exists o, shown_overview page_db None (Some 1%Z) o /\ ("Intersect selected cluster", GoFiltered 0 1) ∈ overview_links dec_show None (Some 1%Z) o) /\
  search_from dec_show page_db (Some 1%Z) "text" "c" = Redirect (ToClusterFeature (One (Text "1")) 3).
Proof.
  split; [apply dec_ints|]. split; [apply page_db_quiet|]. split; [apply page_keyed|]. split; [apply page1_shown|]. split; [|split].
  - do 4 right. left.
  - exists (match overview_of exact_division 1 [0; 1] rng0 page_db None None (Some 1%Z) 40 5 None with OverviewPage o => o | _ => Overview [] 0 NoResults end). split.
    + exists exact_division, 1, [0; 1], rng0, None, 40, 5%Z, None. split; [apply exact_rounding|]. split; [lia|]. split; [reflexivity|]. split; [lia|].
      vm_compute. reflexivity.
    + vm_compute. repeat (first [left; fail|right]).
  - by_computation.
Qed.

(** ** C103 *)
Lemma NoDup_sub {A} (l k : list A) : l `sublist_of` k -> NoDup k -> NoDup l.
Proof.
  intros H. induction H as [|x l k H IH|x l k H IH]; intros Hn; [done| |]; apply NoDup_cons in Hn as [Hx Hn]; [|by apply IH].
  apply NoDup_cons. split; [|by apply IH]. intros Hin. apply Hx. by eapply elem_of_sublist.
Qed.
Lemma chosen_clusters show d feature c o f sent : quiet d -> shown_overview d feature c o ->
  f ∈ overview_forms show o -> sends f sent ->
  exists sel, values sent "cluster_id" = show <$> sel /\ NoDup sel /\ (forall x, x ∈ sel -> x ∈ dom (cluster d)) /\
    values sent "return_to" = ["model"] /\ values sent "return_cluster_id" = [].
Proof.
  intros Hq Hs Hf Hsend. destruct (overview_clusters d feature c o Hq Hs) as (Hnd & Hd & _).
  assert (f_inputs f = [Hidden "return_to" "model"; Box "target_clusters" ""; Choose "cluster_id" (show <$> (o_clusters o).*1)]) as Ei.
  { unfold overview_forms in Hf. form_cases Hf; by subst f. }
  destruct Hsend as (parts & HF & ->). rewrite Ei in HF. clear Ei Hf.
  repeat match goal with H : Forall2 fills (_ :: _) _ |- _ => inversion H; clear H; subst | H : Forall2 fills [] _ |- _ => inversion H; clear H; subst end.
  repeat match goal with H : fills _ _ |- _ => inversion H; clear H; subst end.
  match goal with H : chosen `sublist_of` _ |- _ => apply sublist_fmap in H as (sel & -> & Hsub) end.
  exists sel. cbn [concat app]. change (?a :: ?b :: ?l) with ([a; b] ++ l). rewrite app_nil_r. split; [|split; [|split; [|split]]].
  - rewrite values_app, values_same. done.
  - by eapply NoDup_sub.
  - intros x Hx. apply Hd. by eapply elem_of_sublist.
  - rewrite values_app, values_other by done. done.
  - rewrite values_app, values_other by done. done.
Qed.

(** Delete Clusters: exactly the checked ones lose their features; the overview opens. *)
Theorem C103_delete_button : forall parse show idx p g1 g2 d feature c o f sent,
  python_ints parse show -> parse idx = Some 0%Z -> quiet d -> keyed d -> p 0 = None ->
  shown_overview d feature c o -> f ∈ overview_forms show o -> f_label f = "Delete Clusters" -> sends f sent ->
  exists sel d', values sent "cluster_id" = show <$> sel /\
    press parse idx p g1 g2 f sent d = (d', Redirect ToIndex) /\ model_changed d d' /\
    (forall h, assigned d' h = match assigned d h with
                               | Some x => if decide (x ∈ sel) then None else Some x
                               | None => None
                               end) /\
    feature_pins_kept d d' /\ cluster_pins_kept d d' /\ opens parse d' (Go ToIndex).
Proof.
  intros parse show idx p g1 g2 d feature c o f sent (Hp & _) Hi Hq Hk Hw Hs Hf Hl Hsend.
  destruct (chosen_clusters show d feature c o f sent Hq Hs Hf Hsend) as (sel & Hv & _ & _ & _ & Hr).
  assert (f_route f = RDelete) as Hrt by (unfold overview_forms in Hf; form_cases Hf; by subst f).
  destruct (C74_delete_clusters parse p g1 g2 (Request true idx RDelete (decode_form sent)) d sel)
    as (d' & t & Hserve & [Hq' Hsi] & H1 & H2 & H3 & Ht & _); [done|done|by apply quiet_usable|done| |].
  { by apply (numbers_shown parse show). }
  cbn [q_params] in Ht. rewrite decode_lookup, Hr in Ht. specialize (Ht eq_refl). subst t.
  exists sel, d'. split; [done|]. split; [unfold press; by rewrite Hrt|]. split; [by split|]. split; [exact H1|]. split; [exact H2|]. split; [exact H3|].
  apply opens_overview; [done|by eapply keyed_same_index].
Qed.
Print Assumptions C103_delete_button.

(** Merge Clusters: the features of the checked clusters are all in one of them, whose page
    opens. If none was checked, nothing happens and the answer is an error. *)
Theorem C103_merge_button_partial : forall parse show idx p g1 g2 d feature c o f sent,
  python_ints parse show -> parse idx = Some 0%Z -> quiet d -> keyed d -> p 0 = None ->
  shown_overview d feature c o -> f ∈ overview_forms show o -> f_label f = "Merge Clusters" -> sends f sent ->
  (values sent "cluster_id" = [] /\ exists e, press parse idx p g1 g2 f sent d = (d, Crashed e)) \/
  (exists sel m d' t, values sent "cluster_id" = show <$> sel /\ m ∈ sel /\
    press parse idx p g1 g2 f sent d = (d', Redirect t) /\ model_changed d d' /\
    (forall h, assigned d' h = match assigned d h with
                               | Some x => if decide (x ∈ sel) then Some m else Some x
                               | None => None
                               end) /\
    (forall h, feature_pinned d' h = feature_pinned d h) /\ cluster_pins_kept d d' /\
    leads_to_cluster parse t m /\ opens parse d' (Go t)).
Proof.
  intros parse show idx p g1 g2 d feature c o f sent (Hp & _) Hi Hq Hk Hw Hs Hf Hl Hsend.
  destruct (chosen_clusters show d feature c o f sent Hq Hs Hf Hsend) as (sel & Hv & Hnd & Hd & Hrt' & Hr).
  assert (f_route f = RMerge) as Hrt by (unfold overview_forms in Hf; form_cases Hf; by subst f).
  assert (numbers parse (decode_form sent) "cluster_id" = Some sel) as Hn by (by apply (numbers_shown parse show)).
  destruct sel as [|m rest].
  - left. split; [exact Hv|]. exists IndexError. unfold press. rewrite Hrt.
    destruct (numbers_ensure _ _ _ _ Hn) as (ps & He & Hints & _).
    rewrite (serve_accepted parse p g1 g2 (Request true idx RMerge (decode_form sent)) d ps) by done.
    cbn [q_route handle]. rewrite Hints. unfold pbind.
    destruct (call_err "merge_clusters" (merge_clusters_body []) (open_index d p) d IndexError) as (c' & Hc & _ & Hdisk & _);
      [apply idle_open|reflexivity|].
    unfold merge_clusters. rewrite Hc. cbn [fst snd]. by rewrite Hdisk.
  - right. destruct (C74_merge_clusters parse p g1 g2 (Request true idx RMerge (decode_form sent)) d m rest)
      as (d' & Hserve & [Hq' Hsi] & H1 & H2 & H3); [done|done|by apply quiet_usable|done|done|].
    exists (m :: rest), m, d', (ToCluster (One (Int m))). split; [done|]. split; [by left|]. split; [unfold press; by rewrite Hrt|]. split; [by split|].
    split. { intros h. rewrite H1. destruct (assigned d h) as [x|]; [|done].
      destruct (decide (x ∈ rest)) as [E|E]; destruct (decide (x ∈ m :: rest)) as [E'|E']; try done.
      - by destruct E'; right.
      - apply elem_of_cons in E' as [->|E']; done. }
    split; [exact H2|]. split; [exact H3|]. split; [by eexists|].
    eapply (opens_cluster parse d' _ m); [done|by eapply keyed_same_index|done|].
    apply (quiet_dom d' m Hq'). assert (m ∈ dom (cluster d)) as Hm by (apply Hd; by left).
    apply (quiet_dom d m Hq) in Hm as [h Hh]. exists h. rewrite H1, Hh. by destruct (decide (m ∈ rest)).
Qed.
Print Assumptions C103_merge_button_partial.

(** Refine Selected Clusters, with at least one checked and whatever is typed in: the
    features of the other clusters, pinned features and all pins stay as they are; those of
    the checked clusters go to one of these or to new clusters. When the browser is sent on,
    it is to the documents of the first checked cluster, which is an error page if that
    cluster has no feature left. With none checked the answer is an error, but the whole
    model may have been refined. *)
Theorem C103_refine_button_partial : forall parse show idx p g1 g2 d feature c o f sent d' a,
  python_ints parse show -> parse idx = Some 0%Z -> quiet d -> keyed d ->
  shown_overview d feature c o -> f ∈ overview_forms show o -> f_label f = "Refine Selected Clusters" -> sends f sent ->
  press parse idx p g1 g2 f sent d = (d', a) ->
  exists sel, values sent "cluster_id" = show <$> sel /\
  quiet d' /\ same_index d d' /\
  (forall h, is_Some (assigned d' h) <-> is_Some (assigned d h)) /\
  (forall h, feature_pinned d' h = feature_pinned d h) /\ cluster_pins_kept d d' /\
  (forall h, feature_pinned d h = true -> assigned d' h = assigned d h) /\
  (sel <> [] ->
    (forall h x, assigned d h = Some x -> x ∉ sel -> assigned d' h = Some x) /\
    (forall h x, assigned d h = Some x -> x ∈ sel -> exists y, assigned d' h = Some y /\ (y ∈ sel \/ y ∉ dom (cluster d)))) /\
  (forall t, a = Redirect t -> exists x, head sel = Some x /\ t = ToIndexOf x /\
     (opens parse d' (Go t) <-> exists h, assigned d' h = Some x)).
Proof.
  intros parse show idx p g1 g2 d feature c o f sent d' a (Hp & _) Hi Hq Hk Hs Hf Hl Hsend Hpress.
  destruct (chosen_clusters show d feature c o f sent Hq Hs Hf Hsend) as (sel & Hv & Hnd & Hd & Hrt' & Hr).
  assert (f_route f = RRefine) as Hrt by (unfold overview_forms in Hf; form_cases Hf; by subst f).
  assert (numbers parse (decode_form sent) "cluster_id" = Some sel) as Hn by (by apply (numbers_shown parse show)).
  unfold press in Hpress. rewrite Hrt in Hpress.
  destruct (C74_refine parse p g1 g2 (Request true idx RRefine (decode_form sent)) d d' a (or_introl eq_refl) (quiet_usable _ Hq) Hpress)
    as (Hch & H1 & H2 & H3 & H4 & _ & H5 & Ht).
  assert (quiet d' /\ same_index d d') as [Hq' Hsi] by (destruct Hch as [->|[? ?]]; [split; [done|]|done]; by apply same_index_refl).
  exists sel. split; [exact Hv|]. split; [done|]. split; [done|]. split; [exact H1|]. split; [exact H2|]. split; [exact H3|]. split; [exact H4|].
  assert (sel <> [] -> forall x, x ∉ sel -> x ∈ dom (cluster d) -> members d' x = members d x) as Hother.
  { intros Hne x Hx Hxd. apply (H5 sel x); [done|exact Hn|done|done|by apply elem_of_cluster_ids]. }
  split.
  { intros Hne. split.
    - intros h x Hh Hx. apply elem_of_members. rewrite (Hother Hne x Hx); [by apply elem_of_members|]. apply (quiet_dom d x Hq). eauto.
    - intros h x Hh Hx. destruct (proj2 (H1 h)) as [y Hy]; [by rewrite Hh|]. exists y. split; [done|].
      destruct (decide (y ∈ sel)) as [|Hny]; [by left|right]. intros Hyd. specialize (Hother Hne y Hny Hyd).
      apply elem_of_members in Hy. rewrite Hother in Hy. apply elem_of_members in Hy. congruence. }
  intros t ->. destruct (Ht t eq_refl) as (x & cs & Hn' & Hto). cbn [q_params] in Hn', Hto. rewrite Hn in Hn'. injection Hn' as ->.
  exists x. split; [done|]. apply proj2 in Hto. rewrite decode_lookup, Hrt' in Hto. specialize (Hto _ eq_refl ltac:(done)). subst t. split; [done|].
  rewrite <- (quiet_dom d' x Hq'). split.
  - intros Ho. destruct (decide (x ∈ dom (cluster d'))) as [|Hn']; [done|]. destruct (not_opens_overview parse d' x); [|done|done].
    assert (x ∈ dom (cluster d)) as Hx by (apply Hd; by left). apply (quiet_dom d x Hq) in Hx as [h Hh].
    destruct (proj2 (H1 h)) as [y Hy]; [by rewrite Hh|]. assert (y ∈ dom (cluster d')) as Hyd by (apply (quiet_dom d' y Hq'); eauto).
    intros E. rewrite E in Hyd. by apply elem_of_empty in Hyd.
  - intros Hin. apply opens_overview; [done|by eapply keyed_same_index|done].
Qed.
Print Assumptions C103_refine_button_partial.

(** C103, refuted as stated. *)
Definition C103_claim (button : string) : Prop := forall parse show idx p g1 g2 d feature c o f sent,
  python_ints parse show -> parse idx = Some 0%Z -> quiet d -> keyed d -> (forall i, p i = None) ->
  shown_overview d feature c o -> f ∈ overview_forms show o -> f_label f = button -> sends f sent ->
  exists d' t, press parse idx p g1 g2 f sent d = (d', Redirect t) /\ opens parse d' (Go t).
(** The sample overview: both clusters. *)
Definition overview1 : overview :=
  Overview [(0%Z, [(5%N, "lang", VText "en"); (2%N, "text", VText "b"); (4%N, "text", VText "d")]);
            (1%Z, [(1%N, "text", VText "a"); (3%N, "text", VText "c")])] 0 NoResults.
Lemma overview1_shown : shown_overview page_db None None overview1.
Proof.
  exists exact_division, 1, [0; 1], rng0, None, 40, 5%Z, None. split; [apply exact_rounding|]. split; [lia|]. split; [reflexivity|]. split; [lia|].
  vm_compute. reflexivity.
Qed.
Definition overview_form (label : string) (r : route) : form :=
  Form label r [Hidden "return_to" "model"; Box "target_clusters" ""; Choose "cluster_id" ["0"; "1"]].
Lemma sends_overview label r typed (chosen : list string) : chosen `sublist_of` ["0"; "1"] ->
  sends (overview_form label r) ([("return_to", "model"); ("target_clusters", typed)] ++ ((fun v => ("cluster_id", v)) <$> chosen)).
Proof.
  intros H. exists [[("return_to", "model")]; [("target_clusters", typed)]; (fun v => ("cluster_id", v)) <$> chosen]. split.
  - constructor; [constructor|]. constructor; [constructor|]. constructor; [by constructor|constructor].
  - cbn [concat]. by rewrite app_nil_r.
Qed.

(** No cluster checked. *)
Theorem C103_merge_nothing_refuted : ~ C103_claim "Merge Clusters".
Proof.
  intros H. set (f := overview_form "Merge Clusters" RMerge).
  assert (f ∈ overview_forms dec_show overview1) as Hf by (right; right; left; reflexivity).
  pose proof (sends_overview "Merge Clusters" RMerge "" [] (sublist_nil_l _)) as Hs.
  destruct (H dec_parse dec_show "0" pool_ok rng0 rng0 page_db None None overview1 f _ dec_ints eq_refl page_db_quiet page_keyed (fun _ => eq_refl) overview1_shown Hf eq_refl Hs)
    as (d' & t & Hp & _).
  assert ((press dec_parse "0" pool_ok rng0 rng0 f ([("return_to", "model"); ("target_clusters", "")] ++ ((fun v => ("cluster_id", v)) <$> [])) page_db).2 = Crashed IndexError) as E by by_computation.
  rewrite Hp in E. discriminate E.
Qed.
Print Assumptions C103_merge_nothing_refuted.

(** Cluster 1 checked, to be refined into two: all its features went to the new cluster. *)
Theorem C103_refine_page_refuted : ~ C103_claim "Refine Selected Clusters".
Proof.
  intros H. set (f := overview_form "Refine Selected Clusters" RRefine).
  set (sent := [("return_to", "model"); ("target_clusters", "2"); ("cluster_id", "1")]).
  assert (f ∈ overview_forms dec_show overview1) as Hf by (left; reflexivity).
  assert (sends f sent) as Hs by (apply (sends_overview "Refine Selected Clusters" RRefine "2" ["1"]); apply sublist_cons, sublist_skip, sublist_nil_l).
  destruct (H dec_parse dec_show "0" pool_ok (Rng (fun _ => 1) 0) rng0 page_db None None overview1 f sent dec_ints eq_refl page_db_quiet page_keyed (fun _ => eq_refl) overview1_shown Hf eq_refl Hs)
    as (d' & t & Hp & Ho).
  destruct (C103_refine_button_partial dec_parse dec_show "0" pool_ok (Rng (fun _ => 1) 0) rng0 page_db None None overview1 f sent d' (Redirect t) dec_ints eq_refl page_db_quiet page_keyed overview1_shown Hf eq_refl Hs Hp)
    as (sel & _ & _ & _ & _ & _ & _ & _ & _ & Hl). destruct (Hl t eq_refl) as (x & _ & Et & Hiff). destruct (proj1 Hiff Ho) as [h Hh]. apply elem_of_members in Hh.
  assert ((press dec_parse "0" pool_ok (Rng (fun _ => 1) 0) rng0 f sent page_db).2 = Redirect (ToIndexOf 1)) as E2 by by_computation.
  assert (members (press dec_parse "0" pool_ok (Rng (fun _ => 1) 0) rng0 f sent page_db).1 1 = ∅) as Em by by_computation.
  rewrite Hp in E2, Em. cbn [fst snd] in E2, Em. rewrite Et in E2. injection E2 as ->. rewrite Em in Hh. clear -Hh. set_solver.
Qed.
Print Assumptions C103_refine_page_refuted.

(** Refuted: that nothing is refined if nothing is checked. *)
Definition C103_nothing_claim : Prop := forall parse show idx p g1 g2 d feature c o f sent d' a,
  python_ints parse show -> parse idx = Some 0%Z -> quiet d -> keyed d -> (forall i, p i = None) ->
  shown_overview d feature c o -> f ∈ overview_forms show o -> f_label f = "Refine Selected Clusters" -> sends f sent ->
  values sent "cluster_id" = [] -> press parse idx p g1 g2 f sent d = (d', a) ->
  forall h, assigned d' h = assigned d h.
Theorem C103_refine_nothing_refuted : ~ C103_nothing_claim.
Proof.
  intros H. set (f := overview_form "Refine Selected Clusters" RRefine).
  set (sent := [("return_to", "model"); ("target_clusters", "")]).
  assert (f ∈ overview_forms dec_show overview1) as Hf by (left; reflexivity).
  assert (sends f sent) as Hs by (apply (sends_overview "Refine Selected Clusters" RRefine "" []); apply sublist_nil_l).
  specialize (H dec_parse dec_show "0" pool_ok rng0 rng0 page_db None None overview1 f sent _ _ dec_ints eq_refl page_db_quiet page_keyed (fun _ => eq_refl) overview1_shown Hf eq_refl Hs eq_refl (surjective_pairing _) 1%N).
  assert (assigned (press dec_parse "0" pool_ok rng0 rng0 f sent page_db).1 1 = Some 0%Z) as E1 by by_computation.
  assert (assigned page_db 1 = Some 1%Z) as E2 by by_computation.
  rewrite E1, E2 in H. discriminate H.
Qed.
Print Assumptions C103_refine_nothing_refuted.

Example C103_example :
  python_ints dec_parse dec_show /\ quiet page_db /\ keyed page_db /\ shown_overview page_db None None overview1 /\
  overview_form "Merge Clusters" RMerge ∈ overview_forms dec_show overview1 /\
  sends (overview_form "Merge Clusters" RMerge) [("return_to", "model"); ("target_clusters", ""); ("cluster_id", "0"); ("cluster_id", "1")] /\
  (press dec_parse "0" pool_ok rng0 rng0 (overview_form "Merge Clusters" RMerge)
     [("return_to", "model"); ("target_clusters", ""); ("cluster_id", "0"); ("cluster_id", "1")] page_db).2 = Redirect (ToCluster (One (Int 0))) /\
  members (press dec_parse "0" pool_ok rng0 rng0 (overview_form "Merge Clusters" RMerge)
     [("return_to", "model"); ("target_clusters", ""); ("cluster_id", "0"); ("cluster_id", "1")] page_db).1 0 = {[1; 2; 3; 4; 5]}%N.
Proof.
  split; [apply dec_ints|]. split; [apply page_db_quiet|]. split; [apply page_keyed|]. split; [apply overview1_shown|].
  split; [right; right; left; reflexivity|]. split; [by apply (sends_overview "Merge Clusters" RMerge "" ["0"; "1"])|]. split; by_computation.
Qed.
