(** StackHistory.v: the documents of a StackExchange corpus from its whole history. *)
From Verif Require Export StackProofs.

Section latest.
  Context {A : Type} (id : A -> option Z).
  Lemma latest_app l1 l2 : latest id (l1 ++ l2) = filter (fun x => id x = None \/ id x ∉ id <$> l2) (latest id l1) ++ latest id l2.
  Proof.
    induction l1 as [|x l1 IH]; [done|]. cbn [app latest]. rewrite IH, fmap_app.
    repeat destruct (decide _) as [?|?]; try done.
    - rewrite filter_cons_False; [done|]. intros [?|Hn]; [tauto|]. rewrite elem_of_app in *. tauto.
    - exfalso. rewrite elem_of_app in *. tauto.
    - rewrite filter_cons_True; [done|]. destruct (id x) eqn:E; [right|by left]. rewrite elem_of_app in *. intros Hin. assert (Some z ≠ None) by done. tauto.
  Qed.
  Lemma latest_find l u : List.find (fun x => bool_decide (id x = Some u)) (latest id l) = List.find (fun x => bool_decide (id x = Some u)) (rev l).
  Proof.
    induction l as [|x l IH]; [done|]. cbn [latest rev]. rewrite find_app, <- IH. destruct (decide _) as [[H1 H2]|Hn].
    - destruct (List.find _ (latest id l)) as [y|] eqn:E; [done|]. cbn. case_bool_decide as Hx; [|done]. exfalso.
      symmetry in IH. rewrite Hx in H2. apply elem_of_list_fmap in H2 as (y & Hy & Hin).
      apply (list_find_none (fun x => id x = Some u) (rev l) IH y); [|done]. by apply elem_of_list_In, in_rev; rewrite rev_involutive; apply elem_of_list_In.
    - cbn. case_bool_decide as Hx; [|by destruct (List.find _ _)]. rewrite IH, (find_nothing _ (rev l)); [done|].
      intros y Hy%elem_of_list_In%in_rev%elem_of_list_In. apply bool_decide_eq_false. intros Ey. apply Hn. split; [congruence|].
      rewrite Hx, <- Ey. by apply elem_of_list_fmap_1.
  Qed.
  (** Elements without an id can be removed before or after. *)
  Lemma latest_filter (P : A -> Prop) `{forall x, Decision (P x)} l : (forall x, ~ P x -> id x = None) ->
    filter P (latest id l) = latest id (filter P l).
  Proof.
    intros HP. induction l as [|x l IH]; [done|]. rewrite (filter_cons P x l). cbn [latest].
    assert (id x ≠ None -> id x ∈ id <$> l <-> id x ∈ id <$> filter P l) as Heq.
    { intros Hx. rewrite !elem_of_list_fmap. split; intros (y & Hy & Hin).
      - exists y. split; [done|]. apply elem_of_list_filter. split; [|done]. destruct (decide (P y)) as [|Hn]; [done|]. apply HP in Hn. congruence.
      - apply elem_of_list_filter in Hin as [_ Hin]. eauto. }
    destruct (decide (P x)) as [Hx|Hx].
    - cbn [latest]. repeat destruct (decide _) as [?|?]; try tauto. by rewrite filter_cons_True, IH.
    - apply HP in Hx as Hid. destruct (decide _) as [[? _]|_]; [done|]. by rewrite filter_cons_False.
  Qed.
  Lemma latest_in l x : x ∈ latest id l -> x ∈ l.
  Proof.
    induction l as [|y l IH]; [done|]. cbn [latest]. destruct (decide _); [right; auto|]. intros [->|?]%elem_of_cons; [by left|right; auto].
  Qed.
End latest.

(** Rows of one site. *)
Lemma replace_latest {A R} (key : R -> N * option Z) (mk : A -> R) (id : A -> option Z) site (xs : list A) :
  (forall x, key (mk x) = (site, id x)) -> replace_rows key [] (mk <$> xs) = mk <$> latest id xs.
Proof.
  intros Hk. induction xs as [|x xs IH]; [done|]. change (replace_rows key [] (mk <$> x :: xs)) with (replace_rows key (replace_row key (mk x) []) (mk <$> xs)).
  rewrite replace_rows_split, IH. cbn [latest].
  assert (replace_row key (mk x) [] = [mk x]) as -> by (unfold replace_row; by destruct ((key (mk x)).2)).
  assert (fresh_key key (mk <$> xs) (mk x) <-> ~ (id x ≠ None /\ id x ∈ id <$> xs)) as Hf.
  { unfold fresh_key. rewrite Hk. cbn.
    assert ((site, id x) ∈ key <$> (mk <$> xs) <-> id x ∈ id <$> xs) as ->.
    { rewrite !elem_of_list_fmap. split.
      - intros (r & Hr & (y & -> & Hy)%elem_of_list_fmap). rewrite Hk in Hr. injection Hr as Hr. eauto.
      - intros (y & Hy & Hin). exists (mk y). rewrite Hk, Hy. split; [done|]. by apply elem_of_list_fmap_1. }
    split; [intros [H|H] [H1 H2]; tauto|]. intros H. destruct (id x) as [z|]; [right|by left]. intros Hin. apply H. by split. }
  destruct (decide _) as [Hd|Hd].
  - rewrite filter_cons_False; [done|]. tauto.
  - rewrite filter_cons_True by tauto. done.
Qed.
Lemma replace_other {A R} (key : R -> N * option Z) (mk : A -> R) (id : A -> option Z) site s (l : list R) (xs : list A) :
  (forall x, key (mk x) = (site, id x)) -> s ≠ site ->
  filter (fun r => (key r).1 = s) (replace_rows key l (mk <$> xs)) = filter (fun r => (key r).1 = s) l.
Proof.
  intros Hk Hne. rewrite replace_rows_split, filter_app, (replace_latest key mk id site xs Hk).
  assert (filter (fun r => (key r).1 = s) (mk <$> latest id xs) = []) as ->.
  { apply elem_of_nil_inv. intros r [Hr Hin]%elem_of_list_filter. apply elem_of_list_fmap in Hin as (x & -> & _). rewrite Hk in Hr. cbn in Hr. congruence. }
  rewrite app_nil_r, list_filter_filter. apply list_filter_iff. intros r. split; [tauto|]. intros Hr. split; [done|]. right.
  intros (y & Hy & (x & -> & _)%elem_of_list_fmap)%elem_of_list_fmap. rewrite Hk in Hy. rewrite Hy in Hr. cbn in Hr. congruence.
Qed.
Lemma replace_same {A R} (key : R -> N * option Z) (mk : A -> R) (id : A -> option Z) site (l : list R) (ys xs : list A) :
  (forall x, key (mk x) = (site, id x)) ->
  filter (fun r => (key r).1 = site) l = mk <$> latest id ys ->
  filter (fun r => (key r).1 = site) (replace_rows key l (mk <$> xs)) = mk <$> latest id (ys ++ xs).
Proof.
  intros Hk Hl. rewrite replace_rows_split, filter_app, (replace_latest key mk id site xs Hk), latest_app, fmap_app. f_equal.
  - rewrite list_filter_filter.
    transitivity (filter (fresh_key key (mk <$> xs)) (filter (fun r => (key r).1 = site) l)).
    { rewrite list_filter_filter. apply list_filter_iff. tauto. }
    rewrite Hl. generalize (latest id ys). intros zs. induction zs as [|z zs IH]; [done|].
    rewrite fmap_cons, !filter_cons, IH.
    assert (fresh_key key (mk <$> xs) (mk z) <-> (id z = None \/ id z ∉ id <$> xs)) as Hf.
    { unfold fresh_key. rewrite Hk. cbn.
      assert ((site, id z) ∈ key <$> (mk <$> xs) <-> id z ∈ id <$> xs) as ->; [|done].
      rewrite !elem_of_list_fmap. split.
      - intros (r & Hr & (y & -> & Hy)%elem_of_list_fmap). rewrite Hk in Hr. injection Hr as Hr. eauto.
      - intros (y & Hy & Hin). exists (mk y). rewrite Hk, Hy. split; [done|]. by apply elem_of_list_fmap_1. }
    repeat destruct (decide _); try tauto; done.
  - apply filter_all. intros r (x & -> & _)%elem_of_list_fmap. by rewrite Hk.
Qed.

(** ** The whole history *)
Lemma contents_ok {A} (l : list A) : contents (Ok <$> l) = l.
Proof. induction l as [|x l IH]; [done|]. cbn. by f_equal. Qed.
Lemma no_err {A} (l : list (res A)) : existsb is_err l = false <-> exists xs, l = Ok <$> xs.
Proof.
  split.
  - induction l as [|[x|e] l IH]; [by exists []| |done]. intros H. destruct (IH H) as [xs ->]. by exists (x :: xs).
  - intros [xs ->]. induction xs as [|x xs IH]; [done|]. apply IH.
Qed.
Lemma readable_reads url du st : sx_inv st -> readable du <-> exists st', read_dump url du st = Ok st'.
Proof.
  intros Hi. split.
  - intros (H1 & H2 & H3). apply no_err in H1 as [ps H1], H2 as [cs H2], H3 as [us H3].
    destruct du as [dp dc du]. cbn in *. subst. by apply read_dump_all.
  - intros [st' E]. apply (read_dump_ok _ _ _ _ Hi) in E as (ps & cs & us & _ & _ & H1 & H2 & H3 & _).
    unfold readable. rewrite H1, H2, H3. split_and!; apply no_err; eauto.
Qed.

Lemma dumps_snoc url h u du : dumps_of url (h ++ [(u, du)]) = dumps_of url h ++ (if decide (u = url /\ readable du) then [du] else []).
Proof. unfold dumps_of. rewrite filter_app, fmap_app. f_equal. rewrite filter_cons. cbn. by destruct (decide _). Qed.

(** The dumps of the site with a number. *)
Definition at_site {A} (f : string -> list A) (st : sx) (s : N) : list A :=
  match sites st !! s with Some url => f url | None => [] end.
(** With the file's own element, as it is stored. *)
Definition comments_read (h : list (string * dump)) (url : string) : list x_comment :=
  concat ((fun du => contents (d_comments du) ++ [root_comment]) <$> dumps_of url h).
Definition users_read (h : list (string * dump)) (url : string) : list x_user :=
  concat ((fun du => contents (d_users du) ++ [root_user]) <$> dumps_of url h).

Record tracks (h : list (string * dump)) (st : sx) : Prop := {
  tr_inv : sx_inv st;
  tr_none : forall url, (forall s, sites st !! s ≠ Some url) -> dumps_of url h = [];
  tr_comments : forall s, filter (fun r => (comment_key r).1 = s) (comments st) = CommentRow s <$> latest xc_id (at_site (comments_read h) st s);
  tr_users : forall s, filter (fun r => (user_key r).1 = s) (users st) = UserRow s <$> latest xu_id (at_site (users_read h) st s);
  tr_there : forall s x, x ∈ at_site (fun u => posts_in u h) st s -> question_or_answer x -> is_Some (key st s (xp_id x));
  tr_from : forall k r, posts st !! k = Some r -> exists x, x ∈ at_site (fun u => posts_in u h) st (po_site r) /\ question_or_answer x /\ xp_id x = xp_id (po_x r);
  tr_last : forall k s i x, key st s i = Some k ->
    last_such (fun y => question_or_answer y /\ xp_id y = i) (at_site (fun u => posts_in u h) st s) x ->
    exists kind, post_kind x = Some kind /\ posts st !! k = Some (PostRow s kind x);
  tr_tags : forall s i t, (s, i, t) ∈ post_tags st <->
    exists x, x ∈ at_site (fun u => posts_in u h) st s /\ question_or_answer x /\ xp_id x = i /\ t ∈ split_tags (default "" (xp_tags x)) }.

Lemma tracks_nil : tracks [] empty_sx.
Proof.
  split; unfold at_site; cbn.
  - apply empty_inv.
  - done.
  - intros s. by rewrite lookup_empty.
  - intros s. by rewrite lookup_empty.
  - intros s x H. rewrite lookup_empty in H. by apply elem_of_nil in H.
  - intros k r H. by rewrite lookup_empty in H.
  - intros k s i x _ (l1 & l2 & E & _). rewrite lookup_empty in E. by destruct l1.
  - intros s i t. rewrite lookup_empty. split; [by intros ?%elem_of_empty|]. intros (x & Hx & _). by apply elem_of_nil in Hx.
Qed.

Lemma tracks_snoc h st url du : tracks h st -> tracks (h ++ [(url, du)]) (add_site_data url du st).1.
Proof.
  intros T. pose proof (tr_inv _ _ T) as Hi. unfold add_site_data. destruct (read_dump url du st) as [st'|e] eqn:E; cbn.
  2: { assert (forall u, dumps_of u (h ++ [(url, du)]) = dumps_of u h) as Hd.
    { intros u. rewrite dumps_snoc. destruct (decide _) as [[-> Hc]|_]; [|by rewrite app_nil_r]. apply (readable_reads u du st Hi) in Hc as [? ?]. congruence. }
    destruct T. split; unfold at_site, comments_read, users_read, posts_in in *; intros; try rewrite Hd; eauto.
    - rewrite tr_comments0. destruct (sites st !! s); [by rewrite Hd|done].
    - rewrite tr_users0. destruct (sites st !! s); [by rewrite Hd|done].
    - apply tr_there0 with (x := x); [|done]. destruct (sites st !! s); [by rewrite Hd in H|done].
    - apply tr_from0 in H as (x & Hx & Hr). exists x. split; [|done]. destruct (sites st !! po_site r); [by rewrite Hd|done].
    - eapply tr_last0; [done|]. destruct (sites st !! s); [by rewrite Hd in H0|done].
    - rewrite tr_tags0. destruct (sites st !! s); [by rewrite Hd|done]. }
  assert (readable du) as Hc by (apply (readable_reads url du st Hi); eauto).
  apply (read_dump_ok _ _ _ _ Hi) in E as (ps & cs & us & site & st1 & Hps & Hcs & Hus & D).
  pose proof (dumped_inv _ _ _ _ _ _ _ _ D) as Hi'. pose proof (d_site' _ _ _ _ _ _ _ _ Hi D) as Hsite. pose proof (d_sites' _ _ _ _ _ _ _ _ Hi D) as Hsites.
  assert (forall u, u ≠ url -> dumps_of u (h ++ [(url, du)]) = dumps_of u h) as Hdo.
  { intros u Hu. rewrite dumps_snoc. destruct (decide _) as [[? _]|_]; [congruence|by rewrite app_nil_r]. }
  assert (dumps_of url (h ++ [(url, du)]) = dumps_of url h ++ [du]) as Hdu.
  { rewrite dumps_snoc. destruct (decide _) as [_|Hn]; [done|tauto]. }
  (** what is read for a site *)
  assert (forall A (f : list dump -> list A) s, (forall l, f (l ++ [du]) = f l ++ f [du]) -> f [] = [] ->
    at_site (fun u => f (dumps_of u (h ++ [(url, du)]))) st' s =
    at_site (fun u => f (dumps_of u h)) st s ++ (if decide (s = site) then f [du] else [])) as Hat.
  { intros A f s Hf Hf0. unfold at_site. destruct (decide (s = site)) as [->|Hne].
    - rewrite Hsite, Hdu, Hf. f_equal. destruct (sites st !! site) as [u|] eqn:Eu.
      + assert (sites st' !! site = Some u) as Eu' by (apply Hsites; by left). congruence.
      + rewrite (tr_none _ _ T url), Hf0; [done|]. intros s Hs. destruct (d_st1 _ _ _ _ _ _ _ _ Hi D) as (_ & _ & _ & _ & _ & H). apply H in Hs as Hs'. congruence.
    - rewrite app_nil_r. destruct (sites st !! s) as [u|] eqn:Eu.
      + assert (sites st' !! s = Some u) as Eu' by (apply Hsites; by left). rewrite Eu'. rewrite Hdo; [done|].
        intros ->. apply Hne. by eapply (si_urls st' Hi').
      + destruct (sites st' !! s) as [u|] eqn:Eu'; [|done]. apply Hsites in Eu' as [?|[? _]]; congruence. }
  assert (forall s, at_site (fun u => posts_in u (h ++ [(url, du)])) st' s = at_site (fun u => posts_in u h) st s ++ (if decide (s = site) then ps else [])) as Hp.
  { intros s. unfold posts_in. rewrite (Hat _ (fun l => concat ((fun du => contents (d_posts du)) <$> l)) s); [|intros l; by rewrite fmap_app, concat_app|done].
    f_equal. destruct (decide _); [|done]. cbn. by rewrite app_nil_r, Hps, contents_ok. }
  split.
  - done.
  - intros u Hu. rewrite dumps_snoc. destruct (decide _) as [[<- _]|_]; [by apply Hu in Hsite|]. rewrite app_nil_r. apply (tr_none _ _ T).
    intros s Hs. apply (Hu s). apply Hsites. by left.
  - intros s. unfold comments_read. rewrite (Hat _ (fun l => concat ((fun du => contents (d_comments du) ++ [root_comment]) <$> l)) s); [|intros l; by rewrite fmap_app, concat_app|done].
    rewrite (du_comments _ _ _ _ _ _ _ _ D). destruct (decide (s = site)) as [->|Hne].
    + replace (concat ((fun du => contents (d_comments du) ++ [root_comment]) <$> [du])) with (cs ++ [root_comment]) by (cbn; by rewrite app_nil_r, Hcs, contents_ok).
      apply replace_same; [done|]. apply (tr_comments _ _ T).
    + rewrite app_nil_r. rewrite (replace_other comment_key (CommentRow site) xc_id site s); [|done|done]. apply (tr_comments _ _ T).
  - intros s. unfold users_read. rewrite (Hat _ (fun l => concat ((fun du => contents (d_users du) ++ [root_user]) <$> l)) s); [|intros l; by rewrite fmap_app, concat_app|done].
    rewrite (du_users _ _ _ _ _ _ _ _ D). destruct (decide (s = site)) as [->|Hne].
    + replace (concat ((fun du => contents (d_users du) ++ [root_user]) <$> [du])) with (us ++ [root_user]) by (cbn; by rewrite app_nil_r, Hus, contents_ok).
      apply replace_same; [done|]. apply (tr_users _ _ T).
    + rewrite app_nil_r. rewrite (replace_other user_key (UserRow site) xu_id site s); [|done|done]. apply (tr_users _ _ T).
  - intros s x Hx Hq. rewrite Hp in Hx. apply elem_of_app in Hx as [Hx|Hx].
    + destruct (tr_there _ _ T s x Hx Hq) as [k Hk]. exists k. rewrite (d_key2 _ _ _ _ _ _ _ _ D).
      apply (ad_kept _ _ _ _ (du_added _ _ _ _ _ _ _ _ D)). by rewrite (d_key1 _ _ _ _ _ _ _ _ Hi D).
    + destruct (decide (s = site)) as [->|]; [|by apply elem_of_nil in Hx]. rewrite (d_key2 _ _ _ _ _ _ _ _ D).
      by apply (ad_there _ _ _ _ (du_added _ _ _ _ _ _ _ _ D)).
  - intros k r Hr. assert (key st' (po_site r) (xp_id (po_x r)) = Some k) as Hk by (apply (find_post_some st' _ _ _ Hi'); eauto).
    rewrite (d_key2 _ _ _ _ _ _ _ _ D) in Hk. apply (ad_new _ _ _ _ (du_added _ _ _ _ _ _ _ _ D)) in Hk. rewrite (d_key1 _ _ _ _ _ _ _ _ Hi D) in Hk.
    rewrite Hp. destruct Hk as [Hk|(Hs & _ & x & Hx & Hr')].
    + apply (find_post_some st _ _ _ Hi) in Hk as (r0 & Hr0 & E1 & E2). destruct (tr_from _ _ T k r0 Hr0) as (x & Hx & H1 & H2).
      exists x. rewrite E1 in Hx. rewrite E2 in H2. split; [apply elem_of_app; by left|done].
    + exists x. split; [|done]. apply elem_of_app. right. rewrite Hs. by rewrite decide_True.
  - intros k s i x Hk Hl. rewrite Hp in Hl. destruct (decide (s = site)) as [->|Hne].
    + destruct (decide (Exists (fun y => question_or_answer y /\ xp_id y = i) ps)) as [Hex|Hno].
      * assert (last_such (fun y => question_or_answer y /\ xp_id y = i) ps x) as Hl'.
        { destruct Hl as (l1 & l2 & El & HP & Hl2). apply app_eq_inv in El as [(l3 & E1 & E2)|(l3 & E1 & E2)].
          - destruct l3 as [|y l3]; [|].
            + cbn in E2. exists [], l2. rewrite <- E2. done.
            + cbn in E2. injection E2 as <- E2. apply Exists_exists in Hex as (y & Hy & HPy). exfalso. apply (Hl2 y); [|done]. rewrite E2. apply elem_of_app. by right.
          - exists l3, l2. done. }
        assert (xp_id x = i) as Ex by (destruct Hl' as (? & ? & _ & [_ ?] & _); done).
        apply (identifies_key st' k url i site Hi' Hsite) in Hk. rewrite <- Ex in Hk, Hl'.
        by apply (dumped_last _ _ _ _ _ _ _ _ Hi D).
      * pose proof Hk as Hk'. rewrite (d_key2 _ _ _ _ _ _ _ _ D) in Hk'.
        assert (posts st' !! k = posts st !! k) as Eq.
        { rewrite (du_posts _ _ _ _ _ _ _ _ D). rewrite (ad_same _ _ _ _ (du_added _ _ _ _ _ _ _ _ D) i k Hk'); [|intros y Hy Hq Ei; apply Hno, Exists_exists; eauto].
          destruct (d_st1 _ _ _ _ _ _ _ _ Hi D) as (_ & _ & -> & _). done. }
        rewrite Eq. apply (tr_last _ _ T k site i x).
        -- apply (find_post_some st' _ _ _ Hi') in Hk as (r & Hr & H1 & H2). rewrite Eq in Hr. apply (find_post_some st _ _ _ Hi). eauto.
        -- destruct Hl as (l1 & l2 & El & HP & Hl2). apply app_eq_inv in El as [(l3 & E1 & E2)|(l3 & E1 & E2)].
          ++ destruct l3 as [|y l3].
            ** cbn in E2. exfalso. apply Hno, Exists_exists. exists x. split; [rewrite <- E2; by left|done].
            ** cbn in E2. injection E2 as <- E2. exists l1, l3. split; [done|]. split; [done|]. intros z Hz. apply Hl2. rewrite E2. apply elem_of_app. by left.
          ++ exfalso. apply Hno, Exists_exists. exists x. split; [rewrite E2; apply elem_of_app; right; by left|done].
    + rewrite app_nil_r in Hl. assert (key st s i = Some k) as Hk0.
      { apply (find_post_some st' _ _ _ Hi') in Hk as (r & Hr & H1 & H2). apply (find_post_some st _ _ _ Hi). exists r.
        split; [|done]. apply (dumped_other_row _ _ _ _ _ _ _ _ Hi D k r); [congruence|done]. }
      destruct (tr_last _ _ T k s i x Hk0 Hl) as (kind & H1 & H2). exists kind. split; [done|].
      by apply (dumped_other_row _ _ _ _ _ _ _ _ Hi D).
  - intros s i t. rewrite (dumped_tags _ _ _ _ _ _ _ _ Hi D), (tr_tags _ _ T), Hp. split.
    + intros [(x & Hx & Hr)|(-> & x & Hx & Hr)]; exists x; (split; [apply elem_of_app|done]); [by left|right]. by rewrite decide_True.
    + intros (x & [Hx|Hx]%elem_of_app & Hr); [left; eauto|right]. destruct (decide (s = site)) as [->|]; [|by apply elem_of_nil in Hx]. eauto.
Qed.

Lemma made_tracks h : tracks h (made_by h).
Proof.
  unfold made_by. induction h as [|[url du] h IH] using rev_ind; [apply tracks_nil|]. rewrite foldl_app. cbn. by apply tracks_snoc.
Qed.

Lemma filter_fmap {A B} (f : A -> B) (P : B -> Prop) `{forall x, Decision (P x)} (l : list A) :
  filter P (f <$> l) = f <$> filter (fun x => P (f x)) l.
Proof. induction l as [|x l IH]; [done|]. rewrite fmap_cons, !filter_cons, IH. by destruct (decide (P (f x))). Qed.

Lemma users_read_find h url u : List.find (fun x => bool_decide (xu_id x = Some u)) (rev (users_read h url)) =
  List.find (fun x => bool_decide (xu_id x = Some u)) (rev (users_in url h)).
Proof.
  unfold users_read, users_in. induction (dumps_of url h) as [|du l IH]; [done|].
  rewrite !fmap_cons. cbn [concat]. rewrite !rev_app_distr, !find_app, IH. destruct (List.find _ _); [done|].
  cbn [rev app]. done.
Qed.
Definition not_root (c : x_comment) : Prop := xc_id c ≠ None \/ xc_post c ≠ None.
#[global] Instance not_root_dec c : Decision (not_root c).
Proof. unfold not_root. apply _. Defined.
Lemma comments_read_in h url : filter not_root (comments_read h url) = filter not_root (comments_in url h).
Proof.
  unfold comments_read, comments_in. induction (dumps_of url h) as [|du l IH]; [done|].
  rewrite !fmap_cons. cbn [concat]. rewrite !filter_app, IH. f_equal. rewrite filter_cons_False; [by rewrite filter_nil, app_nil_r|]. unfold not_root. cbn. tauto.
Qed.
Lemma comments_read_latest h url i : filter (fun c => xc_post c = Some i) (latest xc_id (comments_read h url)) =
  filter (fun c => xc_post c = Some i) (latest xc_id (comments_in url h)).
Proof.
  assert (forall l, filter (fun c => xc_post c = Some i) (latest xc_id l) = filter (fun c => xc_post c = Some i) (latest xc_id (filter not_root l))) as E.
  { intros l. rewrite <- latest_filter.
    - rewrite list_filter_filter. apply list_filter_iff. intros c. unfold not_root. split; [|tauto]. intros Hc. split; [done|]. right. congruence.
    - intros c Hc. unfold not_root in Hc. destruct (xc_id c); [|done]. exfalso. apply Hc. by left. }
  rewrite (E (comments_read h url)), (E (comments_in url h)), comments_read_in. done.
Qed.

Lemma made_names h s url u : sites (made_by h) !! s = Some url -> shown_name (display_name (made_by h) s u) = name_in url h u.
Proof.
  intros Hs. unfold display_name, name_in. destruct u as [u|]; [|done].
  rewrite <- (find_filter _ (fun r => (user_key r).1 = s)) by (intros r Hr%bool_decide_eq_true; by rewrite Hr).
  rewrite (tr_users _ _ (made_tracks h)). unfold at_site. rewrite Hs.
  rewrite <- users_read_find, <- latest_find. generalize (latest xu_id (users_read h url)). intros l.
  induction l as [|x l IH]; [done|]. rewrite fmap_cons. cbn [List.find].
  rewrite (bool_decide_ext (user_key (UserRow s x) = (s, Some u)) (xu_id x = Some u)).
  - destruct (bool_decide (xu_id x = Some u)); [done|apply IH].
  - unfold user_key. cbn. split; [by intros [= ?]|by intros ->].
Qed.

Lemma made_document h url id k : identifies (made_by h) k url id -> exists x doc,
  last_such (fun y => question_or_answer y /\ xp_id y = id) (posts_in url h) x /\
  document (made_by h) k doc /\ document_of url h x doc.
Proof.
  intros Hid. pose proof (made_tracks h) as T. pose proof (tr_inv _ _ T) as Hi. set (st := made_by h) in *.
  destruct (identifies_site _ _ _ _ Hid) as [s Hs]. apply (identifies_key st k url id s Hi Hs) in Hid as Hk.
  destruct Hid as (r & Hr & Hrs & Hri).
  assert (po_site r = s) as Ers by (by eapply (si_urls st Hi)).
  destruct (tr_from _ _ T k r Hr) as (x0 & Hx0 & Hq0 & Hi0). unfold at_site in Hx0. rewrite Hrs in Hx0. rewrite Hri in Hi0.
  destruct (last_such_exists (fun y => question_or_answer y /\ xp_id y = id) _ x0 Hx0 (conj Hq0 Hi0)) as (x & Hl).
  destruct (tr_last _ _ T k s id x Hk) as (kind & Hkind & Hrow); [unfold at_site; by rewrite Hs|].
  exists x. eexists. split; [done|]. split.
  - unfold document, sx_get. rewrite Hrow. cbn [po_site po_x po_kind]. rewrite Hs. reflexivity.
  - unfold document_of. cbn [sd_site_url sd_id sd_title sd_body sd_name sd_created sd_type sd_tags sd_comments]. split_and!; try done.
    + unfold post_kind in Hkind. destruct Hl as (_ & _ & _ & [[E|E] _] & _); rewrite E in *; injection Hkind as <-; done.
    + by apply made_names.
    + intros t. unfold tags_of. rewrite elem_of_map. split.
      * intros ([[s' i'] t'] & -> & [[= -> ->] Hin]%elem_of_filter). apply (tr_tags _ _ T) in Hin as (y & Hy & Hq & Hyi & Ht).
        unfold at_site in Hy. rewrite Hs in Hy. destruct (xp_tags y) as [tg|] eqn:Et; cbn in Ht; [|by apply elem_of_nil in Ht].
        exists y, tg. done.
      * intros (y & tg & Hy & Hq & Hyi & Ht & Hin). eexists (s, _, t). split; [done|]. apply elem_of_filter. split; [done|].
        apply (tr_tags _ _ T). exists y. unfold at_site. rewrite Hs, Ht. done.
    + unfold comments_of. rewrite (list_filter_iff _ (fun r => xc_post (co_x r) = Some (xp_id x) /\ (comment_key r).1 = s)) by (intros r'; unfold comment_key; cbn; tauto).
      rewrite <- list_filter_filter, (tr_comments _ _ T). unfold at_site. rewrite Hs. rewrite filter_fmap. cbn [co_x].
      rewrite comments_read_latest, <- list_fmap_compose. apply list_fmap_ext. intros ? c _. cbn. f_equal. by apply made_names.
Qed.
Lemma made_identifies h url id : (exists k, identifies (made_by h) k url id) <->
  exists x, x ∈ posts_in url h /\ question_or_answer x /\ xp_id x = id.
Proof.
  pose proof (made_tracks h) as T. pose proof (tr_inv _ _ T) as Hi. split.
  - intros [k Hid]. apply made_document in Hid as (x & doc & (l1 & l2 & E & [Hq Hx] & _) & _). exists x. rewrite E. split; [|done]. apply elem_of_app. right. by left.
  - intros (x & Hx & Hq & <-).
    assert (exists s, sites (made_by h) !! s = Some url) as [s Hs].
    { destruct (decide (Exists (fun p => p.2 = url) (map_to_list (sites (made_by h))))) as [Hex|Hno].
      - apply Exists_exists in Hex as ([s u] & Hin & Hu). apply elem_of_map_to_list in Hin. cbn in Hu. subst u. eauto.
      - exfalso. unfold posts_in in Hx. rewrite (tr_none _ _ T url) in Hx; [by apply elem_of_nil in Hx|].
        intros s Hs. apply Hno, Exists_exists. exists (s, url). split; [by apply elem_of_map_to_list|done]. }
    destruct (tr_there _ _ T s x) as [k Hk]; [unfold at_site; by rewrite Hs|done|]. exists k. by apply (identifies_key _ _ _ _ s Hi Hs).
Qed.
