(** StackProofs.v: adding StackExchange dumps. *)
From Verif Require Export CorpusProofs.

Record sx_inv (st : sx) : Prop := {
  si_posts : forall k k' r r', posts st !! k = Some r -> posts st !! k' = Some r' ->
    po_site r = po_site r' -> xp_id (po_x r) = xp_id (po_x r') -> k = k';
  si_sites : forall k r, posts st !! k = Some r -> is_Some (sites st !! po_site r);
  si_urls : forall i j u, sites st !! i = Some u -> sites st !! j = Some u -> i = j }.

Notation key st s i := (find_post (posts st) s i).

Lemma list_find_first {A} (P : A -> Prop) `{forall x, Decision (P x)} (l : list A) x :
  List.find (fun x => bool_decide (P x)) l = Some x -> x ∈ l /\ P x.
Proof.
  intros Hf. apply find_some in Hf as [Hin Hp]. split; [by apply elem_of_list_In|]. by apply bool_decide_eq_true in Hp.
Qed.
Lemma list_find_none {A} (P : A -> Prop) `{forall x, Decision (P x)} (l : list A) :
  List.find (fun x => bool_decide (P x)) l = None -> forall x, x ∈ l -> ~ P x.
Proof.
  intros Hf x Hin HP. apply elem_of_list_In in Hin. apply (find_none _ _ Hf x) in Hin.
  by apply bool_decide_eq_false in Hin.
Qed.

Lemma find_post_some st s i k : sx_inv st -> key st s i = Some k <->
  exists r, posts st !! k = Some r /\ po_site r = s /\ xp_id (po_x r) = i.
Proof.
  intros Hi. unfold find_post. split.
  - intros Hf. apply fmap_Some in Hf as ([k' r] & Hf & ->). apply (list_find_first (fun kv : N * post_row => po_site kv.2 = s /\ xp_id (po_x kv.2) = i)) in Hf as [Hin [H1 H2]].
    apply elem_of_map_to_list in Hin. eauto.
  - intros (r & Hr & H1 & H2). destruct (List.find _ _) as [[k' r']|] eqn:E; cbn.
    + apply (list_find_first (fun kv : N * post_row => po_site kv.2 = s /\ xp_id (po_x kv.2) = i)) in E as [Hin [H3 H4]].
      apply elem_of_map_to_list in Hin. f_equal. cbn in *. eapply (si_posts st Hi); [done|done|congruence|congruence].
    + exfalso. apply (list_find_none (fun kv : N * post_row => po_site kv.2 = s /\ xp_id (po_x kv.2) = i) _ E (k, r)); [by apply elem_of_map_to_list|done].
Qed.
Lemma find_post_none st s i : key st s i = None <->
  forall k r, posts st !! k = Some r -> ~ (po_site r = s /\ xp_id (po_x r) = i).
Proof.
  unfold find_post. split.
  - intros Hf k r Hr. destruct (List.find _ _) as [[k' r']|] eqn:E; [done|].
    apply (list_find_none (fun kv : N * post_row => po_site kv.2 = s /\ xp_id (po_x kv.2) = i) _ E (k, r)). by apply elem_of_map_to_list.
  - intros H. destruct (List.find _ _) as [[k' r']|] eqn:E; [|done]. exfalso.
    apply (list_find_first (fun kv : N * post_row => po_site kv.2 = s /\ xp_id (po_x kv.2) = i)) in E as [Hin HP].
    apply elem_of_map_to_list in Hin. by apply (H k' r').
Qed.

Lemma find_site_some st url i : sx_inv st -> find_site (sites st) url = Some i <-> sites st !! i = Some url.
Proof.
  intros Hi. unfold find_site. split.
  - intros Hf. apply fmap_Some in Hf as ([k u] & Hf & ->). apply (list_find_first (fun kv : N * string => kv.2 = url)) in Hf as [Hin H].
    apply elem_of_map_to_list in Hin. cbn in *. congruence.
  - intros H. destruct (List.find _ _) as [[k u]|] eqn:E; cbn.
    + apply (list_find_first (fun kv : N * string => kv.2 = url)) in E as [Hin Hu].
      apply elem_of_map_to_list in Hin. cbn in *. subst u. f_equal. by eapply (si_urls st Hi).
    + exfalso. by apply (list_find_none (fun kv : N * string => kv.2 = url) _ E (i, url)); [apply elem_of_map_to_list|].
Qed.

Lemma ensure_site_ok url st : sx_inv st -> exists st' i, ensure_site url st = (st', i) /\ sx_inv st' /\
  sites st' !! i = Some url /\ posts st' = posts st /\ post_tags st' = post_tags st /\ comments st' = comments st /\ users st' = users st /\
  (forall j u, sites st' !! j = Some u <-> sites st !! j = Some u \/ (j = i /\ u = url)) /\
  (sites st !! i = Some url -> st' = st) /\ (forall j, sites st !! j = Some url -> j = i).
Proof.
  intros Hi. unfold ensure_site. destruct (find_site (sites st) url) as [i|] eqn:E.
  - apply (find_site_some st url i Hi) in E. exists st, i. split_and!; try done.
    + intros j u. split; [by left|]. by intros [?|[-> ->]].
    + intros j Hj. by eapply (si_urls st Hi).
  - assert (forall j, sites st !! j ≠ Some url) as Hno.
    { intros j Hj. apply (find_site_some st url j Hi) in Hj. congruence. }
    set (n := new_rowid (sites st)). pose proof (new_rowid_fresh (sites st)) as Hf. fold n in Hf.
    eexists _, n. split; [reflexivity|]. cbn. split_and!; try done.
    + destruct Hi as [H1 H2 H3]. split; cbn; [done| |].
      * intros k r Hr. destruct (H2 k r Hr) as [u Hu]. exists u. rewrite lookup_insert_ne; [done|]. intros En. rewrite En in Hf. congruence.
      * intros i j u Hi Hj. destruct (decide (i = n)) as [->|Hin], (decide (j = n)) as [->|Hjn]; [done| | |].
        -- rewrite lookup_insert in Hi. rewrite lookup_insert_ne in Hj by done. injection Hi as <-. by apply Hno in Hj.
        -- rewrite lookup_insert in Hj. rewrite lookup_insert_ne in Hi by done. injection Hj as <-. by apply Hno in Hi.
        -- rewrite lookup_insert_ne in Hi by done. rewrite lookup_insert_ne in Hj by done. eauto.
    + by rewrite lookup_insert.
    + intros j u. destruct (decide (j = n)) as [->|Hne].
      * rewrite lookup_insert. split; [intros [= <-]; by right|]. intros [?|[_ ->]]; [congruence|done].
      * rewrite lookup_insert_ne by done. split; [by left|]. by intros [?|[? _]].
    + intros H. by apply Hno in H.
    + intros j Hj. by apply Hno in Hj.
Qed.

Lemma post_kind_some x : question_or_answer x <-> is_Some (post_kind x).
Proof.
  unfold question_or_answer, post_kind. split.
  - intros [->| ->]; by eexists.
  - destruct (xp_type x) as [s|]; [|by intros [? ?]].
    destruct s as [|[[] [] [] [] [] [] [] []] [|? ?]]; cbn; intros [? ?]; try done; auto.
Qed.

(** ** The posts *)
Section add_posts.
  Context (site : N).

  Record added (xs : list x_post) (st st' : sx) : Prop := {
    ad_inv : sx_inv st';
    ad_sites : sites st' = sites st;
    ad_comments : comments st' = comments st;
    ad_users : users st' = users st;
    ad_kept : forall s i k, key st s i = Some k -> key st' s i = Some k;
    ad_new : forall s i k, key st' s i = Some k -> key st s i = Some k \/
      (s = site /\ posts st !! k = None /\ exists x, x ∈ xs /\ question_or_answer x /\ xp_id x = i);
    ad_there : forall x, x ∈ xs -> question_or_answer x -> is_Some (key st' site (xp_id x));
    ad_same : forall i k, key st' site i = Some k -> (forall x, x ∈ xs -> question_or_answer x -> xp_id x ≠ i) ->
      posts st' !! k = posts st !! k;
    ad_last : forall i k x, key st' site i = Some k ->
      last_such (fun x => question_or_answer x /\ xp_id x = i) xs x ->
      exists kind, post_kind x = Some kind /\ posts st' !! k = Some (PostRow site kind x);
    ad_others : forall k r, po_site r ≠ site -> posts st' !! k = Some r <-> posts st !! k = Some r;
    ad_tags : forall s i t, (s, i, t) ∈ post_tags st' <-> (s, i, t) ∈ post_tags st \/
      (s = site /\ exists x, x ∈ xs /\ question_or_answer x /\ xp_id x = i /\ t ∈ split_tags (default "" (xp_tags x))) }.

  Lemma added_nil st : sx_inv st -> added [] st st.
  Proof.
    intros Hi. split; try done.
    - by left.
    - by intros x ?%elem_of_nil.
    - intros i k x _ (l1 & l2 & H & _). by destruct l1.
    - intros s i t. split; [by left|]. intros [?|(_ & x & Hx & _)]; [done|by apply elem_of_nil in Hx].
  Qed.

  (** One more post (the list grows at the end). *)
  Lemma added_snoc xs st st' x : sx_inv st -> is_Some (sites st !! site) -> added xs st st' -> added (xs ++ [x]) st (add_post site st' x).
  Proof.
    intros Hi Hsite [A1 A2 A3 A4 A5 A6 A7 A8 A9 A10 A11]. unfold add_post. destruct (post_kind x) as [kind|] eqn:Hk.
    2: { assert (~ question_or_answer x) as Hnq by (rewrite post_kind_some, Hk; by intros [? ?]).
      split; try done.
      - intros s i k Hs. destruct (A6 s i k Hs) as [?|(-> & ? & y & Hy & ?)]; [by left|right]. split; [done|]. split; [done|]. exists y. split; [apply elem_of_app; by left|done].
      - intros y [Hy|Hy]%elem_of_app Hq; [by apply A7|]. apply elem_of_list_singleton in Hy as ->. done.
      - intros i k Hs Hno. apply (A8 i); [done|]. intros y Hy. apply Hno. apply elem_of_app. by left.
      - intros i k y Hs (l1 & l2 & E & HP & Hl2). apply (A9 i k y Hs). destruct (decide (l2 = [])) as [->|Hne].
        + apply app_inj_tail in E as [-> ->]. by destruct HP.
        + destruct (exists_last Hne) as (l2' & z & ->). rewrite app_comm_cons, app_assoc in E. apply app_inj_tail in E as [-> ->].
          exists l1, l2'. split; [done|]. split; [done|]. intros y' Hy'. apply Hl2. apply elem_of_app. by left.
      - intros s i t. rewrite A11. split; (intros [?|(-> & y & Hy & Hr)]; [by left|right; split; [done|]]).
        + exists y. split; [apply elem_of_app; by left|done].
        + apply elem_of_app in Hy as [Hy| ->%elem_of_list_singleton]; [by exists y|]. by destruct Hr. }
    assert (question_or_answer x) as Hq by (apply post_kind_some; rewrite Hk; by eexists).
    set (k0 := default (new_rowid (posts st')) (key st' site (xp_id x))).
    set (row := PostRow site kind x).
    assert (posts st' !! k0 = None \/ (exists r, posts st' !! k0 = Some r /\ po_site r = site /\ xp_id (po_x r) = xp_id x)) as Hk0.
    { unfold k0. destruct (key st' site (xp_id x)) as [k|] eqn:E; cbn; [|left; apply new_rowid_fresh].
      right. by apply (find_post_some st' _ _ _ A1). }
    assert (forall k r, posts st' !! k = Some r -> po_site r = site -> xp_id (po_x r) = xp_id x -> k = k0) as Huniq.
    { intros k r Hr H1 H2. assert (key st' site (xp_id x) = Some k) as E by (apply (find_post_some st' _ _ _ A1); eauto).
      unfold k0. by rewrite E. }
    match goal with |- added _ _ ?s => set (st2 := s) end.
    assert (posts st2 = <[k0 := row]> (posts st')) as Hp2 by done.
    assert (sx_inv st2) as Hi2.
    { split.
      - intros k k' r r' Hr Hr' H1 H2. rewrite Hp2 in Hr, Hr'.
        destruct (decide (k = k0)) as [->|Hn], (decide (k' = k0)) as [->|Hn']; [done| | |].
        + rewrite lookup_insert in Hr. rewrite lookup_insert_ne in Hr' by done. injection Hr as <-. symmetry. cbn in H1, H2. by eapply Huniq.
        + rewrite lookup_insert in Hr'. rewrite lookup_insert_ne in Hr by done. injection Hr' as <-. cbn in H1, H2. by eapply Huniq.
        + rewrite lookup_insert_ne in Hr by done. rewrite lookup_insert_ne in Hr' by done. eapply (si_posts st' A1); eauto.
      - intros k r Hr. cbn. rewrite Hp2 in Hr. destruct (decide (k = k0)) as [->|Hn].
        + rewrite lookup_insert in Hr. injection Hr as <-. cbn. by rewrite A2.
        + rewrite lookup_insert_ne in Hr by done. by eapply (si_sites st' A1).
      - apply A1. }
    assert (key st2 site (xp_id x) = Some k0) as Hkx.
    { apply (find_post_some st2 _ _ _ Hi2). exists row. rewrite Hp2, lookup_insert. done. }
    assert (forall s i k, (s, i) ≠ (site, xp_id x) -> key st2 s i = Some k <-> key st' s i = Some k) as Hko.
    { intros s i k Hne. rewrite (find_post_some st2 _ _ _ Hi2), (find_post_some st' _ _ _ A1), Hp2. split.
      - intros (r & Hr & H1 & H2). destruct (decide (k = k0)) as [->|Hn].
        + rewrite lookup_insert in Hr. injection Hr as <-. cbn in H1, H2. congruence.
        + rewrite lookup_insert_ne in Hr by done. eauto.
      - intros (r & Hr & H1 & H2). exists r. split; [|done]. rewrite lookup_insert_ne; [done|]. intros <-.
        destruct Hk0 as [H0|(r0 & H0 & H3 & H4)]; [congruence|]. assert (r0 = r) as -> by congruence. congruence. }
    split; try done.
    - intros s i k Hs. apply A5 in Hs. destruct (decide ((s, i) = (site, xp_id x))) as [[= -> ->]|Hne]; [|by apply Hko].
      rewrite Hkx. unfold k0. by rewrite Hs.
    - intros s i k Hs. destruct (decide ((s, i) = (site, xp_id x))) as [[= -> ->]|Hne].
      + rewrite Hkx in Hs. injection Hs as <-.
        assert (forall y, y = x -> y ∈ xs ++ [x]) as Hin by (intros y ->; apply elem_of_app; right; by apply elem_of_list_singleton).
        destruct (key st' site (xp_id x)) as [k|] eqn:E.
        * assert (k0 = k) as -> by (unfold k0; by try rewrite E). destruct (A6 site (xp_id x) k E) as [?|(_ & Hn & _)]; [by left|right].
          split; [done|]. split; [done|]. exists x. auto.
        * right. split; [done|]. split; [|exists x; auto].
          destruct (posts st !! k0) as [r|] eqn:Er; [|done]. exfalso.
          assert (key st (po_site r) (xp_id (po_x r)) = Some k0) as Hs' by (apply (find_post_some st _ _ _ Hi); eauto).
          apply A5 in Hs'. apply (find_post_some st' _ _ _ A1) in Hs' as (r' & Hr' & _).
          assert (k0 = new_rowid (posts st')) as Ek by (unfold k0; by try rewrite E).
          rewrite Ek, new_rowid_fresh in Hr'. done.
      + apply (Hko _ _ _ Hne) in Hs. destruct (A6 s i k Hs) as [?|(-> & ? & y & Hy & ?)]; [by left|right].
        split; [done|]. split; [done|]. exists y. split; [apply elem_of_app; by left|done].
    - intros y [Hy|Hy]%elem_of_app Hqy.
      + destruct (A7 y Hy Hqy) as [k Hky]. destruct (decide (xp_id y = xp_id x)) as [->|Hne]; [rewrite Hkx; by eexists|].
        exists k. apply Hko; [congruence|done].
      + apply elem_of_list_singleton in Hy as ->. rewrite Hkx. by eexists.
    - intros i k Hs Hno. assert (i ≠ xp_id x) as Hne.
      { intros ->. apply (Hno x); [apply elem_of_app; right; by apply elem_of_list_singleton|done|done]. }
      apply Hko in Hs as Hs'; [|congruence]. rewrite Hp2. rewrite lookup_insert_ne.
      + apply (A8 i); [done|]. intros y Hy. apply Hno. apply elem_of_app. by left.
      + intros ->. apply (find_post_some st' _ _ _ A1) in Hs' as (r & Hr & H1 & H2).
        destruct Hk0 as [H0|(r0 & H0 & H3 & H4)]; congruence.
    - intros i k y Hs (l1 & l2 & E & [HP Hid] & Hl2). destruct (decide (l2 = [])) as [->|Hne].
      + apply app_inj_tail in E as [_ ->]. subst i. rewrite Hkx in Hs. injection Hs as <-.
        exists kind. split; [done|]. by rewrite Hp2, lookup_insert.
      + destruct (exists_last Hne) as (l2' & z & ->). rewrite app_comm_cons, app_assoc in E. apply app_inj_tail in E as [-> ->].
        assert (i ≠ xp_id z) as Hiz.
        { intros ->. apply (Hl2 z); [apply elem_of_app; right; by apply elem_of_list_singleton|done]. }
        apply Hko in Hs as Hs'; [|congruence].
        destruct (A9 i k y Hs') as (kd & H1 & H2).
        { exists l1, l2'. split; [done|]. split; [done|]. intros y' Hy'. apply Hl2. apply elem_of_app. by left. }
        exists kd. split; [done|]. rewrite Hp2, lookup_insert_ne; [done|]. intros ->.
        apply (find_post_some st' _ _ _ A1) in Hs' as (r & Hr & H3 & H4).
        destruct Hk0 as [H0|(r0 & H0 & H5 & H6)]; congruence.
    - intros k r Hne. rewrite Hp2. rewrite <- (A10 k r Hne). destruct (decide (k = k0)) as [->|Hn].
      + rewrite lookup_insert. split; [intros [= <-]; done|]. intros Hr. destruct Hk0 as [H0|(r0 & H0 & H5 & H6)]; congruence.
      + by rewrite lookup_insert_ne.
    - intros s i t. cbn. rewrite elem_of_union, elem_of_list_to_set, elem_of_list_fmap, A11. split.
      + intros [(t' & [= -> -> ->] & Ht)|[?|(-> & y & Hy & Hr)]]; [right|by left|right]; (split; [done|]).
        * exists x. split; [apply elem_of_app; right; by apply elem_of_list_singleton|done].
        * exists y. split; [apply elem_of_app; by left|done].
      + intros [?|(-> & y & [Hy|Hy]%elem_of_app & H1 & H2 & H3)]; [right; by left|right; right|left].
        * split; [done|]. by exists y.
        * apply elem_of_list_singleton in Hy as ->. exists t. by subst i.
  Qed.

  Lemma add_posts_ok xs st : sx_inv st -> is_Some (sites st !! site) -> added xs st (foldl (add_post site) st xs).
  Proof.
    intros Hi Hs. induction xs as [|x xs IH] using rev_ind; [by apply added_nil|].
    rewrite foldl_app. cbn. by apply added_snoc.
  Qed.
End add_posts.

Lemma rfold_ok_all {A S} (f : S -> A -> S) (l : list (res A)) (st st' : S) :
  rfold (fun st r => rmap (f st) r) l st = Ok st' -> exists xs, l = Ok <$> xs /\ st' = foldl f st xs.
Proof.
  revert st. induction l as [|[x|e] l IH]; intros st H; cbn in H.
  - injection H as <-. by exists [].
  - apply IH in H as (xs & -> & ->). by exists (x :: xs).
  - done.
Qed.
Lemma rfold_all_ok {A S} (f : S -> A -> S) (xs : list A) (st : S) :
  rfold (fun st r => rmap (f st) r) (Ok <$> xs) st = Ok (foldl f st xs).
Proof. revert st. induction xs as [|x xs IH]; intros st; [done|]. cbn. apply IH. Qed.

Lemma filter_all {A} (P : A -> Prop) `{forall x, Decision (P x)} (l : list A) : (forall x, x ∈ l -> P x) -> filter P l = l.
Proof.
  induction l as [|x l IH]; intros Hl; [done|]. rewrite filter_cons_True by (apply Hl; by left). f_equal. apply IH. intros; apply Hl; by right.
Qed.

(** ** Rows replaced by key *)
Section replacing.
  Context {A : Type} (key : A -> N * option Z).
  Definition replace_rows (l xs : list A) : list A := foldl (fun l x => replace_row key x l) l xs.
  (** Keyed rows of [xs] replace those of the list. *)
  Definition fresh_key (xs : list A) (y : A) : Prop := (key y).2 = None \/ key y ∉ key <$> xs.
  #[global] Instance fresh_key_dec xs y : Decision (fresh_key xs y).
  Proof. unfold fresh_key. apply _. Defined.

  Lemma replace_rows_split xs l : replace_rows l xs = filter (fresh_key xs) l ++ replace_rows [] xs.
  Proof.
    induction xs as [|x xs IH] using rev_ind.
    - cbn. rewrite app_nil_r. symmetry. apply filter_all. intros y _. right. by intros ?%elem_of_nil.
    - unfold replace_rows in *. rewrite !foldl_app. cbn. rewrite IH. clear IH. set (g := foldl _ [] xs).
      unfold replace_row. destruct ((key x).2) as [i|] eqn:E.
      + rewrite filter_app, <- app_assoc. f_equal. rewrite list_filter_filter. apply list_filter_iff. intros y.
        unfold fresh_key. rewrite fmap_app, elem_of_app. cbn. rewrite elem_of_list_singleton. split.
        * intros [H1 [H2|H2]]; [by left|right; tauto].
        * intros [H|H]; [split; [|by left]; intros Hy; rewrite Hy in H; congruence|split; [|right]; tauto].
      + rewrite <- app_assoc. f_equal. apply list_filter_iff. intros y. unfold fresh_key.
        rewrite fmap_app, elem_of_app. cbn. rewrite elem_of_list_singleton. split.
        * intros [?|?]; [by left|]. destruct ((key y).2) eqn:E2; [|by left]. right. intros [?|Hy]; [done|]. congruence.
        * intros [?|?]; [by left|right; tauto].
  Qed.

  Lemma replace_rows_from xs y : y ∈ replace_rows [] xs -> y ∈ xs.
  Proof.
    induction xs as [|x xs IH] using rev_ind; [done|]. unfold replace_rows in *. rewrite foldl_app. cbn. unfold replace_row.
    rewrite (elem_of_app xs). destruct ((key x).2) as [i|].
    - rewrite elem_of_app, elem_of_list_filter. intros [[_ ?]|?]; auto.
    - rewrite elem_of_app. intros [?|?]; auto.
  Qed.

  (** Replacing twice by the same rows differs only by rows without a key. *)
  Lemma replace_rows_twice xs l : exists nulls, (forall y, y ∈ nulls -> (key y).2 = None /\ y ∈ xs) /\
    replace_rows (replace_rows l xs) xs = filter (fresh_key xs) l ++ nulls ++ replace_rows [] xs.
  Proof.
    exists (filter (fresh_key xs) (replace_rows [] xs)). split.
    - intros y [Hf Hy]%elem_of_list_filter. apply replace_rows_from in Hy. split; [|done].
      destruct Hf as [?|Hf]; [done|]. exfalso. apply Hf. apply elem_of_list_fmap. eauto.
    - rewrite (replace_rows_split xs (replace_rows l xs)), (replace_rows_split xs l), filter_app, <- app_assoc. f_equal.
      rewrite list_filter_filter. apply list_filter_iff. tauto.
  Qed.
End replacing.

Lemma find_app {A} (f : A -> bool) l1 l2 : List.find f (l1 ++ l2) = match List.find f l1 with Some x => Some x | None => List.find f l2 end.
Proof. induction l1 as [|x l1 IH]; [done|]. cbn. by destruct (f x). Qed.
Lemma find_nothing {A} (f : A -> bool) l : (forall x, x ∈ l -> f x = false) -> List.find f l = None.
Proof. induction l as [|x l IH]; intros H; [done|]. cbn. rewrite H by (by left). apply IH. intros; apply H; by right. Qed.
Lemma find_filter {A} (f : A -> bool) (P : A -> Prop) `{forall x, Decision (P x)} l :
  (forall x, f x = true -> P x) -> List.find f (filter P l) = List.find f l.
Proof.
  intros HP. induction l as [|x l IH]; [done|]. rewrite filter_cons. cbn. destruct (decide (P x)) as [Hx|Hx]; cbn.
  - by rewrite IH.
  - destruct (f x) eqn:E; [by apply HP in E|done].
Qed.

(** ** A whole dump *)
Lemma foldl_comments site cs st : foldl (add_comment site) st cs =
  Sx (sites st) (posts st) (post_tags st) (replace_rows comment_key (comments st) (CommentRow site <$> cs)) (users st).
Proof. revert st. induction cs as [|c cs IH]; intros st; [by destruct st|]. cbn. rewrite IH. done. Qed.
Lemma foldl_users site us st : foldl (add_user site) st us =
  Sx (sites st) (posts st) (post_tags st) (comments st) (replace_rows user_key (users st) (UserRow site <$> us)).
Proof. revert st. induction us as [|c us IH]; intros st; [by destruct st|]. cbn. rewrite IH. done. Qed.

Lemma oks_snoc {A} (l : list (res A)) y xs : l ++ [Ok y] = Ok <$> xs -> exists xs', xs = xs' ++ [y] /\ l = Ok <$> xs'.
Proof.
  destruct xs as [|x xs _] using rev_ind; [by destruct l|]. rewrite fmap_app. cbn. intros [-> [= ->]]%app_inj_tail. eauto.
Qed.

Record dumped (url : string) (ps : list x_post) (cs : list x_comment) (us : list x_user) (site : N) (st st1 st' : sx) : Prop := {
  du_site : ensure_site url st = (st1, site);
  du_added : added site ps st1 (foldl (add_post site) st1 ps);
  du_sites : sites st' = sites st1;
  du_posts : posts st' = posts (foldl (add_post site) st1 ps);
  du_tags : post_tags st' = post_tags (foldl (add_post site) st1 ps);
  du_comments : comments st' = replace_rows comment_key (comments st) (CommentRow site <$> cs ++ [root_comment]);
  du_users : users st' = replace_rows user_key (users st) (UserRow site <$> us ++ [root_user]) }.

Lemma read_dump_ok url du st st' : sx_inv st -> read_dump url du st = Ok st' ->
  exists ps cs us site st1, d_posts du = Ok <$> ps /\ d_comments du = Ok <$> cs /\ d_users du = Ok <$> us /\
    dumped url ps cs us site st st1 st'.
Proof.
  intros Hi. unfold read_dump. destruct (ensure_site_ok url st Hi) as (st1 & site & E & Hi1 & Hs & H1 & H2 & H3 & H4 & _). rewrite E.
  intros H. destruct (rfold _ (d_posts du) st1) as [st2|e] eqn:E1; [|done]. cbn [rbind] in H.
  destruct (rfold _ (d_comments du ++ _) st2) as [st3|e] eqn:E2; [|done]. cbn [rbind] in H.
  apply rfold_ok_all in E1 as (ps & Hps & ->). apply rfold_ok_all in E2 as (cs' & Hcs & ->). apply rfold_ok_all in H as (us' & Hus & ->).
  apply oks_snoc in Hcs as (cs & -> & Hcs). apply oks_snoc in Hus as (us & -> & Hus).
  pose proof (add_posts_ok site ps st1 Hi1 (ex_intro _ _ Hs)) as A.
  exists ps, cs, us, site, st1. split_and!; [done..|]. rewrite foldl_comments, foldl_users. cbn.
  split; cbn; try done; [apply A| |].
  - rewrite (ad_comments _ _ _ _ A). by rewrite H3.
  - rewrite (ad_users _ _ _ _ A). by rewrite H4.
Qed.
Lemma read_dump_all url ps cs us st : sx_inv st ->
  exists st', read_dump url (Dump (Ok <$> ps) (Ok <$> cs) (Ok <$> us)) st = Ok st'.
Proof.
  intros Hi. unfold read_dump. destruct (ensure_site url st) as [st1 site]. cbn [d_posts d_comments d_users].
  rewrite rfold_all_ok. cbn [rbind]. replace ((Ok <$> cs) ++ [Ok root_comment]) with (Ok <$> (cs ++ [root_comment])) by by rewrite fmap_app.
  rewrite rfold_all_ok. cbn [rbind]. replace ((Ok <$> us) ++ [Ok root_user]) with (Ok <$> (us ++ [root_user])) by by rewrite fmap_app.
  rewrite rfold_all_ok. by eexists.
Qed.

Lemma dumped_inv url ps cs us site st st1 st' : dumped url ps cs us site st st1 st' -> sx_inv st'.
Proof.
  intros [H1 A H2 H3 H4 _ _]. destruct (ad_inv _ _ _ _ A) as [I1 I2 I3]. rewrite (ad_sites _ _ _ _ A) in I2, I3.
  split; [rewrite H3; apply I1|rewrite H3, H2; apply I2|rewrite H2; apply I3].
Qed.
Lemma empty_inv : sx_inv empty_sx.
Proof. split; cbn; intros; by rewrite lookup_empty in *. Qed.
Lemma reachable_inv st : sx_reachable st -> sx_inv st.
Proof.
  induction 1 as [|url du st _ IH]; [apply empty_inv|]. unfold add_site_data.
  destruct (read_dump url du st) as [st'|e] eqn:E; [|done]. cbn.
  apply (read_dump_ok _ _ _ _ IH) in E as (ps & cs & us & site & st1 & _ & _ & _ & D). by eapply dumped_inv.
Qed.

(** The key of a post of a site given by its address. *)
Lemma identifies_key st k url id s : sx_inv st -> sites st !! s = Some url -> identifies st k url id <-> key st s id = Some k.
Proof.
  intros Hi Hs. rewrite (find_post_some st s id k Hi). unfold identifies. split.
  - intros (r & Hr & H1 & H2). exists r. split; [done|]. split; [|done]. by eapply (si_urls st Hi).
  - intros (r & Hr & <- & H2). eauto.
Qed.
Lemma identifies_unique st k k' url id : sx_inv st -> identifies st k url id -> identifies st k' url id -> k = k'.
Proof.
  intros Hi (r & Hr & H1 & H2) (r' & Hr' & H1' & H2'). eapply (si_posts st Hi); [done..| |congruence]. by eapply (si_urls st Hi).
Qed.
Lemma identifies_site st k url id : identifies st k url id -> exists s, sites st !! s = Some url.
Proof. intros (r & _ & H & _). eauto. Qed.

Section dumped.
  Context url ps cs us site st st1 st' (Hi : sx_inv st) (D : dumped url ps cs us site st st1 st').

  Lemma d_st1 : sx_inv st1 /\ sites st1 !! site = Some url /\ posts st1 = posts st /\ post_tags st1 = post_tags st /\
    (forall j u, sites st1 !! j = Some u <-> sites st !! j = Some u \/ (j = site /\ u = url)) /\ (forall j, sites st !! j = Some url -> j = site).
  Proof.
    destruct (ensure_site_ok url st Hi) as (s1 & i & E & ? & ? & ? & ? & _ & _ & ? & _ & ?).
    rewrite (du_site _ _ _ _ _ _ _ _ D) in E. injection E as <- <-. done.
  Qed.
  Lemma d_key1 s i : key st1 s i = key st s i.
  Proof. destruct d_st1 as (_ & _ & E & _). unfold find_post. by rewrite E. Qed.
  Lemma d_key2 s i : key st' s i = find_post (posts (foldl (add_post site) st1 ps)) s i.
  Proof. by rewrite (du_posts _ _ _ _ _ _ _ _ D). Qed.
  Lemma d_site' : sites st' !! site = Some url.
  Proof. rewrite (du_sites _ _ _ _ _ _ _ _ D). by destruct d_st1 as (_ & ? & _). Qed.
  Lemma d_sites' j u : sites st' !! j = Some u <-> sites st !! j = Some u \/ (j = site /\ u = url).
  Proof. rewrite (du_sites _ _ _ _ _ _ _ _ D). destruct d_st1 as (_ & _ & _ & _ & H & _). apply H. Qed.

  Lemma dumped_kept k u i : identifies st k u i -> identifies st' k u i.
  Proof.
    intros Hid. destruct (identifies_site _ _ _ _ Hid) as [s Hs]. apply (identifies_key st k u i s Hi Hs) in Hid.
    apply (identifies_key st' k u i s (dumped_inv _ _ _ _ _ _ _ _ D)); [apply d_sites'; by left|].
    rewrite d_key2. apply (ad_kept _ _ _ _ (du_added _ _ _ _ _ _ _ _ D)). by rewrite d_key1.
  Qed.
  Lemma dumped_new k u i : identifies st' k u i -> identifies st k u i \/
    (u = url /\ posts st !! k = None /\ exists x, x ∈ ps /\ question_or_answer x /\ xp_id x = i).
  Proof.
    intros Hid. destruct (identifies_site _ _ _ _ Hid) as [s Hs]. apply (identifies_key st' k u i s (dumped_inv _ _ _ _ _ _ _ _ D) Hs) in Hid.
    rewrite d_key2 in Hid. apply (ad_new _ _ _ _ (du_added _ _ _ _ _ _ _ _ D)) in Hid. rewrite d_key1 in Hid.
    destruct d_st1 as (_ & _ & Hp & _). rewrite Hp in Hid. destruct Hid as [Hid|(-> & H1 & H2)].
    - left. apply (find_post_some st _ _ _ Hi) in Hid as (r & Hr & H1 & H2). exists r. split; [done|]. split; [|done].
      destruct (si_sites st Hi k r Hr) as [u' Hu']. rewrite H1 in *. assert (sites st' !! s = Some u') by (apply d_sites'; by left). congruence.
    - right. split; [|done]. pose proof d_site'. congruence.
  Qed.
  Lemma dumped_there x : x ∈ ps -> question_or_answer x -> exists k, identifies st' k url (xp_id x).
  Proof.
    intros Hx Hq. destruct (ad_there _ _ _ _ (du_added _ _ _ _ _ _ _ _ D) x Hx Hq) as [k Hk]. rewrite <- d_key2 in Hk.
    exists k. by apply (identifies_key st' _ _ _ site (dumped_inv _ _ _ _ _ _ _ _ D) d_site').
  Qed.

  (** The row stored for a post of the dump: the last one with its id. *)
  Lemma dumped_last x k : last_such (fun y => question_or_answer y /\ xp_id y = xp_id x) ps x -> identifies st' k url (xp_id x) ->
    exists kind, post_kind x = Some kind /\ posts st' !! k = Some (PostRow site kind x).
  Proof.
    intros Hl Hid. apply (identifies_key st' _ _ _ site (dumped_inv _ _ _ _ _ _ _ _ D) d_site') in Hid. rewrite d_key2 in Hid.
    rewrite (du_posts _ _ _ _ _ _ _ _ D). by eapply (ad_last _ _ _ _ (du_added _ _ _ _ _ _ _ _ D)).
  Qed.

  (** Everything of the other sites is as before. *)
  Lemma dumped_other_row k r : po_site r ≠ site -> posts st' !! k = Some r <-> posts st !! k = Some r.
  Proof.
    intros Hne. rewrite (du_posts _ _ _ _ _ _ _ _ D), (ad_others _ _ _ _ (du_added _ _ _ _ _ _ _ _ D) k r Hne).
    destruct d_st1 as (_ & _ & -> & _). done.
  Qed.
  Lemma dumped_tags s i t : (s, i, t) ∈ post_tags st' <-> (s, i, t) ∈ post_tags st \/
      (s = site /\ exists x, x ∈ ps /\ question_or_answer x /\ xp_id x = i /\ t ∈ split_tags (default "" (xp_tags x))).
  Proof.
    rewrite (du_tags _ _ _ _ _ _ _ _ D), (ad_tags _ _ _ _ (du_added _ _ _ _ _ _ _ _ D)). destruct d_st1 as (_ & _ & _ & -> & _). done.
  Qed.
  Lemma dumped_other_comments s i : s ≠ site -> comments_of st' s i = comments_of st s i.
  Proof.
    intros Hne. unfold comments_of. rewrite (du_comments _ _ _ _ _ _ _ _ D), replace_rows_split, filter_app.
    rewrite list_filter_filter. rewrite (list_filter_iff _ (fun r => co_site r = s /\ xc_post (co_x r) = Some i)).
    - assert (filter (fun r => co_site r = s /\ xc_post (co_x r) = Some i) (replace_rows comment_key [] (CommentRow site <$> cs ++ [root_comment])) = []) as ->; [|by rewrite app_nil_r].
      apply elem_of_nil_inv. intros y [[Hy _] Hin]%elem_of_list_filter. apply replace_rows_from in Hin.
      apply elem_of_list_fmap in Hin as (c & -> & _). by cbn in Hy.
    - intros y. split; [by intros [? ?]|]. intros [H1 H2]. split; [done|]. right. intros (c & Hc & Hin)%elem_of_list_fmap.
      apply elem_of_list_fmap in Hin as (c' & -> & _). unfold comment_key in Hc. cbn in Hc. congruence.
  Qed.
  Lemma dumped_other_names s u : s ≠ site -> display_name st' s u = display_name st s u.
  Proof.
    intros Hne. unfold display_name. destruct u as [u|]; [|done]. rewrite (du_users _ _ _ _ _ _ _ _ D), replace_rows_split, find_app, find_filter.
    - rewrite (find_nothing _ (replace_rows user_key [] _)); [by destruct (List.find _ _)|].
      intros r Hr. apply replace_rows_from in Hr. apply elem_of_list_fmap in Hr as (x & -> & _). apply bool_decide_eq_false.
      unfold user_key. cbn. congruence.
    - intros r Hr%bool_decide_eq_true. right. rewrite Hr. intros (c & Hc & Hin)%elem_of_list_fmap.
      apply elem_of_list_fmap in Hin as (x & -> & _). unfold user_key in Hc. cbn in Hc. congruence.
  Qed.
  Lemma dumped_other_tags s i : s ≠ site -> tags_of st' s i = tags_of st s i.
  Proof.
    intros Hne. unfold tags_of. f_equal. apply set_eq. intros [[s' i'] t]. rewrite !elem_of_filter, dumped_tags. cbn. split.
    - intros [[= -> ->] [?|[? _]]]; [done|congruence].
    - intros [[= -> ->] ?]. auto.
  Qed.
  Lemma dumped_other_get k r : po_site r ≠ site -> posts st !! k = Some r -> sx_get st' k = sx_get st k.
  Proof.
    intros Hne Hr. unfold sx_get. apply (dumped_other_row k r Hne) in Hr as Hr'. rewrite Hr, Hr'.
    destruct (si_sites st Hi k r Hr) as [u Hu]. rewrite Hu.
    assert (sites st' !! po_site r = Some u) as -> by (apply d_sites'; by left).
    rewrite dumped_other_names, dumped_other_tags, dumped_other_comments by done.
    do 3 f_equal. apply list_fmap_ext. intros ? c Hc. apply elem_of_list_lookup_2 in Hc. unfold comments_of in Hc. apply elem_of_list_filter in Hc as [[Hs _] _].
    rewrite dumped_other_names; [done|]. congruence.
  Qed.
End dumped.

Lemma last_such_exists {A} (P : A -> Prop) `{forall x, Decision (P x)} (l : list A) x : x ∈ l -> P x -> exists y, last_such P l y.
Proof.
  induction l as [|z l IH] using rev_ind; [by intros ?%elem_of_nil|]. intros Hx HP. destruct (decide (P z)) as [Hz|Hz].
  - exists z, l, []. split; [done|]. split; [done|]. by intros ? ?%elem_of_nil.
  - apply elem_of_app in Hx as [Hx| ->%elem_of_list_singleton]; [|done]. destruct (IH Hx HP) as (y & l1 & l2 & -> & Hy & Hl).
    exists y, l1, (l2 ++ [z]). split; [by rewrite <- app_assoc|]. split; [done|]. intros w [?|Hw]%elem_of_app; [auto|].
    by apply elem_of_list_singleton in Hw as ->.
Qed.
#[global] Instance question_or_answer_dec x : Decision (question_or_answer x).
Proof. unfold question_or_answer. apply _. Defined.

(** Adding the same dump again. *)
Section again.
  Context url ps cs us site site' st st1 st' st1' st''
    (Hi : sx_inv st) (D : dumped url ps cs us site st st1 st') (D' : dumped url ps cs us site' st' st1' st'').

  Lemma again_same : st1' = st' /\ site' = site.
  Proof.
    pose proof (d_site' _ _ _ _ _ _ _ _ Hi D) as Hs.
    destruct (ensure_site_ok url st' (dumped_inv _ _ _ _ _ _ _ _ D)) as (s1 & i & E & _ & _ & _ & _ & _ & _ & _ & H1 & H2).
    rewrite (du_site _ _ _ _ _ _ _ _ D') in E. injection E as <- <-. apply H2 in Hs as Hs'. rewrite Hs' in Hs. split; [by apply H1|done].
  Qed.

  Lemma again_sites : sites st'' = sites st'.
  Proof. destruct again_same as [E _]. rewrite (du_sites _ _ _ _ _ _ _ _ D'). by rewrite E. Qed.

  Lemma again_posts : posts st'' = posts st'.
  Proof.
    pose proof (dumped_inv _ _ _ _ _ _ _ _ D) as Hi'. pose proof (dumped_inv _ _ _ _ _ _ _ _ D') as Hi''.
    pose proof (d_site' _ _ _ _ _ _ _ _ Hi D) as Hs'. destruct again_same as [E1 E2]. pose proof D' as D2. rewrite E1, E2 in D2.
    pose proof (d_site' _ _ _ _ _ _ _ _ Hi' D2) as Hs''.
    assert (forall k u i, identifies st'' k u i -> identifies st' k u i) as Hback.
    { intros k u i Hid. apply (dumped_new _ _ _ _ _ _ _ _ Hi' D2) in Hid as Hc. destruct Hc as [?|(-> & Hn & x & Hx & Hq & <-)]; [done|]. exfalso.
      destruct (dumped_there _ _ _ _ _ _ _ _ Hi D x Hx Hq) as [k' Hk']. pose proof (dumped_kept _ _ _ _ _ _ _ _ Hi' D2 _ _ _ Hk') as Hk2.
      assert (k = k') as <- by (by eapply (identifies_unique st'')). destruct Hk' as (r & Hr & _). congruence. }
    assert (forall k r, posts st'' !! k = Some r -> posts st' !! k = Some r) as Hsub.
    { intros k r Hr. destruct (decide (po_site r = site)) as [Es|Hne]; [|by apply (dumped_other_row _ _ _ _ _ _ _ _ Hi' D2)].
      assert (identifies st'' k url (xp_id (po_x r))) as Hid by (exists r; rewrite Es; done).
      apply Hback in Hid as Hid'.
      destruct (decide (Exists (fun x => question_or_answer x /\ xp_id x = xp_id (po_x r)) ps)) as [Hex|Hno].
      - apply Exists_exists in Hex as (x & Hx & Hq & Hxi).
        destruct (last_such_exists (fun x => question_or_answer x /\ xp_id x = xp_id (po_x r)) ps x Hx (conj Hq Hxi)) as (y & Hy).
        assert (xp_id y = xp_id (po_x r)) as Eid by (destruct Hy as (? & ? & _ & [_ ?] & _); done). rewrite <- Eid in Hid, Hid', Hy.
        destruct (dumped_last _ _ _ _ _ _ _ _ Hi D y k Hy Hid') as (kd & Hk1 & Hr1).
        destruct (dumped_last _ _ _ _ _ _ _ _ Hi' D2 y k Hy Hid) as (kd' & Hk1' & Hr1'). congruence.
      - apply (identifies_key st'' _ _ _ site Hi'' Hs'') in Hid. rewrite (d_key2 _ _ _ _ _ _ _ _ D2) in Hid.
        rewrite <- (ad_same _ _ _ _ (du_added _ _ _ _ _ _ _ _ D2) (xp_id (po_x r)) k Hid); [by rewrite <- (du_posts _ _ _ _ _ _ _ _ D2)|].
        intros x Hx Hq Ex. apply Hno. apply Exists_exists. eauto. }
    apply map_eq. intros k. destruct (posts st' !! k) as [r|] eqn:Er.
    - destruct (si_sites st' Hi' k r Er) as [u Hu]. assert (identifies st' k u (xp_id (po_x r))) as Hid by (exists r; done).
      apply (dumped_kept _ _ _ _ _ _ _ _ Hi' D2) in Hid as (r' & Hr' & _). apply Hsub in Hr' as Hr2. congruence.
    - destruct (posts st'' !! k) as [r|] eqn:Er'; [|done]. apply Hsub in Er'. congruence.
  Qed.

  Lemma again_tags : post_tags st'' = post_tags st'.
  Proof.
    destruct again_same as [E1 E2]. pose proof D' as D2. rewrite E1, E2 in D2.
    apply set_eq. intros [[s i] t]. rewrite (dumped_tags _ _ _ _ _ _ _ _ (dumped_inv _ _ _ _ _ _ _ _ D) D2). split; [|by left].
    intros [?|Hr]; [done|]. apply (dumped_tags _ _ _ _ _ _ _ _ Hi D). by right.
  Qed.

  Lemma again_names s u : display_name st'' s u = display_name st' s u.
  Proof.
    destruct again_same as [E1 E2]. unfold display_name. destruct u as [u|]; [|done].
    rewrite (du_users _ _ _ _ _ _ _ _ D'), E2, (du_users _ _ _ _ _ _ _ _ D).
    destruct (replace_rows_twice user_key (UserRow site <$> us ++ [root_user]) (users st)) as (nulls & Hn & ->).
    rewrite (replace_rows_split _ _ (users st)), !find_app. rewrite (find_nothing _ nulls); [done|].
    intros r Hr. apply Hn in Hr as [Hr _]. apply bool_decide_eq_false. intros E. rewrite E in Hr. done.
  Qed.
  Lemma again_comments s i : (forall c, c ∈ cs -> is_Some (xc_id c)) -> comments_of st'' s i = comments_of st' s i.
  Proof.
    intros Hc. destruct again_same as [E1 E2]. unfold comments_of.
    rewrite (du_comments _ _ _ _ _ _ _ _ D'), E2, (du_comments _ _ _ _ _ _ _ _ D).
    destruct (replace_rows_twice comment_key (CommentRow site <$> cs ++ [root_comment]) (comments st)) as (nulls & Hn & ->).
    rewrite (replace_rows_split _ _ (comments st)), !filter_app. f_equal. assert (filter (fun r => co_site r = s /\ xc_post (co_x r) = Some i) nulls = []) as ->; [|done].
    apply elem_of_nil_inv. intros r [[_ Hp] Hr]%elem_of_list_filter. apply Hn in Hr as [Hr Hin].
    apply elem_of_list_fmap in Hin as (c & -> & Hin). cbn in Hr, Hp. apply elem_of_app in Hin as [Hin| ->%elem_of_list_singleton]; [|done].
    apply Hc in Hin as [? ?]. congruence.
  Qed.
  Lemma again_get k : (forall c, c ∈ cs -> is_Some (xc_id c)) -> sx_get st'' k = sx_get st' k.
  Proof.
    intros Hc. unfold sx_get. rewrite again_posts, again_sites. destruct (posts st' !! k) as [r|]; [|done].
    destruct (sites st' !! po_site r) as [u|]; [|done]. rewrite again_names. unfold tags_of. rewrite again_tags. rewrite (again_comments _ _ Hc).
    do 3 f_equal. apply list_fmap_ext. intros ? c _. by rewrite again_names.
  Qed.
End again.
