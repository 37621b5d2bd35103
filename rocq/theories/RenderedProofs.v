(** RenderedProofs.v: lemmas about rendered posts. *)
From Verif Require Export SpecRendered StackHistory MarkupProofs.
From stdpp Require Import pretty.

(** ** Texts *)
Lemma harmless_none : harmless "None".
Proof. intros c Hc. cbn in Hc. repeat (apply elem_of_cons in Hc as [->|Hc]; [repeat split; discriminate|]). by apply elem_of_nil in Hc. Qed.
Lemma harmless_column o : (forall s, o = Some s -> harmless s) -> harmless (shown_text_column o).
Proof. destruct o as [s|]; intros H; [by apply H|apply harmless_none]. Qed.
Lemma harmless_string c s : (c ≠ "&"%char /\ c ≠ "<"%char /\ c ≠ ">"%char /\ c ≠ "'"%char /\ c ≠ """"%char) -> harmless s -> harmless (String c s).
Proof. intros Hc Hs x Hx. cbn in Hx. apply elem_of_cons in Hx as [->|Hx]; [done|by apply Hs]. Qed.
Lemma harmless_digit n : (n < 10)%N -> forall s, harmless s -> harmless (String (pretty_N_char n) s).
Proof.
  intros Hn s Hs. apply harmless_string; [|done].
  assert (n = 0 \/ n = 1 \/ n = 2 \/ n = 3 \/ n = 4 \/ n = 5 \/ n = 6 \/ n = 7 \/ n = 8 \/ n = 9)%N as Hc by lia.
  repeat destruct Hc as [->|Hc]; [..|subst n]; cbn; by split_and!.
Qed.
Lemma harmless_empty : harmless "".
Proof. intros c Hc. cbn in Hc. by apply elem_of_nil in Hc. Qed.
Lemma harmless_number_go n : forall s, harmless s -> harmless (pretty_N_go n s).
Proof.
  induction (N.lt_wf_0 n) as [n _ IH]. intros s Hs. destruct (decide (n = 0)%N) as [->|Hn]; [by rewrite pretty_N_go_0|].
  rewrite pretty_N_go_step by lia. apply IH; [apply N.div_lt; lia|]. apply harmless_digit; [|done]. apply N.mod_lt. lia.
Qed.
Lemma harmless_number (z : Z) : harmless (pretty z).
Proof.
  assert (forall p, harmless (pretty (N.pos p))) as Hp.
  { intros p. unfold pretty, pretty_N. destruct (decide _); [done|]. apply harmless_number_go, harmless_empty. }
  destruct z as [|p|p]; [|apply Hp|].
  - intros c Hc. cbn in Hc. apply elem_of_cons in Hc as [->|Hc]; [by split_and!|by apply elem_of_nil in Hc].
  - apply harmless_string; [by split_and!|apply Hp].
Qed.

(** ** The fields of a post, from the dumps *)
Definition last_name (url : string) (h : list (string * dump)) (u : option Z) : option string :=
  match u with
  | None => None
  | Some u => match List.find (fun x => bool_decide (xu_id x = Some u)) (rev (users_in url h)) with Some x => xu_name x | None => None end
  end.
Lemma made_last_name h s url u : sites (made_by h) !! s = Some url -> display_name (made_by h) s u = last_name url h u.
Proof.
  intros Hs. unfold display_name, last_name. destruct u as [u|]; [|done].
  rewrite <- (find_filter _ (fun r => (user_key r).1 = s)) by (intros r Hr%bool_decide_eq_true; by rewrite Hr).
  rewrite (tr_users _ _ (made_tracks h)). unfold at_site. rewrite Hs.
  rewrite <- users_read_find, <- latest_find. generalize (latest xu_id (users_read h url)). intros l.
  induction l as [|x l IH]; [done|]. rewrite fmap_cons. cbn [List.find].
  rewrite (bool_decide_ext (user_key (UserRow s x) = (s, Some u)) (xu_id x = Some u)).
  - destruct (bool_decide (xu_id x = Some u)); [done|apply IH].
  - unfold user_key. cbn. split; [by intros [= ?]|by intros ->].
Qed.
Lemma find_last {A} (P : A -> Prop) `{forall x, Decision (P x)} l x : last_such P l x -> List.find (fun x => bool_decide (P x)) (rev l) = Some x.
Proof.
  intros (l1 & l2 & -> & HP & Hn). rewrite rev_app_distr. cbn [rev]. rewrite !find_app.
  assert (List.find (fun x => bool_decide (P x)) (rev l2) = None) as ->.
  { destruct (List.find _ (rev l2)) as [y|] eqn:E; [|done]. apply List.find_some in E as [Hy Hb]. apply bool_decide_eq_true in Hb.
    rewrite <- in_rev in Hy. apply elem_of_list_In in Hy. by destruct (Hn y Hy). }
  cbn. by rewrite bool_decide_eq_true_2.
Qed.
Lemma last_name_in url h u n : last_name url h u = Some n -> exists x, x ∈ users_in url h /\ xu_name x = Some n.
Proof.
  unfold last_name. destruct u as [u|]; [|done]. destruct (List.find _ _) as [x|] eqn:E; [|done]. intros Hx. exists x. split; [|done].
  apply List.find_some in E as [Hy _]. rewrite <- in_rev in Hy. by apply elem_of_list_In.
Qed.
Lemma named_last url h u n : named url h u n -> last_name url h u = Some n /\ linked_user u ≠ None.
Proof.
  intros (v & x & -> & Hv & Hl & Hn). unfold last_name. rewrite (find_last _ _ _ Hl). split; [done|]. unfold linked_user. by rewrite bool_decide_eq_false_2.
Qed.
Lemma last_unique {A} (P : A -> Prop) l x y : last_such P l x -> last_such P l y -> x = y.
Proof.
  intros (l1 & l2 & -> & HP & Hn) (l3 & l4 & E & HP' & Hn'). apply app_eq_inv in E as [(m & E1 & E2)|(m & E1 & E2)].
  - destruct m as [|z m]; [by injection E2|]. injection E2 as <- ->. destruct (Hn' x); [|done]. apply elem_of_app. right. by left.
  - destruct m as [|z m]; [by injection E2|]. injection E2 as <- ->. destruct (Hn y); [|done]. apply elem_of_app. right. by left.
Qed.

Lemma made_fields h url id k x : identifies (made_by h) k url id -> last_such (fun y => question_or_answer y /\ xp_id y = id) (posts_in url h) x ->
  exists f, sx_fields_of (made_by h) k = Ok f /\ sf_url f = url /\ sf_owner f = xp_owner x /\
    sf_name f = last_name url h (xp_owner x) /\ sf_license f = xp_license x /\ (sf_type f = "Question" \/ sf_type f = "Answer") /\
    sf_body f = xp_body x /\ (forall t, t ∈ sf_tags f <-> tagged url h (default (xp_id x) (xp_parent x)) t) /\
    sf_comments f = (fun c => (xc_user c, last_name url h (xc_user c), xc_text c, xc_license c)) <$> comments_on url h x /\
    (forall t, titled url h x t -> sf_title f = Some t).
Proof.
  intros Hid Hl. destruct (made_document h url id k Hid) as (x' & doc & Hl' & Hdoc & Hof).
  assert (x' = x) as -> by (by eapply last_unique). clear Hl'.
  pose proof (made_tracks h) as T. pose proof (tr_inv _ _ T) as Hi. set (st := made_by h) in *.
  destruct (identifies_site _ _ _ _ Hid) as [s Hs]. apply (identifies_key st k url id s Hi Hs) in Hid as Hk.
  destruct (tr_last _ _ T k s id x Hk) as (kind & Hkind & Hrow); [unfold at_site; by rewrite Hs|].
  unfold sx_fields_of. rewrite Hrow. cbn [po_site po_x po_kind]. rewrite Hs. eexists. split; [reflexivity|].
  cbn [sf_url sf_owner sf_name sf_license sf_type sf_body sf_tags sf_comments sf_title]. split_and!; try done.
  - by apply made_last_name.
  - unfold post_kind in Hkind. destruct Hl as (_ & _ & _ & [[E|E] _] & _); rewrite E in Hkind; injection Hkind as <-; [by left|by right].
  - intros t. destruct Hof as (_ & _ & _ & _ & _ & _ & _ & Ht & _). rewrite <- Ht.
    unfold document, sx_get in Hdoc. rewrite Hrow in Hdoc. cbn [po_site po_x po_kind] in Hdoc. rewrite Hs in Hdoc. by injection Hdoc as <-.
  - unfold comments_of, comments_on. rewrite (list_filter_iff _ (fun r => xc_post (co_x r) = Some (xp_id x) /\ (comment_key r).1 = s)) by (intros r'; unfold comment_key; cbn; tauto).
    rewrite <- list_filter_filter, (tr_comments _ _ T). unfold at_site. rewrite Hs. rewrite filter_fmap. cbn [co_x].
    rewrite comments_read_latest, <- list_fmap_compose. apply list_fmap_ext. intros ? c _. cbn. do 2 f_equal. f_equal. by apply made_last_name.
  - intros t [Ht|p y Ht Hp Hy Hyt]; [by rewrite Ht|]. rewrite Ht, Hp.
    destruct (tr_there _ _ T s y) as [kq Hkq]; [unfold at_site; rewrite Hs; destruct Hy as (l1 & l2 & -> & _); apply elem_of_app; right; by left|by destruct Hy as (? & ? & _ & [? _] & _)|].
    assert (xp_id y = p) as Ey by (by destruct Hy as (? & ? & _ & [_ ?] & _)). rewrite Ey in Hkq.
    destruct (tr_last _ _ T kq s p y Hkq) as (kind' & _ & Hrow'); [unfold at_site; by rewrite Hs|].
    rewrite Hkq, Hrow'. done.
Qed.

(** ** What is seen of a post, apart from its title and comments *)
Lemma sees_body s a : complete s -> sees (At InText) (Raw s :: a) (shown_text s).
Proof.
  intros Hc. apply (sees_left (At InText) [Raw s] a). exists "", "". unfold scans. cbn [render piece_text]. rewrite app_nil_string.
  unfold shown_text, reads. unfold complete in Hc. destruct (scan (At InText) s) as [l m]. cbn in Hc. subst m. cbn [fst at_end].
  rewrite app_nil_r, app_empty_string, app_nil_string. done.
Qed.
Ltac plain_parts :=
  lazymatch goal with Hp : plain_post ?p |- _ =>
    let Hm := fresh "Hm" in let Ho := fresh "Ho" in let Hcs := fresh "Hcs" in let Hu := fresh "Hu" in
    destruct Hp as [Hm Ho Hb Hcs Hu]; destruct p as [ti ty si li lc ow na bo tg co];
    cbn [rp_title rp_type rp_site rp_link rp_license rp_owner rp_name rp_body rp_tags rp_comments] in *;
    unfold post_template; cbn [rp_title rp_type rp_site rp_link rp_license rp_owner rp_name rp_body rp_tags rp_comments];
    pose proof Hb as Hbody; unfold complete in Hb;
    assert (H1 : harmless ty) by (apply Hm; cbn; set_solver); assert (H2 : harmless si) by (apply Hm; cbn; set_solver);
    assert (H3 : harmless li) by (apply Hm; cbn; set_solver); assert (H4 : harmless lc) by (apply Hm; cbn; set_solver);
    assert (H5 : harmless na) by (apply Hm; cbn; set_solver);
    assert (H6 : forall u, ow = Some u -> harmless (si +:+ "/users/" +:+ u)%string) by
      (let u := fresh in intros u ?; apply harmless_app; [done|]; apply harmless_app; [apply harmless_users|by apply Ho]);
    assert (Htg : forall t, t ∈ tg -> harmless t) by (intros ? ?; apply Hm; cbn; set_solver); clear Hm
  end.
Lemma post_sees_name p : plain_post p -> is_Some (rp_owner p) -> sees (At InText) (post_template p) (rp_name p).
Proof.
  intros Hp Hs. plain_parts. destruct Hs as [v ->]. specialize (H6 v eq_refl).
  eapply sees_past; [solve [raw_pieces assumption]|].
  apply sees_left. eapply sees_lit; [vm_compute; reflexivity|]. apply sees_skip_plain; [done|]. eapply sees_lit; [vm_compute; reflexivity|].
  by apply sees_plain.
Qed.
Lemma post_sees_body p : plain_post p -> sees (At InText) (post_template p) (shown_text (rp_body p)).
Proof.
  intros Hp. plain_parts.
  eapply sees_past; [solve [raw_pieces assumption]|].
  lazymatch goal with |- sees ?m (_ ++ _) _ => apply (sees_past m _ _ m) end.
  { destruct ow as [u|]; [specialize (H6 u eq_refl)|]; raw_pieces assumption. }
  apply sees_left. eapply sees_lit; [vm_compute; reflexivity|]. by apply sees_body.
Qed.
Lemma post_sees_tag p w : plain_post p -> w ∈ rp_tags p -> sees (At InText) (post_template p) w.
Proof.
  intros Hp Hin. plain_parts.
  eapply sees_past; [solve [raw_pieces assumption]|].
  lazymatch goal with |- sees ?m (_ ++ _) _ => apply (sees_past m _ _ m) end.
  { destruct ow as [u|]; [specialize (H6 u eq_refl)|]; raw_pieces assumption. }
  eapply sees_past; [solve [raw_pieces assumption]|].
  apply sees_left. refine (sees_each _ _ _ w _ _ Hin _).
  - intros t' Ht'. specialize (Htg t' Ht'). raw_pieces assumption.
  - eapply sees_lit; [vm_compute; reflexivity|]. apply sees_plain, Htg, Hin.
Qed.

Lemma post_sees_remark_name p c : plain_post p -> c ∈ rp_comments p -> is_Some (pc_user c) -> sees (At InText) (post_template p) (pc_name c).
Proof.
  intros Hp Hc Hv. plain_parts.
  assert (Hco : forall c v, c ∈ co -> pc_user c = Some v -> harmless (pc_site c +:+ "/users/" +:+ v)%string).
  { intros d w Hin Hw. apply harmless_app; [eapply Hcs; [exact Hin|set_solver]|]. apply harmless_app; [apply harmless_users|by eapply Hu]. }
  assert (Hcomment : forall c, c ∈ co -> harmless (pc_license c) /\ harmless (pc_name c)).
  { intros d Hin. split; (eapply Hcs; [exact Hin|set_solver]). }
  clear Hcs Hu.
  eapply sees_past; [solve [raw_pieces assumption]|].
  lazymatch goal with |- sees ?m (_ ++ _) _ => apply (sees_past m _ _ m) end.
  { destruct ow as [u|]; [specialize (H6 u eq_refl)|]; raw_pieces assumption. }
  eapply sees_past; [solve [raw_pieces assumption]|].
  lazymatch goal with |- sees ?m (_ ++ _) _ => apply (sees_past m _ _ m) end.
  { apply alike_each_same; intros t Ht; specialize (Htg t Ht); raw_pieces assumption. }
  eapply sees_past; [solve [raw_pieces assumption]|].
  apply sees_left. refine (sees_each _ _ _ c _ _ Hc _).
  - intros d Hin. destruct (Hcomment d Hin). specialize (Hco d).
    destruct (pc_user d) as [w|]; [specialize (Hco w Hin eq_refl)|]; raw_pieces assumption.
  - destruct (Hcomment c Hc) as [Hlc Hnc]. destruct Hv as [w Hw]. pose proof (Hco c w Hc Hw) as Hlink. rewrite Hw.
    eapply sees_past; [solve [raw_pieces assumption]|].
    apply sees_left. eapply sees_lit; [vm_compute; reflexivity|]. apply sees_skip_plain; [done|]. eapply sees_lit; [vm_compute; reflexivity|].
    by apply sees_plain.
Qed.

(** ** Plain histories make plain posts *)
Lemma elem_of_latest {A} (id : A -> option Z) l x : x ∈ latest id l -> x ∈ l.
Proof.
  induction l as [|y l IH]; [done|]. cbn. destruct (decide _).
  - intros H. right. by apply IH.
  - intros [->|H]%elem_of_cons; [by left|right; by apply IH].
Qed.
Lemma site_added h url id k : identifies (made_by h) k url id -> url ∈ h.*1.
Proof.
  intros Hid. destruct (made_document h url id k Hid) as (x & _ & (l1 & l2 & E & _) & _).
  assert (x ∈ posts_in url h) as Hx by (rewrite E; apply elem_of_app; right; by left).
  unfold posts_in in Hx. apply elem_of_concat in Hx as (l & Hx & Hl). apply elem_of_list_fmap in Hl as (du & -> & Hdu).
  unfold dumps_of in Hdu. apply elem_of_list_fmap in Hdu as (q & -> & [[<- _] Hq]%elem_of_list_filter). by apply elem_of_list_fmap_1.
Qed.
Lemma linked_harmless u v : linked_user u = Some v -> harmless v.
Proof. unfold linked_user. destruct u as [u|]; [|done]. destruct (bool_decide _); [done|]. intros [= <-]. apply harmless_number. Qed.
Lemma harmless_question : harmless "Question" /\ harmless "Answer" /\ harmless "/questions/".
Proof. split_and!; intros c Hc; cbn in Hc; repeat (apply elem_of_cons in Hc as [->|Hc]; [repeat split; discriminate|]); by apply elem_of_nil in Hc. Qed.
Lemma plain_fields h url id k x f order : plain_history h -> identifies (made_by h) k url id ->
  last_such (fun y => question_or_answer y /\ xp_id y = id) (posts_in url h) x -> sx_fields_of (made_by h) k = Ok f ->
  orders_sets order -> plain_post (template_fields (order k (sf_tags f)) f).
Proof.
  intros Hh Hid Hl Hf Ho. destruct (made_fields h url id k x Hid Hl) as (f' & Hf' & Hurl & Hown & Hname & Hlic & Hty & Hbody & Htags & Hcs & _).
  rewrite Hf in Hf'. injection Hf' as <-.
  assert (x ∈ posts_in url h /\ question_or_answer x) as [Hx Hq] by (destruct Hl as (l1 & l2 & -> & [? _] & _); split; [apply elem_of_app; right; by left|done]).
  destruct (plain_posts h Hh url x Hx Hq) as (P1 & P2 & P3).
  assert (harmless url) as Hu by (by eapply (plain_sites h Hh), site_added).
  assert (forall u, harmless (shown_text_column (last_name url h u))) as Hn.
  { intros u. apply harmless_column. intros n (y & Hy & Hyn)%last_name_in. by eapply (plain_names h Hh). }
  split; unfold template_fields; cbn [rp_title rp_type rp_site rp_link rp_license rp_owner rp_name rp_body rp_tags rp_comments].
  - intros s Hs. apply elem_of_app in Hs as [Hs|Hs].
    + rewrite !elem_of_cons in Hs. destruct Hs as [->|[->|[->|[->|[->|Hs]]]]]; [| | | | |by apply elem_of_nil in Hs].
      * destruct Hty as [-> | ->]; apply harmless_question.
      * by rewrite Hurl.
      * rewrite Hurl. apply harmless_app; [done|]. apply harmless_app; [apply harmless_question|apply harmless_number].
      * rewrite Hlic. by apply harmless_column.
      * rewrite Hname. apply Hn.
    + rewrite (Ho k (sf_tags f)) in Hs. apply elem_of_elements, Htags in Hs as (y & tg & Hy & Hyq & _ & Ht & Hin).
      destruct (plain_posts h Hh url y Hy Hyq) as (_ & _ & H3). by eapply H3.
  - intros u. apply linked_harmless.
  - rewrite Hbody. destruct (xp_body x) as [b|] eqn:Eb; cbn; [by apply P2|reflexivity].
  - intros c s Hc Hs. apply elem_of_list_fmap in Hc as (cc & -> & Hc). rewrite Hcs in Hc. apply elem_of_list_fmap in Hc as (c & -> & Hc).
    cbn in Hs. rewrite !elem_of_cons in Hs. destruct Hs as [->|[->|[->|Hs]]]; [| | |by apply elem_of_nil in Hs].
    + apply harmless_column. intros t Ht. apply elem_of_list_filter in Hc as [_ Hc]. apply elem_of_latest in Hc. by eapply (plain_remarks h Hh).
    + by rewrite Hurl.
    + apply Hn.
  - intros c u Hc Hs. apply elem_of_list_fmap in Hc as (cc & -> & Hc). cbn in Hs. by eapply linked_harmless.
Qed.

(** ** Without the titles and the texts of comments *)
Definition erase_row (r : post_row) : post_row := PostRow (po_site r) (po_kind r) (without_title (po_x r)).
Definition erase_comment (r : comment_row) : comment_row := CommentRow (co_site r) (without_text (co_x r)).
Definition erase (st : sx) : sx := Sx (sites st) (erase_row <$> posts st) (post_tags st) (erase_comment <$> comments st) (users st).
Lemma erase_inv st : sx_inv st -> sx_inv (erase st).
Proof.
  intros [H1 H2 H3]. split; cbn.
  - intros k k' r r' Hr Hr' Hs Hx. rewrite lookup_fmap in Hr, Hr'. apply fmap_Some in Hr as (q & Hq & ->). apply fmap_Some in Hr' as (q' & Hq' & ->). exact (H1 k k' q q' Hq Hq' Hs Hx).
  - intros k r Hr. rewrite lookup_fmap in Hr. apply fmap_Some in Hr as (q & Hq & ->). exact (H2 k q Hq).
  - done.
Qed.
Lemma erase_find st s i : sx_inv st -> find_post (posts (erase st)) s i = find_post (posts st) s i.
Proof.
  intros Hi. pose proof (erase_inv st Hi) as He. apply option_eq. intros k.
  rewrite (find_post_some st s i k Hi), (find_post_some (erase st) s i k He). cbn. split.
  - intros (r & Hr & Hs & Hx). rewrite lookup_fmap in Hr. apply fmap_Some in Hr as (q & Hq & ->). by exists q.
  - intros (r & Hr & Hs & Hx). exists (erase_row r). by rewrite lookup_fmap, Hr.
Qed.
Lemma foldr_max_permutation l l' : l ≡ₚ l' -> foldr N.max 0%N l = foldr N.max 0%N l'.
Proof. induction 1; cbn in *; lia. Qed.
Lemma new_rowid_fmap {A B} (g : A -> B) (m : gmap N A) : new_rowid (g <$> m) = new_rowid m.
Proof.
  unfold new_rowid. f_equal. apply foldr_max_permutation. rewrite map_to_list_fmap, <- list_fmap_compose. done.
Qed.
Lemma add_post_inv site st x : sx_inv st -> is_Some (sites st !! site) -> sx_inv (add_post site st x).
Proof. intros Hi Hs. exact (ad_inv _ _ _ _ (added_snoc site [] st st x Hi Hs (added_nil site st Hi))). Qed.
Lemma erase_post site st x : sx_inv st -> erase (add_post site st x) = add_post site (erase st) (without_title x).
Proof.
  intros Hi. unfold add_post. replace (post_kind (without_title x)) with (post_kind x) by done.
  destruct (post_kind x) as [kind|]; [|done]. cbn [xp_id xp_tags without_title]. rewrite (erase_find st site (xp_id x) Hi).
  unfold erase at 1. cbn [sites posts post_tags comments users]. rewrite fmap_insert. unfold erase. cbn [sites posts post_tags comments users].
  by rewrite new_rowid_fmap.
Qed.
Lemma replace_row_fmap {A} (key : A -> N * option Z) (g : A -> A) x l : (forall y, key (g y) = key y) ->
  replace_row key (g x) (g <$> l) = g <$> replace_row key x l.
Proof.
  intros Hk. unfold replace_row. rewrite Hk. destruct (key x).2; rewrite fmap_app; [|done]. f_equal. rewrite filter_fmap.
  f_equal. apply list_filter_iff. intros y. by rewrite Hk.
Qed.
Lemma erase_remark site st x : erase (add_comment site st x) = add_comment site (erase st) (without_text x).
Proof.
  unfold erase, add_comment. cbn [sites posts post_tags comments users]. f_equal.
  rewrite <- (replace_row_fmap comment_key erase_comment) by done. done.
Qed.
Lemma rfold_erase {A} (I : sx -> Prop) (g : A -> A) (f : sx -> A -> sx) l :
  (forall st x, I st -> I (f st x) /\ erase (f st x) = f (erase st) (g x)) -> forall st, I st ->
  rfold (fun st r => rmap (f st) r) (rmap g <$> l) (erase st) = rmap erase (rfold (fun st r => rmap (f st) r) l st) /\
  (forall st', rfold (fun st r => rmap (f st) r) l st = Ok st' -> I st').
Proof.
  intros Hf. induction l as [|[x|e] l IH]; intros st Hi; [split; [done|by intros st' [= <-]]| |by split; [done|intros ? [=]]].
  destruct (Hf st x Hi) as [H1 H2]. cbn. rewrite <- H2. by apply IH.
Qed.
Lemma erase_read url du st : sx_inv st -> read_dump url (without_texts du) (erase st) = rmap erase (read_dump url du st).
Proof.
  intros Hi. unfold read_dump.
  assert (ensure_site url (erase st) = (erase (ensure_site url st).1, (ensure_site url st).2)) as ->.
  { unfold ensure_site. cbn [sites erase]. by destruct (find_site (sites st) url). }
  destruct (ensure_site_ok url st Hi) as (st1 & i & E & Hi1 & Hs & _). rewrite E. cbn [fst snd].
  set (I st := sx_inv st /\ is_Some (sites st !! i)).
  destruct (rfold_erase I without_title (add_post i) (d_posts du)) with (st := st1) as [H1 H2]; [|split; [done|by eexists]|].
  { intros st2 x [Hi2 Hs2]. split; [|by apply erase_post]. split; [by apply add_post_inv|]. unfold add_post. by destruct (post_kind x). }
  cbn [d_posts d_comments d_users without_texts]. rewrite H1. destruct (rfold _ (d_posts du) st1) as [st2|e]; [|done]. cbn [rmap rbind].
  specialize (H2 st2 eq_refl).
  destruct (rfold_erase I without_text (add_comment i) (d_comments du ++ [Ok root_comment])) with (st := st2) as [H3 H4]; [|done|].
  { intros st3 x [Hi3 Hs3]. split; [|by apply erase_remark]. split; [|done]. destruct Hi3. by split. }
  rewrite fmap_app in H3. change (rmap without_text <$> [Ok root_comment]) with [Ok root_comment] in H3. rewrite H3.
  destruct (rfold _ (d_comments du ++ [Ok root_comment]) st2) as [st3|e]; [|done]. cbn [rmap rbind]. specialize (H4 st3 eq_refl).
  destruct (rfold_erase I id (add_user i) (d_users du ++ [Ok root_user])) with (st := st3) as [H5 _]; [|done|].
  { intros st4 x [Hi4 Hs4]. split; [|done]. split; [|done]. destruct Hi4. by split. }
  assert (forall l : list (res x_user), rmap id <$> l = l) as El.
  { induction l as [|[x|e] l IH]; [done| |]; rewrite fmap_cons, IH; done. }
  rewrite El in H5. exact H5.
Qed.
Lemma erase_made h : made_by ((fun p => (p.1, without_texts p.2)) <$> h) = erase (made_by h).
Proof.
  induction h as [|[url du] h IH] using rev_ind; [unfold made_by, erase, empty_sx; cbn; by rewrite fmap_empty|].
  rewrite fmap_app. pose proof (tr_inv _ _ (made_tracks h)) as Hi. unfold made_by in *. rewrite !foldl_app, IH. cbn.
  unfold add_site_data. rewrite erase_read by done. by destruct (read_dump url du _).
Qed.
Lemma erase_fields order st k :
  rmap (fun f => change_post (fun _ => "") (template_fields (order (sf_tags f)) f)) (sx_fields_of (erase st) k) =
  rmap (fun f => change_post (fun _ => "") (template_fields (order (sf_tags f)) f)) (sx_fields_of st k).
Proof.
  unfold sx_fields_of. cbn [posts erase]. rewrite lookup_fmap. destruct (posts st !! k) as [r|]; [|done]. cbn.
  destruct (sites st !! po_site r) as [url|]; [|done]. cbn.
  unfold change_post, template_fields. cbn. do 2 f_equal.
  rewrite <- !list_fmap_compose. unfold comments_of. cbn. rewrite filter_fmap. rewrite <- list_fmap_compose. done.
Qed.
Lemma render_one order st k f : sx_fields_of st k = Ok f ->
  render_posts order st [k] = Ok [(k, render (post_template (template_fields (order k (sf_tags f)) f)))].
Proof. intros Hf. unfold render_posts. cbn [rtraverse]. by rewrite Hf. Qed.
Lemma render_cons order st k ks : render_posts order st (k :: ks) =
  rbind (sx_fields_of st k) (fun f => rbind (render_posts order st ks)
    (fun l => Ok ((k, render (post_template (template_fields (order k (sf_tags f)) f))) :: l))).
Proof. unfold render_posts. cbn [rtraverse]. by destruct (sx_fields_of st k). Qed.
