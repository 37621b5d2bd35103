(** PropertiesRendered.v: C121, from the StackExchange dumps to the posts on a page. *)
From Verif Require Import RenderedProofs.
From stdpp Require Import pretty.

(** ** C121: [render_docs_html] shows each post as it was last, whatever its title and comments
    contain, and they change nothing but what is read. *)
Theorem C121_shown : forall h url id k x order,
  plain_history h -> orders_sets order ->
  identifies (made_by h) k url id -> last_such (fun y => question_or_answer y /\ xp_id y = id) (posts_in url h) x ->
  exists html, render_posts order (made_by h) [k] = Ok [(k, html)] /\ complete html /\
    (forall t, titled url h x t -> is_shown t html) /\
    (forall c t, c ∈ comments_on url h x -> xc_text c = Some t -> is_shown t html) /\
    (forall n, named url h (xp_owner x) n -> is_shown n html) /\
    (forall c n, c ∈ comments_on url h x -> named url h (xc_user c) n -> is_shown n html) /\
    (forall b, xp_body x = Some b -> is_shown (shown_text b) html) /\
    (forall t, tagged url h (default (xp_id x) (xp_parent x)) t -> is_shown t html).
Proof.
  intros h url id k x order Hh Ho Hid Hl.
  destruct (made_fields h url id k x Hid Hl) as (f & Hf & Hurl & Hown & Hname & Hlic & Hty & Hbody & Htags & Hcs & Htitle).
  pose proof (plain_fields h url id k x f order Hh Hid Hl Hf Ho) as Hp.
  rewrite (render_one _ _ _ _ Hf). eexists. split; [reflexivity|].
  set (p := template_fields (order k (sf_tags f)) f) in *. split_and!.
  - by eapply scan_complete, alike_self, (post_alike (fun s => s)), Hp.
  - intros t Ht. apply sees_shown. assert (t = rp_title p) as -> by (unfold p; cbn; by rewrite (Htitle t Ht)). by apply post_sees_title.
  - intros c t Hc Ht. apply sees_shown.
    assert (exists pc, pc ∈ rp_comments p /\ pc_text pc = t) as (pc & Hin & <-).
    { eexists. split; [unfold p; cbn; rewrite Hcs; apply elem_of_list_fmap_1, elem_of_list_fmap_1, Hc|]. cbn. by rewrite Ht. }
    by apply post_sees_comment.
  - intros n [Hn Hlink]%named_last. apply sees_shown.
    assert (n = rp_name p) as -> by (unfold p; cbn; by rewrite Hname, Hn). apply post_sees_name; [done|].
    unfold p. cbn. rewrite Hown. by destruct (linked_user (xp_owner x)).
  - intros c n Hc [Hn Hlink]%named_last. apply sees_shown.
    assert (exists pc, pc ∈ rp_comments p /\ pc_name pc = n /\ is_Some (pc_user pc)) as (pc & Hin & <- & Hu).
    { eexists. split; [unfold p; cbn; rewrite Hcs; apply elem_of_list_fmap_1, elem_of_list_fmap_1, Hc|]. cbn. rewrite Hn.
      split; [done|]. by destruct (linked_user (xc_user c)). }
    by apply post_sees_remark_name.
  - intros b Hb. apply sees_shown. assert (b = rp_body p) as -> by (unfold p; cbn; by rewrite Hbody, Hb). by apply post_sees_body.
  - intros t Ht. apply sees_shown, post_sees_tag; [done|]. unfold p. cbn. rewrite (Ho k (sf_tags f)). by apply elem_of_elements, Htags.
Qed.
Print Assumptions C121_shown.

(** The posts asked for, in that order; an unknown key is an error. *)
Theorem C121_requested : forall h order ks,
  (forall k, k ∈ ks -> exists url id, identifies (made_by h) k url id) ->
  exists htmls, render_posts order (made_by h) ks = Ok (zip ks htmls) /\ length htmls = length ks.
Proof.
  intros h order ks Hks.
  induction ks as [|k ks IH]; [by exists []|].
  destruct IH as (htmls & IH & Hlen); [intros; apply Hks; by right|]. destruct (Hks k) as (url & id & Hid); [by left|].
  destruct (made_document h url id k Hid) as (x & _ & Hl & _). destruct (made_fields h url id k x Hid Hl) as (f & Hf & _).
  rewrite render_cons, Hf. cbn [rbind]. rewrite IH. cbn [rbind]. eexists (_ :: htmls). split; [reflexivity|]. cbn [length]. by rewrite Hlen.
Qed.
Print Assumptions C121_requested.
Theorem C121_unknown_post : forall h order ks k, k ∈ ks -> (forall url id, ~ identifies (made_by h) k url id) ->
  render_posts order (made_by h) ks = Err IndexError.
Proof.
  intros h order ks k Hk Hno. pose proof (tr_inv _ _ (made_tracks h)) as Hi.
  assert (forall k e, sx_fields_of (made_by h) k = Err e -> e = IndexError) as He.
  { intros k' e. unfold sx_fields_of. destruct (posts _ !! k'); [|by intros [= <-]]. destruct (sites _ !! po_site p); [done|by intros [= <-]]. }
  assert (exists e, sx_fields_of (made_by h) k = Err e) as [e Hke].
  { unfold sx_fields_of. destruct (posts (made_by h) !! k) as [r|] eqn:Er; [|by eexists].
    destruct (sites (made_by h) !! po_site r) as [u|] eqn:Eu; [|by eexists]. exfalso. apply (Hno u (xp_id (po_x r))). by exists r. }
  induction ks as [|k' ks IH]; [by apply elem_of_nil in Hk|]. rewrite render_cons.
  destruct (sx_fields_of (made_by h) k') as [f|e'] eqn:E; cbn [rbind].
  - apply elem_of_cons in Hk as [->|Hk]; [congruence|]. by rewrite IH.
  - by rewrite (He _ _ E).
Qed.
Print Assumptions C121_unknown_post.

(** Other titles and comments: the same posts under the same keys, with the same tags. *)
Theorem C121_nothing_else_changes : forall h h' url id k order,
  plain_history h -> plain_history h' -> same_but_texts h h' -> orders_sets order ->
  identifies (made_by h) k url id ->
  identifies (made_by h') k url id /\
  exists html html', render_posts order (made_by h) [k] = Ok [(k, html)] /\ render_posts order (made_by h') [k] = Ok [(k, html')] /\
    tags html = tags html'.
Proof.
  intros h h' url id k order Hh Hh' Hsame Ho Hid.
  assert (erase (made_by h) = erase (made_by h')) as He by (by rewrite <- !erase_made, Hsame).
  assert (identifies (made_by h') k url id) as Hid'.
  { destruct Hid as (r & Hr & Hs & Hx). assert (posts (erase (made_by h')) !! k = Some (erase_row r)) as Hr'.
    { rewrite <- He. unfold erase. cbn. by rewrite lookup_fmap, Hr. }
    unfold erase in Hr'. cbn in Hr'. rewrite lookup_fmap in Hr'. apply fmap_Some in Hr' as (r' & Hr' & Ee).
    assert (sites (made_by h') = sites (made_by h)) as Esites by (change (sites (erase (made_by h')) = sites (erase (made_by h))); by rewrite He).
    assert (po_site r' = po_site r) as E1 by exact (eq_sym (f_equal po_site Ee)).
    assert (xp_id (po_x r') = xp_id (po_x r)) as E2 by exact (eq_sym (f_equal (fun r => xp_id (po_x r)) Ee)).
    exists r'. rewrite E1, E2, Esites. done. }
  split; [done|].
  destruct (made_document h url id k Hid) as (x & _ & Hl & _). destruct (made_fields h url id k x Hid Hl) as (f & Hf & _).
  destruct (made_document h' url id k Hid') as (x' & _ & Hl' & _). destruct (made_fields h' url id k x' Hid' Hl') as (f' & Hf' & _).
  pose proof (plain_fields h url id k x f order Hh Hid Hl Hf Ho) as Hp.
  pose proof (plain_fields h' url id k x' f' order Hh' Hid' Hl' Hf' Ho) as Hp'.
  pose proof (erase_fields (order k) (made_by h) k) as E1. pose proof (erase_fields (order k) (made_by h') k) as E2.
  rewrite Hf in E1. rewrite Hf' in E2. rewrite He, E2 in E1. cbn [rmap] in E1.
  assert (forall A (a b : A), Ok a = Ok b -> a = b) as Hok by (by intros A a b [= ->]). apply Hok in E1.
  rewrite (render_one _ _ _ _ Hf), (render_one _ _ _ _ Hf'). eexists _, _. split; [reflexivity|]. split; [reflexivity|].
  rewrite (alike_tags _ _ (post_alike (fun _ => "") _ Hp)), (alike_tags _ _ (post_alike (fun _ => "") _ Hp')). by rewrite E1.
Qed.
Print Assumptions C121_nothing_else_changes.

(** ** A concrete case *)
Definition harmless_check (s : string) : bool :=
  forallb (fun c => negb (Ascii.eqb c "&" || Ascii.eqb c "<" || Ascii.eqb c ">" || Ascii.eqb c "'" || Ascii.eqb c """")) (chars_of s).
Lemma harmless_checked s : harmless_check s = true -> harmless s.
Proof.
  unfold harmless_check. rewrite forallb_forall. intros H c Hc. apply elem_of_list_In, H in Hc. apply negb_true_iff in Hc.
  rewrite !orb_false_iff, !Ascii.eqb_neq in Hc. tauto.
Qed.
Definition plain_dump (p : string * dump) : Prop :=
  harmless_check p.1 = true /\
  Forall (fun x => default true (harmless_check <$> xp_license x) = true /\ (forall s, xp_body x = Some s -> complete s) /\
    forallb harmless_check (split_tags (default "" (xp_tags x))) = true) (contents (d_posts p.2)) /\
  Forall (fun c => default true (harmless_check <$> xc_license c) = true) (contents (d_comments p.2)) /\
  Forall (fun u => default true (harmless_check <$> xu_name u) = true) (contents (d_users p.2)).
Lemma in_dump {A} (f : dump -> list A) url h x : x ∈ concat (f <$> dumps_of url h) -> exists p, p ∈ h /\ x ∈ f p.2.
Proof.
  intros (l & Hx & (du & -> & Hdu)%elem_of_list_fmap)%elem_of_concat. unfold dumps_of in Hdu.
  apply elem_of_list_fmap in Hdu as (p & -> & [_ Hp]%elem_of_list_filter). by exists p.
Qed.
Lemma plain_dumps h : Forall plain_dump h -> plain_history h.
Proof.
  rewrite list.Forall_forall. intros H. split.
  - intros url (p & -> & Hp)%elem_of_list_fmap. by apply harmless_checked, (H p Hp).
  - intros url x (p & Hp & Hx)%in_dump _. destruct (H p Hp) as (_ & Hf & _). rewrite list.Forall_forall in Hf. destruct (Hf x Hx) as (H1 & H2 & H3).
    split_and!; [|done|].
    + intros s Es. rewrite Es in H1. by apply harmless_checked.
    + intros s t Es Ht. rewrite Es in H3. rewrite forallb_forall in H3. by apply harmless_checked, H3, elem_of_list_In.
  - intros url c s (p & Hp & Hc)%in_dump Es. destruct (H p Hp) as (_ & _ & Hf & _). rewrite list.Forall_forall in Hf.
    specialize (Hf c Hc). cbn in Hf. rewrite Es in Hf. by apply harmless_checked.
  - intros url c s (p & Hp & Hc)%in_dump Es. destruct (H p Hp) as (_ & _ & _ & Hf). rewrite list.Forall_forall in Hf.
    specialize (Hf c Hc). cbn in Hf. rewrite Es in Hf. by apply harmless_checked.
Qed.

Definition nasty_question := XPost (Some "1") 7 None (Some 3%Z) (Some "Is <script> ""evil"" & 'bad'?") (Some "<p>So &amp; so</p>") None (Some "CC") (Some "<html><c++>").
Definition nasty_answer := XPost (Some "2") 9 (Some 7%Z) None None (Some "<p>No</p>") None None None.
Definition nasty_comment := XComment (Some 1%Z) (Some 9%Z) (Some 3%Z) (Some "</li></ul></details> <b>") None.
Definition nasty_history := [("https://a.com", Dump [Ok nasty_answer] [Ok nasty_comment] [Ok (XUser (Some 3%Z) (Some "Ann"))]);
                             ("https://a.com", Dump [Ok nasty_question] [] [])].
(** The answer shows the title of the question that came later, and the comment as it is. *)
Example C121_example : plain_history nasty_history /\ orders_sets (fun _ s => elements s) /\
  identifies (made_by nasty_history) 1 "https://a.com" 9 /\
  last_such (fun y => question_or_answer y /\ xp_id y = 9%Z) (posts_in "https://a.com" nasty_history) nasty_answer /\
  titled "https://a.com" nasty_history nasty_answer "Is <script> ""evil"" & 'bad'?" /\
  comments_on "https://a.com" nasty_history nasty_answer = [nasty_comment] /\
  named "https://a.com" nasty_history (xc_user nasty_comment) "Ann" /\
  tagged "https://a.com" nasty_history 7 "c++" /\
  match render_posts (fun _ s => elements s) (made_by nasty_history) [1%N] with
  | Ok [(1%N, html)] => is_shown "Is <script> ""evil"" & 'bad'?" html /\ is_shown "</li></ul></details> <b>" html
  | _ => False
  end.
Proof.
  assert (plain_history nasty_history) as Hh.
  { apply plain_dumps. repeat constructor; try (by vm_compute); intros s [= <-]; by vm_compute. }
  assert (identifies (made_by nasty_history) 1 "https://a.com" 9) as Hid.
  { exists (PostRow 1 "Answer" nasty_answer). by vm_compute. }
  assert (last_such (fun y => question_or_answer y /\ xp_id y = 9%Z) (posts_in "https://a.com" nasty_history) nasty_answer) as Hl.
  { exists [], [nasty_question]. split; [by vm_compute|]. split; [split; [by right|done]|]. intros y Hy [_ Hx]. apply elem_of_list_singleton in Hy as ->. done. }
  assert (last_such (fun y => question_or_answer y /\ xp_id y = 7%Z) (posts_in "https://a.com" nasty_history) nasty_question) as Hq.
  { exists [nasty_answer], []. split; [by vm_compute|]. split; [split; [by left|done]|]. by intros y Hy%elem_of_nil. }
  assert (titled "https://a.com" nasty_history nasty_answer "Is <script> ""evil"" & 'bad'?") as Ht by (by eapply title_of_question).
  assert (comments_on "https://a.com" nasty_history nasty_answer = [nasty_comment]) as Hc by (by vm_compute).
  assert (orders_sets (fun _ s => elements s)) as Ho by (by intros ? ?).
  split_and!; try done.
  - exists 3%Z, (XUser (Some 3%Z) (Some "Ann")). split_and!; [done|done| |done]. exists [], []. split; [by vm_compute|]. split; [done|]. by intros y Hy%elem_of_nil.
  - exists nasty_question, "<html><c++>". split_and!; [|by left|done|done|].
    + destruct Hq as (l1 & l2 & -> & _). apply elem_of_app. right. by left.
    + vm_compute. right. by left.
  - destruct (C121_shown _ _ _ _ _ _ Hh Ho Hid Hl) as (html & E & _ & H1 & H2 & _). rewrite E. split; [by apply H1|].
    apply (H2 nasty_comment); [rewrite Hc; by left|done].
Qed.
