(** PropertiesMarkup.v: C104 and C105, what a reader sees of the pages. *)
From stdpp Require Import sets.
From Verif Require Import MarkupProofs.

(** ** C104: texts are shown as they are and cannot change a page *)

(** The overview: whatever the names of fields, the values of features and the texts of the
    results, the tags are the same as with any other texts. *)
Theorem C104_overview_tags f i fields sample total found clusters cc c : docs_settle found ->
  tags (render (overview_content i fields sample total found clusters cc c)) =
  tags (render (overview_content i (f <$> fields) sample (f total) (change_results f found) (change_cluster f <$> clusters) cc c)).
Proof. intros Hd. by apply alike_tags, overview_alike. Qed.
(** ... and the reader sees each of the texts as it is. *)
Theorem C104_overview_texts i fields sample total found clusters cc c s : docs_settle found ->
  s ∈ fields \/ result_text found s \/ (exists x, x ∈ clusters /\ feature_text (ci_features x) s) ->
  is_shown s (render (overview_content i fields sample total found clusters cc c)).
Proof. intros Hd Hs. by apply sees_shown, overview_sees. Qed.

(** The page of a cluster. *)
Theorem C104_cluster_tags f i fields c named near next pinned fs sample total found chosen :
  docs_settle found -> Forall (fun x => number (fi_id x)) fs ->
  tags (render (cluster_content i fields c named near next pinned fs sample total found chosen)) =
  tags (render (cluster_content i (f <$> fields) c named near next pinned (change_feature f <$> fs) sample (f total)
                  (change_results f found) chosen)).
Proof. intros Hd Hn. by apply alike_tags, cluster_page_alike. Qed.
Theorem C104_cluster_texts i fields c named near next pinned fs sample total found chosen s :
  docs_settle found -> Forall (fun x => number (fi_id x)) fs ->
  s ∈ fields \/ result_text found s \/ feature_text fs s ->
  is_shown s (render (cluster_content i fields c named near next pinned fs sample total found chosen)).
Proof. intros Hd Hn Hs. by apply sees_shown, cluster_page_sees. Qed.

(** The details of an index: every cell of the table of fields. *)
Theorem C104_details_tags (h : string * string * string * string * string -> string * string * string * string * string)
    i fields current current' :
  tags (render (details_content i fields current)) = tags (render (details_content i (h <$> fields) current')).
Proof. apply alike_tags, details_alike. Qed.
Theorem C104_details_texts i fields current x s : x ∈ fields -> s ∈ [x.1.1.1.1; x.1.1.1.2; x.1.1.2; x.1.2; x.2] ->
  is_shown s (render (details_content i fields current)).
Proof. intros Hx Hs. by eapply sees_shown, details_sees. Qed.

(** The search form and the form for a new model offer every field under its own name, and
    send that name. *)
Theorem C104_fields_offered i fields c current summary x :
  (x ∈ fields -> exists a b, reads (render (render_context_search i fields c)) = a ++ option_seen x ++ b) /\
  (x ∈ summary.*1.*1.*1.*1 -> exists a b, reads (render (details_content i summary current)) = a ++ option_seen x ++ b).
Proof. split; intros Hx; apply has_reads; [by apply search_has|by apply details_has]. Qed.

(** Plain documents, exactly: a list with an item for each, in which the text stands as it is. *)
Theorem C104_documents (texts : list string) :
  reads (render (render_results (Documents (render_text <$> texts)))) =
  literally InText "
        " ++ List.map Tag (chars_of "<ul class=""") ++ literally InDouble "doc-list" ++ List.map Tag (chars_of """>")
  ++ literally InText "
            "
  ++ concat (List.map (fun x => (literally InText "
            " ++ List.map Tag (chars_of "<li>")) ++ literally InText x ++ List.map Tag (chars_of "</li>") ++ literally InText "
            ") texts)
  ++ literally InText "
        " ++ List.map Tag (chars_of "</ul>") ++ literally InText "
    ".
Proof. apply reads_documents. Qed.

(** A document that would be a script, a field and a value full of markup. *)
Example C104_example :
  let found := Documents (render_text <$> ["<script>alert('1')</script>"; "a & b &lt; ""c"""]) in
  let fs := [FI "7" "<b>" "x""><i>" "1.00e+00"] in
  docs_settle found /\ Forall (fun x => number (fi_id x)) fs /\
  is_shown "<script>alert('1')</script>"
    (render (cluster_content "0" ["<b>"] "3" (Some "3") (Some ("2", "4")) "4" false fs true "9" found None)) /\
  shown_text (render (render_feature "0" (Some "3") (FI "7" "<b>" "x""><i>" "1.00e+00") None)) = "

    
        
            <b>
            x""><i>
            1.00e+00
        
    
".
Proof.
  cbv zeta. assert (Hd : docs_settle (Documents (render_text <$> ["<script>alert('1')</script>"; "a & b &lt; ""c"""]))).
  { intros l s [= <-] Hs. cbn in Hs. unfold render_text in Hs. apply elem_of_cons in Hs as [Hs|Hs]; [discriminate|].
    apply elem_of_cons in Hs as [Hs|Hs]; [discriminate|]. by apply elem_of_nil in Hs. }
  assert (Hn : Forall (fun x => number (fi_id x)) [FI "7" "<b>" "x""><i>" "1.00e+00"]).
  { apply Forall_cons; split; [|apply Forall_nil; exact I]. intros c Hc. cbn in Hc. apply elem_of_list_singleton in Hc. by subst c. }
  split; [exact Hd|]. split; [exact Hn|]. split.
  - apply C104_cluster_texts; [exact Hd|exact Hn|]. right. left. constructor. left.
  - vm_compute. reflexivity.
Qed.

(** ** C105: posts and tweets on a page *)

(** A post whose names, tags and addresses mean nothing in HTML, and whose body is complete,
    can be put on a page; its title and comments cannot change the tags and are shown. *)
Theorem C105_post_partial f p : plain_post p ->
  complete (render (post_template p)) /\
  tags (render (post_template p)) = tags (render (post_template (change_post f p))) /\
  is_shown (rp_title p) (render (post_template p)) /\
  forall c, c ∈ rp_comments p -> is_shown (pc_text c) (render (post_template p)).
Proof.
  intros Hp. split_and!.
  - eapply scan_complete, alike_self, (post_alike id); exact Hp.
  - by apply alike_tags, post_alike.
  - by apply sees_shown, post_sees_title.
  - intros c Hc. by apply sees_shown, post_sees_comment.
Qed.
(** So C104 holds of pages that show such posts. *)
Theorem C105_posts_on_a_page ps : Forall plain_post ps -> docs_settle (Documents (render_post <$> ps)).
Proof.
  intros Hps l s [= <-] Hs. apply elem_of_list_fmap in Hs as (p&[= ->]&Hp). rewrite Forall_forall in Hps.
  apply complete_settles. by apply (C105_post_partial id p), Hps.
Qed.
(** The name of an author is not escaped: it can add tags, and is then not shown. *)
Theorem C105_author_name_refuted :
  exists p q, p = RP "title" "Question" "https://x" "https://x/questions/1" "CC" (Some "5") "<script>" "body" [] [] /\
    q = RP "title" "Question" "https://x" "https://x/questions/1" "CC" (Some "5") "name" "body" [] [] /\
    tags (render (post_template p)) ≠ tags (render (post_template q)) /\
    ~ is_shown "<script>" (render (post_template p)).
Proof.
  eexists _, _. split; [reflexivity|]. split; [reflexivity|]. split.
  - vm_compute. discriminate.
  - intros (a&b&H). assert (Hx : "<"%char ∈ chars_of (a +:+ "<script>" +:+ b)%string).
    { rewrite !chars_of_app. apply elem_of_app. right. apply elem_of_app. left. cbn. left. }
    rewrite <- H in Hx. vm_compute in Hx. clear H.
    repeat (apply elem_of_cons in Hx as [Hx|Hx]; [discriminate Hx|]). by apply elem_of_nil in Hx.
Qed.
(** A post whose author is gone should say so: it names nobody at all ([<Deleted User>] is
    read as a tag). *)
Theorem C105_deleted_user_refuted :
  exists p, plain_post p /\ rp_owner p = None /\ ~ is_shown "Deleted User" (render (post_template p)).
Proof.
  exists (RP "title" "Question" "https://x" "https://x/questions/1" "CC" None "None" "body" [] []). split_and!.
  - split; cbn [rp_type rp_site rp_link rp_license rp_name rp_tags rp_owner rp_comments rp_body].
    + intros s Hs c Hc. cbn [app] in Hs.
      repeat (apply elem_of_cons in Hs as [->|Hs];
        [cbn in Hc; repeat (apply elem_of_cons in Hc as [->|Hc]; [repeat split; discriminate|]); by apply elem_of_nil in Hc|]).
      by apply elem_of_nil in Hs.
    + intros u [=].
    + reflexivity.
    + intros c s Hc. by apply elem_of_nil in Hc.
    + intros c u Hc. by apply elem_of_nil in Hc.
  - reflexivity.
  - intros (a&b&H). assert (Hx : "D"%char ∈ chars_of (a +:+ "Deleted User" +:+ b)%string).
    { rewrite !chars_of_app. apply elem_of_app. right. apply elem_of_app. left. cbn. left. }
    rewrite <- H in Hx. vm_compute in Hx. clear H.
    repeat (apply elem_of_cons in Hx as [Hx|Hx]; [discriminate Hx|]). by apply elem_of_nil in Hx.
Qed.

(** A tweet, with the text escaped as Twitter sends it, and names that mean nothing in HTML:
    the text is shown, cannot change the tags, and the page goes on after the list item. *)
Theorem C105_tweet_partial f t x : plain_tweet t -> rt_text t = escape x ->
  is_shown x (render (tweet_template t)) /\
  tags (render (tweet_template t)) = tags (render (tweet_template (change_tweet (fun _ => escape (f x)) t))) /\
  settles (render (tweet_template t)).
Proof.
  intros Hp Ht. split_and!.
  - by apply sees_shown, tweet_sees.
  - destruct (tweet_alike f t x Hp Ht) as (tg&[H1 H2]&[H3 H4]). unfold tags, reads.
    unfold tags_of, scans in *. destruct (scan _ (render (tweet_template t))) as [l m].
    destruct (scan _ (render (tweet_template (change_tweet _ t)))) as [l' m']. cbn [fst snd] in *. subst m m'.
    cbn [at_end]. rewrite !app_nil_r. by rewrite H1.
  - unfold settles. rewrite scan_app. cbn [prepend snd].
    rewrite (scan_complete _ _ (alike_self _ _ _ _ (tweet_alike id t x Hp Ht))). reflexivity.
Qed.
(** ... but it is never complete: its last tag is not finished and takes in the end of the
    list item. *)
Theorem C105_tweet_end_refuted t x : plain_tweet t -> rt_text t = escape x -> ~ complete (render (tweet_template t)).
Proof.
  intros Hp Ht. unfold complete. rewrite (scan_complete _ _ (alike_self _ _ _ _ (tweet_alike id t x Hp Ht))). discriminate.
Qed.
(** The name of a user is not escaped. *)
Theorem C105_user_name_refuted :
  exists t u, t = RT "https://x/i.png" "user" "<i>" "1" "2022" "text" "0" "0" "0" "0" "2023" /\
    u = RT "https://x/i.png" "user" "name" "1" "2022" "text" "0" "0" "0" "0" "2023" /\
    tags (render (tweet_template t)) ≠ tags (render (tweet_template u)) /\ ~ is_shown "<i>" (render (tweet_template t)).
Proof.
  eexists _, _. split; [reflexivity|]. split; [reflexivity|]. split.
  - vm_compute. discriminate.
  - intros (a&b&H). assert (Hx : "<"%char ∈ chars_of (a +:+ "<i>" +:+ b)%string).
    { rewrite !chars_of_app. apply elem_of_app. right. apply elem_of_app. left. cbn. left. }
    rewrite <- H in Hx. vm_compute in Hx. clear H.
    repeat (apply elem_of_cons in Hx as [Hx|Hx]; [discriminate Hx|]). by apply elem_of_nil in Hx.
Qed.

(** A question with a hostile title and comment; a tweet with a hostile text. *)
Example C105_example :
  let p := RP "<b>&" "Question" "https://x" "https://x/questions/1" "CC" (Some "5") "Ann" "<p>1 &lt; 2</p>" ["r"]
              [PC "</details><script>" "CC" "https://x" (Some "6") "Bob"] in
  let t := RT "https://x/i.png" "user" "name" "1" "2022" "a &lt;b&gt; c" "0" "0" "0" "0" "2023" in
  plain_post p /\ is_shown "</details><script>" (render (post_template p)) /\
  plain_tweet t /\ rt_text t = escape "a <b> c" /\ is_shown "a <b> c" (render (tweet_template t)).
Proof.
  cbv zeta.
  assert (Hh : forall s, s ∈ ["Question"; "https://x"; "https://x/questions/1"; "CC"; "Ann"; "r"; "5"; "6"; "Bob"] -> harmless s).
  { intros s Hs c Hc.
    repeat (apply elem_of_cons in Hs as [->|Hs];
      [cbn in Hc; repeat (apply elem_of_cons in Hc as [->|Hc]; [repeat split; discriminate|]); by apply elem_of_nil in Hc|]).
    by apply elem_of_nil in Hs. }
  match goal with |- plain_post ?p /\ _ => assert (Hp : plain_post p) end.
  { split; cbn [rp_type rp_site rp_link rp_license rp_name rp_tags rp_owner rp_comments rp_body].
    - intros s Hs. apply Hh. cbn in Hs. set_solver.
    - intros u [= <-]. apply Hh. set_solver.
    - reflexivity.
    - intros c s ->%elem_of_list_singleton Hs. apply Hh. cbn in Hs. set_solver.
    - intros c u ->%elem_of_list_singleton [= <-]. apply Hh. set_solver. }
  match goal with |- _ /\ _ /\ plain_tweet ?t /\ _ => assert (Ht : plain_tweet t) end.
  { intros s Hs c Hc. cbn in Hs.
    repeat (apply elem_of_cons in Hs as [->|Hs];
      [cbn in Hc; repeat (apply elem_of_cons in Hc as [->|Hc]; [repeat split; discriminate|]); by apply elem_of_nil in Hc|]).
    by apply elem_of_nil in Hs. }
  split; [exact Hp|]. split.
  { pose proof (proj2 (proj2 (proj2 (C105_post_partial id _ Hp)))) as Hc. cbn [rp_comments] in Hc.
    exact (Hc (PC "</details><script>" "CC" "https://x" (Some "6") "Bob") ltac:(left)). }
  split; [exact Ht|]. split; [reflexivity|]. exact (proj1 (C105_tweet_partial id _ "a <b> c" Ht eq_refl)).
Qed.
