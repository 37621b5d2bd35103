(** PropertiesTweets.v: C122, from the tweets of a database to the page. Vocabulary: SpecTweets.v. *)
From Verif Require Import TwitterProofs PropertiesIndexing PropertiesCorpus PropertiesTwitter TweetsProofs.
From stdpp Require Import pretty.

Section page.
  Context (counts : tw_row -> tweet_counts) (profile : Z * string -> user_profile) (hostname : string -> option string).

  (** [render_docs_html] shows the latest version of a tweet with whatever text was sent, and
      its author as last known. The page goes on after it. *)
  Theorem C122_shown : forall T id r name text,
    twitter_sound T -> plain_twitter profile T ->
    latest_version T id r -> author T r name -> tl_text r = sent text ->
    exists html, render_tweets counts profile hostname T [id] = Ok [(id, html)] /\ settles html /\
      is_shown text html /\ is_shown name html /\ is_shown (tl_created r) html /\ is_shown (tl_retrieved r) html /\
      (forall full, up_name (profile (tl_user r, name)) = Some full -> is_shown full html) /\
      (forall n, n ∈ [tc_likes (counts r); tc_replies (counts r); tc_quotes (counts r); tc_retweets (counts r)] ->
         forall z, n = Some z -> is_shown (pretty z) html).
  Proof.
    intros T id r name text Hs Hp Hr Ha Ht.
    destruct (render_tweet_one counts profile hostname T id r name Hs Hr Ha) as (tw & _ & E1 & E2 & E).
    pose proof (fields_plain counts profile T id r name tw Hp Hr Ha E1) as Hf.
    rewrite E. eexists. split; [reflexivity|].
    set (t := tweet_fields counts profile r (tl_created r, tw)) in *.
    assert (rt_text t = sent text) as Htx by (unfold t; cbn; by rewrite E2).
    split.
    { unfold settles. rewrite scan_app. cbn [prepend snd].
      rewrite (scan_complete _ _ (alike_self _ _ _ _ (sent_alike t text "" Hf Htx))). reflexivity. }
    assert (forall s, s ∈ [text; rt_username t; rt_name t; rt_created t; rt_likes t; rt_replies t; rt_quotes t; rt_retweets t; rt_retrieved t] ->
      is_shown s (render (tweet_template t))) as Hsh by (intros s Hin; by eapply sees_shown, sent_sees).
    split_and!.
    - apply Hsh. set_solver.
    - apply Hsh. assert (rt_username t = name) as -> by done. set_solver.
    - apply Hsh. assert (rt_created t = tl_created r) as -> by done. set_solver.
    - apply Hsh. assert (rt_retrieved t = tl_retrieved r) as -> by done. set_solver.
    - intros full Hfull. apply Hsh. assert (rt_name t = full) as -> by (unfold t; cbn; by rewrite E1, Hfull). set_solver.
    - intros n Hn z ->. apply Hsh. repeat (apply elem_of_cons in Hn as [Hn|Hn]); [..|by apply elem_of_nil in Hn].
      + assert (rt_likes t = pretty z) as -> by (unfold t; cbn; by rewrite <- Hn). set_solver.
      + assert (rt_replies t = pretty z) as -> by (unfold t; cbn; by rewrite <- Hn). set_solver.
      + assert (rt_quotes t = pretty z) as -> by (unfold t; cbn; by rewrite <- Hn). set_solver.
      + assert (rt_retweets t = pretty z) as -> by (unfold t; cbn; by rewrite <- Hn). set_solver.
  Qed.

  (** The tweets asked for, in that order, each as it would be alone; one that is not there, or
      whose author is not, is an error. *)
  Theorem C122_requested : forall T ks, twitter_sound T -> (forall id, id ∈ ks -> can_be_shown T id) ->
    exists pages, render_tweets counts profile hostname T ks = Ok pages /\ pages.*1 = ks /\
      forall id html, (id, html) ∈ pages -> render_tweets counts profile hostname T [id] = Ok [(id, html)].
  Proof.
    intros T ks Hs Hk. induction ks as [|id ks IH]; [exists []; split_and!; [done|done|by intros ? ? ?%elem_of_nil]|].
    destruct IH as (pages & IH & Hkeys & Hone); [intros; apply Hk; by right|]. destruct (Hk id) as (r & name & Hr & Ha); [by left|].
    destruct (render_tweet_one counts profile hostname T id r name Hs Hr Ha) as (tw & _ & _ & _ & E).
    rewrite render_tweets_cons, E, IH. cbn [rbind app]. eexists. split; [reflexivity|]. split; [cbn; by rewrite Hkeys|].
    intros id' html [[= -> ->]|Hin]%elem_of_cons; [done|by apply Hone].
  Qed.
  Theorem C122_unknown : forall T ks id, twitter_sound T -> id ∈ ks -> ~ can_be_shown T id ->
    render_tweets counts profile hostname T ks = Err IndexError.
  Proof.
    intros T ks id Hs Hin Hno. induction ks as [|k ks IH]; [by apply elem_of_nil in Hin|].
    rewrite render_tweets_cons. unfold render_tweets at 1. cbn [rtraverse].
    destruct (twitter_doc hostname T k) as [d|e] eqn:E; cbn [rbind].
    - assert (k ≠ id) as Hne by (intros ->; by rewrite (not_shown hostname T id Hno) in E).
      apply elem_of_cons in Hin as [->|Hin]; [done|]. rewrite (IH Hin).
      destruct (latest_tweet T k); done.
    - assert (e = IndexError) as ->; [|done].
      unfold twitter_doc in E. destruct (latest_tweet T k) as [|r l]; [by injection E as <-|].
      by destruct (of_id (tl_user r) (user_latest T)); [injection E as <-|].
  Qed.

  (** Other texts: nothing but what is read changes. *)
  Theorem C122_nothing_else_changes : forall T f id r name text,
    twitter_sound T -> plain_twitter profile T ->
    latest_version T id r -> author T r name -> tl_text r = sent text ->
    counts (with_text (fun r => sent (f r)) r) = counts r ->
    exists html html', render_tweets counts profile hostname T [id] = Ok [(id, html)] /\
      render_tweets counts profile hostname (with_texts (fun r => sent (f r)) T) [id] = Ok [(id, html')] /\
      tags html = tags html' /\ is_shown (f r) html'.
  Proof.
    intros T f id r name text Hs Hp Hr Ha Ht Hc. set (T' := with_texts (fun r => sent (f r)) T). set (r' := with_text (fun r => sent (f r)) r).
    assert (twitter_sound T') as Hs'.
    { destruct Hs as (H1 & H2 & H3). split; [|done]. intros r1 r2 (q1 & -> & Hq1)%elem_of_list_fmap (q2 & -> & Hq2)%elem_of_list_fmap E.
      by rewrite (H1 q1 q2 Hq1 Hq2 E). }
    assert (plain_twitter profile T') as Hp'.
    { destruct Hp as [H1 H2 H3 H4]. split; [done..|]. intros r1 (q1 & -> & Hq1)%elem_of_list_fmap. exact (H4 q1 Hq1). }
    assert (latest_version T' id r') as Hr'.
    { destruct Hr as [H1 H2]. split; [|done]. by apply (elem_of_list_fmap_1 (with_text (fun r => sent (f r)))). }
    destruct (render_tweet_one counts profile hostname T id r name Hs Hr Ha) as (tw & _ & E1 & E2 & E).
    destruct (render_tweet_one counts profile hostname T' id r' name Hs' Hr' Ha) as (tw' & _ & E1' & E2' & E').
    pose proof (fields_plain counts profile T id r name tw Hp Hr Ha E1) as Hf.
    pose proof (fields_plain counts profile T' id r' name tw' Hp' Hr' Ha E1') as Hf'.
    rewrite E, E'. eexists _, _. split; [reflexivity|]. split; [reflexivity|].
    set (t := tweet_fields counts profile r (tl_created r, tw)) in *. set (t' := tweet_fields counts profile r' (tl_created r', tw')) in *.
    assert (rt_text t = sent text) as Htx by (unfold t; cbn; by rewrite E2).
    assert (t' = change_tweet (fun _ => sent (f r)) t) as Et.
    { unfold t', t, change_tweet, tweet_fields. cbn [rt_image rt_username rt_name rt_id rt_created rt_likes rt_replies rt_quotes rt_retweets rt_retrieved rt_text snd fst].
      rewrite E1, E1', E2'. unfold r'. rewrite Hc. reflexivity. }
    split.
    - destruct (sent_alike t text (f r) Hf Htx) as (tg&[H1 H2]&[H3 H4]). rewrite <- Et in H3, H4. unfold tags, reads.
      unfold tags_of, scans in *. destruct (scan _ (render (tweet_template t))) as [l m].
      destruct (scan _ (render (tweet_template t'))) as [l' m']. cbn [fst snd] in *. subst m m'.
      cbn [at_end]. rewrite !app_nil_r. by rewrite H1.
    - apply sees_shown, (sent_sees t' (f r)); [done|by rewrite Et|by left].
  Qed.

  (** Tweets found by the name of their author show that name. *)
  Theorem C122_found_shows_author : forall tokens lower times T bsz pos s cn,
    index_ready cn -> quiet (disk cn) -> pool_works cn -> (forall i, fault s i = None) ->
    twitter_sound T -> plain_twitter profile T -> directly_collected_tweet T ≠ ∅ ->
    (forall id, id ∈ directly_collected_tweet T ->
       exists r name l, latest_version T id r /\ author T r name /\ times (tl_created r) = Ok l /\ "by" ∉ l.*1 /\ exists text, tl_text r = sent text) ->
    (pos = true -> forall id r, id ∈ directly_collected_tweet T -> latest_version T id r -> all_known T r) ->
    let cp := twitter_corpus tokens lower hostname times T in
    SpecIndexing.complete s (length (batches bsz cp)) ->
    exists cn', run_index bsz pos cp s cn = (cn', Ok tt) /\
      forall name docs i, getitem (disk cn') (KFeature ("by", VText name)) = Some docs -> i ∈ docs ->
        exists id html, doc_key (disk cn') !! i = Some (VInt id) /\ render_tweets counts profile hostname T [id] = Ok [(id, html)] /\
          is_shown name html.
  Proof.
    intros tokens lower times T bsz pos s cn Hrd Hq Hpl Hf Hs Hp Hne Hk Hpos cp Hc.
    destruct (C90_tweets_found tokens lower hostname times T bsz pos s cn Hrd Hq Hpl Hf Hs Hne) as (cn' & ids & Hrun & Hperm & _ & Hkey & Hfound); [|done|done|].
    { intros id Hid. destruct (Hk id Hid) as (r & name & l & H1 & H2 & H3 & _). by exists r, name, l. }
    exists cn'. split; [done|]. intros name docs i Hd Hi.
    destruct (Hfound "by" (VText name)) as (docs' & Hd' & Hiff). rewrite Hd in Hd'. injection Hd' as <-.
    destruct (Hiff (N.to_nat i)) as [Hx _]. rewrite N2Nat.id in Hx. destruct (Hx Hi) as (id & r & Hid & Hr & Hsay).
    pose proof (Hkey (N.to_nat i)) as Hki. rewrite N2Nat.id, Hid in Hki.
    assert (id ∈ directly_collected_tweet T) as Hcol.
    { apply elem_of_elements. rewrite <- Hperm. by eapply elem_of_list_lookup_2. }
    destruct (Hk id Hcol) as (r0 & n0 & l & Hr0 & Ha0 & Hl & Hby & text & Htx).
    assert (r0 = r) as ->. { destruct Hs as (Hs & _), Hr0, Hr; apply Hs; congruence. }
    assert (author T r name) as Ha.
    { inversion Hsay; subst; try done. exfalso. apply Hby. apply elem_of_list_fmap. exists ("by", name).
      split; [done|]. congruence. }
    destruct (C122_shown T id r name text Hs Hp Hr Ha Htx) as (html & E & _ & _ & Hn & _). by exists id, html.
  Qed.
End page.
Print Assumptions C122_shown.
Print Assumptions C122_requested.
Print Assumptions C122_unknown.
Print Assumptions C122_nothing_else_changes.
Print Assumptions C122_found_shows_author.

(** ** A concrete case: a hostile text, a full name and no image; a tweet that is not there *)
Definition odd_text := "</p></div><script>x &amp; ""y"" 'z'".
Definition odd_row := TwRow 10 "2022-01-02" 1 (sent odd_text) "2020-05-05" (Some 10%Z) None None None.
Definition other_row := TwRow 11 "2022-01-03" 5 "lost" "2020-05-06" (Some 10%Z) None None None.
Definition odd_twitter : twitter := Twitter [odd_row; other_row] [] [] [] [] [] [] [(1%Z, "ann")] [] {[10; 11]}%Z.
Definition odd_counts (r : tw_row) : tweet_counts := TweetCounts (Some 42%Z) (Some 0%Z) None (Some 7%Z).
Definition odd_profile (u : Z * string) : user_profile := UserProfile None (Some "Ann A.").
Example C122_example : twitter_sound odd_twitter /\ plain_twitter odd_profile odd_twitter /\
  latest_version odd_twitter 10 odd_row /\ author odd_twitter odd_row "ann" /\ can_be_shown odd_twitter 10 /\ ~ can_be_shown odd_twitter 11 /\
  render_tweets odd_counts odd_profile tw_host odd_twitter [10; 11]%Z = Err IndexError /\
  match render_tweets odd_counts odd_profile tw_host odd_twitter [10%Z] with
  | Ok [(10%Z, html)] => is_shown odd_text html /\ is_shown "Ann A." html /\ is_shown "42" html
  | _ => False
  end.
Proof.
  assert (twitter_sound odd_twitter) as Hs.
  { split; [|split].
    - intros r1 r2 H1 H2. cbn in H1, H2.
      repeat (apply elem_of_cons in H1 as [H1|H1]); [..|by apply elem_of_nil in H1]; repeat (apply elem_of_cons in H2 as [H2|H2]);
        try (by apply elem_of_nil in H2); subst; cbn; done.
    - intros u n1 n2 H1%elem_of_list_singleton H2%elem_of_list_singleton. congruence.
    - by intros u w n1 n2 H1%elem_of_nil. }
  assert (forall c s, forallb (fun c => negb (Ascii.eqb c "&" || Ascii.eqb c "<" || Ascii.eqb c ">" || Ascii.eqb c "'" || Ascii.eqb c """")) (chars_of s) = true ->
    c ∈ chars_of s -> c ≠ "&"%char /\ c ≠ "<"%char /\ c ≠ ">"%char /\ c ≠ "'"%char /\ c ≠ """"%char) as Hch.
  { intros c s H Hc. rewrite forallb_forall in H. apply elem_of_list_In, H in Hc. apply negb_true_iff in Hc.
    rewrite !orb_false_iff, !Ascii.eqb_neq in Hc. tauto. }
  assert (plain_twitter odd_profile odd_twitter) as Hp.
  { split.
    - intros u n [= -> ->]%elem_of_list_singleton. intros c Hc. by apply (Hch c "ann").
    - done.
    - intros p s _ [= <-]. intros c Hc. by apply (Hch c "Ann A.").
    - intros r Hr. cbn in Hr. repeat (apply elem_of_cons in Hr as [->|Hr]); [..|by apply elem_of_nil in Hr]; split; intros c Hc; (eapply Hch; [|exact Hc]; reflexivity). }
  assert (latest_version odd_twitter 10 odd_row) as Hr by (split; [by left|done]).
  assert (author odd_twitter odd_row "ann") as Ha by (by left).
  split_and!; try done.
  - by exists odd_row, "ann".
  - intros (r & name & [H1 H2] & H3). cbn in H1. repeat (apply elem_of_cons in H1 as [->|H1]); [..|by apply elem_of_nil in H1]; [done|].
    unfold author in H3. apply elem_of_list_singleton in H3. by injection H3.
  - destruct (C122_shown odd_counts odd_profile tw_host _ _ _ _ odd_text Hs Hp Hr Ha eq_refl) as (html & E & _ & H1 & _ & _ & _ & H2 & H3). rewrite E.
    split_and!; [done|by apply H2|].
    change "42" with (pretty 42%Z). apply (H3 (Some 42%Z)); [by left|done].
Qed.
