(** TweetsProofs.v: lemmas about rendered tweets. *)
From Verif Require Export TwitterProofs RenderedProofs SpecTweets MarkupProofs SpecMarkup Markup.
From stdpp Require Import pretty.

Lemma scan_sent s : scan (At InText) (sent s) = (literally InText s, At InText).
Proof.
  induction s as [|c s IH]; [done|].
  cbn [sent]. rewrite scan_app. unfold literally in *. cbn [chars_of List.map].
  enough (scan (At InText) (if Ascii.eqb c "&" then "&amp;" else if Ascii.eqb c "<" then "&lt;" else if Ascii.eqb c ">" then "&gt;" else String c "")
    = ([at_place InText c], At InText)) as ->.
  { cbn [fst snd]. rewrite IH. done. }
  destruct (Ascii.eqb_spec c "&"); [by subst|].
  destruct (Ascii.eqb_spec c "<"); [by subst|].
  destruct (Ascii.eqb_spec c ">"); [by subst|].
  cbn. unfold step_at. destruct (Ascii.eqb_spec c "&"); [done|]. by destruct (Ascii.eqb_spec c "<").
Qed.
Lemma alike_sent s s' a a' m' : alike (At InText) a a' m' -> alike (At InText) (Raw (sent s) :: a) (Raw (sent s') :: a') m'.
Proof.
  intros H. apply (alike_app (At InText) [Raw (sent s)] [Raw (sent s')] a a' (At InText) m'); [|done].
  exists "". unfold goes, scans. cbn [render piece_text]. rewrite !app_nil_string, !scan_sent. cbn [fst snd]. by rewrite !tags_literally.
Qed.
Lemma sees_sent s a : sees (At InText) (Raw (sent s) :: a) s.
Proof.
  apply (sees_left (At InText) [Raw (sent s)] a). exists "", "". unfold scans. cbn [render piece_text].
  rewrite app_nil_string, scan_sent. cbn [fst]. change (shown_of (literally InText s) = ("" +:+ s +:+ "")%string).
  by rewrite shown_literally, app_empty_string, app_nil_string.
Qed.
Lemma sees_skip_sent s a x : sees (At InText) a x -> sees (At InText) (Raw (sent s) :: a) x.
Proof. intros H. apply sees_cons. cbn [piece_text]. rewrite scan_sent. exact H. Qed.

Lemma sent_alike t x y : plain_tweet t -> rt_text t = sent x ->
  alike (At InText) (tweet_template t) (tweet_template (change_tweet (fun _ => sent y) t)) InTag.
Proof.
  intros Hp Ht. unfold change_tweet. destruct t as [im us na id cr te lk re qu rw rv].
  unfold plain_tweet in Hp. cbn [rt_text rt_image rt_username rt_name rt_id rt_created rt_likes rt_replies rt_quotes rt_retweets rt_retrieved] in *.
  unfold tweet_template. cbn [rt_image rt_username rt_name rt_id rt_created rt_text rt_likes rt_replies rt_quotes rt_retweets rt_retrieved]. subst te.
  assert (Him : (scan InTag im).2 = InTag) by (rewrite scan_in_tag by (apply Hp; set_solver); done).
  rewrite <- Forall_forall in Hp. repeat rewrite Forall_cons in Hp. destruct Hp as (_&?&?&?&?&?&?&?&?&?&_).
  repeat lazymatch goal with
    | |- alike InTag (Raw im :: _) _ _ => eapply alike_raw; [exact Him|]
    | |- alike (At _) (Raw (sent _) :: _) _ _ => apply alike_sent
    | |- alike _ [] [] _ => apply alike_nil
    | |- alike _ (Lit _ :: _) _ _ => eapply alike_lit; [vm_compute; reflexivity|]
    | |- alike (At _) (Raw _ :: _) _ _ => apply alike_plain; [assumption|assumption|]
    end.
Qed.
Lemma sent_sees t x s : plain_tweet t -> rt_text t = sent x ->
  s ∈ [x; rt_username t; rt_name t; rt_created t; rt_likes t; rt_replies t; rt_quotes t; rt_retweets t; rt_retrieved t] ->
  sees (At InText) (tweet_template t) s.
Proof.
  intros Hp Ht Hs. destruct t as [im us na id cr te lk re qu rw rv].
  unfold plain_tweet in Hp. cbn [rt_text rt_image rt_username rt_name rt_id rt_created rt_likes rt_replies rt_quotes rt_retweets rt_retrieved] in *.
  unfold tweet_template. cbn [rt_image rt_username rt_name rt_id rt_created rt_text rt_likes rt_replies rt_quotes rt_retweets rt_retrieved]. subst te.
  assert (Him : (scan InTag im).2 = InTag) by (rewrite scan_in_tag by (apply Hp; set_solver); done).
  rewrite <- Forall_forall in Hp. repeat rewrite Forall_cons in Hp. destruct Hp as (_&?&?&?&?&?&?&?&?&?&_).
  repeat (apply elem_of_cons in Hs as [->|Hs]); [..|by apply elem_of_nil in Hs];
  repeat lazymatch goal with
    | |- sees InTag (Raw im :: _) _ => apply sees_cons; cbn [piece_text]; rewrite Him
    | |- sees (At InText) (Raw (sent ?x) :: _) ?x => apply sees_sent
    | |- sees (At InText) (Raw (sent _) :: _) _ => apply sees_skip_sent
    | |- sees (At InText) (Raw ?x :: _) ?x => apply sees_plain; assumption
    | |- sees _ (Lit _ :: _) _ => eapply sees_lit; [vm_compute; reflexivity|]
    | |- sees (At _) (Raw _ :: _) _ => apply sees_skip_plain; [assumption|]
    end.
Qed.

Section render.
  Context (counts : tw_row -> tweet_counts) (profile : Z * string -> user_profile) (hostname : string -> option string).
  Lemma fields_plain T id r name tw : plain_twitter profile T -> latest_version T id r -> author T r name -> tw_user tw = name ->
    plain_tweet (tweet_fields counts profile r (tl_created r, tw)).
  Proof.
    intros [H1 H2 H3 H4] [Hr Hid] Ha <-. unfold plain_tweet, tweet_fields. cbn.
    assert (forall o : option Z, harmless (shown_number o)) as Hn.
    { intros o. apply harmless_column. intros s Hs. destruct o; [|done]. injection Hs as <-. apply harmless_number. }
    destruct (H4 r Hr) as [H5 H6].
    intros s Hs. repeat (apply elem_of_cons in Hs as [->|Hs]); [..|by apply elem_of_nil in Hs]; try done.
    - apply harmless_column. intros s. by apply H2.
    - by eapply H1.
    - apply harmless_column. intros s. by apply H3.
    - apply harmless_number.
  Qed.
  Lemma render_tweet_one T id r name : twitter_sound T -> latest_version T id r -> author T r name ->
    exists tw, twitter_doc hostname T id = Ok (tl_created r, tw) /\ tw_user tw = name /\ tw_text tw = tl_text r /\
      render_tweets counts profile hostname T [id] = Ok [(id, render (tweet_template (tweet_fields counts profile r (tl_created r, tw))))].
  Proof.
    intros Hs Hr Ha. destruct (twitter_doc_ok hostname T id r name Hs Hr Ha) as (tw & E & E1 & E2 & _).
    exists tw. split_and!; [done|done|done|]. unfold render_tweets. cbn [rtraverse]. rewrite E. cbn [rbind].
    destruct (latest_head T id r Hs Hr) as [l ->]. done.
  Qed.
  Lemma render_tweets_cons T id ks : render_tweets counts profile hostname T (id :: ks) =
    rbind (render_tweets counts profile hostname T [id]) (fun one => rbind (render_tweets counts profile hostname T ks) (fun l => Ok (one ++ l))).
  Proof.
    unfold render_tweets. cbn [rtraverse]. destruct (rbind (twitter_doc hostname T id) _) as [p|e]; cbn [rbind]; [|done]. done.
  Qed.
  Lemma not_shown T id : ~ can_be_shown T id -> twitter_doc hostname T id = Err IndexError.
  Proof.
    intros Hno. unfold twitter_doc. destruct (latest_tweet T id) as [|r l] eqn:E; [done|].
    destruct (of_id (tl_user r) (user_latest T)) as [|n l'] eqn:Eu; [done|].
    exfalso. apply Hno. exists r, n. split; [apply TwitterProofs.elem_of_latest; rewrite E; by left|]. apply elem_of_of_id. rewrite Eu. by left.
  Qed.
End render.
