(** PropertiesDates.v: C113 (timelines). *)
From Verif Require Import SpecDates DatesProofs SpecHtml SpecTwitter StackProofs StackHistory PropertiesIndexing PropertiesCorpus PropertiesPosts PropertiesTwitter PropertiesReindex.

(** ** C113: the creation dates of a collection form a timeline *)
(** Dates written as ISO texts sort like the dates, and different dates are written
    differently. *)
Theorem C113_texts_sort_like_dates : forall sep zone a b, utc_offset zone -> calendar a -> calendar b ->
  (string_le (isoformat sep a ++ zone) (isoformat sep b ++ zone) = true <-> datetime_le a b) /\
  ((isoformat sep a ++ zone = isoformat sep b ++ zone)%string <-> a = b).
Proof.
  intros sep z a b Hz Ha Hb. apply offset_nice in Hz. split; [by apply isoformat_le|].
  split; [by apply isoformat_inj|by intros ->].
Qed.
Print Assumptions C113_texts_sort_like_dates.

(** When post number [doc] of the corpus was created. *)
Definition post_made (isoparse : string -> res (datetime * string)) (h : list (string * dump)) (all : list N) (doc : N) (t : datetime) : Prop :=
  exists k url x c z, all !! N.to_nat doc = Some k /\ identifies (made_by h) k url (xp_id x) /\
    last_such (fun y => question_or_answer y /\ xp_id y = xp_id x) (posts_in url h) x /\
    xp_created x = Some c /\ isoparse c = Ok (t, z).

(** StackExchange: days, months and years. *)
Theorem C113_post_timeline : forall tokens lxml isoparse zone h all bsz pos s cn,
  splits_at_spaces tokens -> utc_offset zone ->
  (forall url x c t z, x ∈ posts_in url h -> xp_created x = Some c -> isoparse c = Ok (t, z) -> calendar t /\ z = zone) ->
  sx_clean (parse_body lxml) (post_dates isoparse) h -> sx_keys (made_by h) all -> all ≠ [] ->
  index_ready cn -> quiet (disk cn) -> pool_works cn -> (forall i, fault s i = None) ->
  complete s (length (batches bsz (sx_corpus tokens (parse_body lxml) (post_dates isoparse) (made_by h) all))) ->
  exists cn', run_index bsz pos (sx_corpus tokens (parse_body lxml) (post_dates isoparse) (made_by h) all) s cn = (cn', Ok tt) /\
    forall g field queries, (g, field) ∈ [(Day, "created_day"); (Month, "created_month"); (Year, "created_year")] ->
      is_timeline (post_made isoparse h all) g zone queries (intersect_queries_with_field (disk cn') queries field).
Proof.
  intros tokens lxml isoparse zone h all bsz pos s cn Htok Hz Hcal Hcl Hall Hne Hr Hq Hp Hf Hc.
  destruct (C100_posts_found_partial tokens lxml (post_dates isoparse) Htok h all bsz pos s cn Hcl Hall Hne Hr Hq Hp Hf Hc) as (cn' & Hrun & _ & Hget).
  exists cn'. split; [exact Hrun|]. intros g field queries Hg.
  destruct (indexing_kept _ _ _ _ _ _ _ Hr Hc Hrun) as [(_ & [Hok _] & Hu) _].
  apply timeline_holds; [exact Hok|exact Hu|by apply offset_nice| |].
  - intros doc t (k & url & x & c & z & _ & _ & Hl & Hx & Hi). destruct Hl as (l1 & l2 & E & _).
    destruct (Hcal url x c t z) as [H _]; [rewrite E; apply elem_of_app; right; by left|exact Hx|exact Hi|exact H].
  - intros v. destruct (Hget field v) as (docs & Hd & Hiff). exists docs. split; [exact Hd|]. intros doc.
    rewrite <- (N2Nat.id doc) at 1. rewrite Hiff. split.
    + intros (k & url & x & w & Hk & Hid & Hl & -> & Hs).
      assert (exists c d m y, xp_created x = Some c /\ post_dates isoparse c = Ok (d, m, y) /\
                w = match g with Day => d | Month => m | _ => y end) as (c & d & m & y & Hx & Hdt & ->).
      { repeat (rewrite elem_of_cons in Hg). rewrite elem_of_nil in Hg.
        destruct Hg as [[= -> ->]|[[= -> ->]|[[= -> ->]|[]]]]; inversion Hs; subst;
          match goal with H : created _ _ _ _ _ |- _ => destruct H as (c & H1 & H2) end; eauto 10. }
      unfold post_dates in Hdt. destruct (isoparse c) as [[t z]|] eqn:Et; [|discriminate Hdt].
      exists t. split; [exists k, url, x, c, z; split_and!; done|].
      destruct (Hcal url x c t z) as [_ ->]; [destruct Hl as (l1 & l2 & -> & _); apply elem_of_app; right; by left|exact Hx|exact Et|].
      cbn in Hdt. injection Hdt as <- <- <-.
      repeat (rewrite elem_of_cons in Hg). rewrite elem_of_nil in Hg.
      destruct Hg as [[= -> ->]|[[= -> ->]|[[= -> ->]|[]]]]; reflexivity.
    + intros (t & (k & url & x & c & z & Hk & Hid & Hl & Hx & Et) & ->).
      destruct (Hcal url x c t z) as [_ ->]; [destruct Hl as (l1 & l2 & -> & _); apply elem_of_app; right; by left|exact Hx|exact Et|].
      eexists k, url, x, _. split_and!; [exact Hk|exact Hid|exact Hl|reflexivity|].
      assert (created (post_dates isoparse) x (stamp Day (t, zone)) (stamp Month (t, zone)) (stamp Year (t, zone))) as Hcr.
      { exists c. split; [exact Hx|]. unfold post_dates. rewrite Et. reflexivity. }
      repeat (rewrite elem_of_cons in Hg). rewrite elem_of_nil in Hg.
      destruct Hg as [[= -> ->]|[[= -> ->]|[[= -> ->]|[]]]].
      * exact (says_day _ _ _ _ _ _ _ _ _ _ Hcr).
      * exact (says_month _ _ _ _ _ _ _ _ _ _ Hcr).
      * exact (says_year _ _ _ _ _ _ _ _ _ _ Hcr).
Qed.
Print Assumptions C113_post_timeline.

(** When tweet number [doc] was created. *)
Definition tweet_made (isoparse : string -> res (datetime * string)) (T : twitter) (ids : list Z) (doc : N) (t : datetime) : Prop :=
  exists id r z, ids !! N.to_nat doc = Some id /\ latest_version T id r /\ isoparse (tl_created r) = Ok (t, z).

(** Twittersphere: every granularity, from minutes to years. *)
Theorem C113_tweet_timeline : forall tokens lower hostname isoparse zone T bsz pos s cn,
  utc_offset zone ->
  index_ready cn -> quiet (disk cn) -> pool_works cn -> (forall i, fault s i = None) ->
  twitter_sound T -> directly_collected_tweet T ≠ ∅ ->
  (forall id, id ∈ directly_collected_tweet T -> exists r name, latest_version T id r /\ author T r name /\
     exists t, isoparse (tl_created r) = Ok (t, zone) /\ calendar t) ->
  (pos = true -> forall id r, id ∈ directly_collected_tweet T -> latest_version T id r -> all_known T r) ->
  let cp := twitter_corpus tokens lower hostname (tweet_dates isoparse) T in
  complete s (length (batches bsz cp)) ->
  exists cn' ids, run_index bsz pos cp s cn = (cn', Ok tt) /\
    ids ≡ₚ elements (directly_collected_tweet T) /\ StronglySorted Z.le ids /\
    forall g queries, is_timeline (tweet_made isoparse T ids) g zone queries
      (intersect_queries_with_field (disk cn') queries ("created_" ++ granularity_name g)).
Proof.
  intros tokens lower hostname isoparse zone T bsz pos s cn Hz Hr Hq Hp Hf Hs Hne Hk Hpos cp Hc.
  destruct (C90_tweets_found tokens lower hostname (tweet_dates isoparse) T bsz pos s cn Hr Hq Hp Hf Hs Hne) as (cn' & ids & Hrun & Hids & Hsort & _ & Hget).
  { intros id Hid. destruct (Hk id Hid) as (r & name & H1 & H2 & t & H3 & _). exists r, name. eexists. split_and!; [exact H1|exact H2|].
    unfold tweet_dates. rewrite H3. reflexivity. }
  { exact Hpos. }
  { exact Hc. }
  exists cn', ids. split_and!; [exact Hrun|exact Hids|exact Hsort|]. intros g queries.
  assert (forall i id r t z, ids !! i = Some id -> latest_version T id r -> isoparse (tl_created r) = Ok (t, z) -> calendar t /\ z = zone) as Hcal.
  { intros i id r t z Hi Hv Hp'. assert (id ∈ directly_collected_tweet T) as Hin.
    { apply elem_of_elements. rewrite <- Hids. by eapply elem_of_list_lookup_2. }
    destruct (Hk id Hin) as (r' & name & Hv' & _ & t' & Ht' & Hc').
    assert (r' = r) as -> by (destruct Hs as (Hs & _), Hv, Hv'; apply Hs; congruence).
    rewrite Ht' in Hp'. by injection Hp' as <- <-. }
  destruct (indexing_kept _ _ _ _ _ _ _ Hr Hc Hrun) as [(_ & [Hok _] & Hu) _].
  apply timeline_holds; [exact Hok|exact Hu|by apply offset_nice| |].
  - intros doc t (id & r & z & Hi & Hv & Hp'). by destruct (Hcal _ _ _ _ _ Hi Hv Hp').
  - intros v. destruct (Hget ("created_" ++ granularity_name g)%string v) as (docs & Hd & Hiff). exists docs. split; [exact Hd|]. intros doc.
    rewrite <- (N2Nat.id doc) at 1. rewrite Hiff. split.
    + intros (id & r & Hi & Hv & Hsay).
      assert (exists l w, tweet_dates isoparse (tl_created r) = Ok l /\ (("created_" ++ granularity_name g)%string, w) ∈ l /\ v = VText w) as (l & w & Hl & Hin & ->).
      { inversion Hsay; subst; try (by destruct g). eauto. }
      unfold tweet_dates in Hl. destruct (isoparse (tl_created r)) as [[t z]|] eqn:Et; [|discriminate Hl].
      destruct (Hcal _ _ _ _ _ Hi Hv Et) as [_ ->]. exists t. split; [exists id, r, zone; done|].
      cbn in Hl. injection Hl as <-. f_equal.
      repeat (rewrite elem_of_cons in Hin). rewrite elem_of_nil in Hin.
      destruct g; destruct Hin as [H|[H|[H|[H|[H|[]]]]]]; try discriminate H; injection H as ->; reflexivity.
    + intros (t & (id & r & z & Hi & Hv & Et) & ->). destruct (Hcal _ _ _ _ _ Hi Hv Et) as [_ ->].
      exists id, r. split_and!; [exact Hi|exact Hv|].
      eapply (says_created _ _ _ _ _ _ _ (stamp g (t, zone))); [unfold tweet_dates; rewrite Et; reflexivity|].
      cbn. destruct g; repeat (first [by left | right]).
Qed.
Print Assumptions C113_tweet_timeline.

(** A parser for the dates of the examples: the sample tweets were created on 14 November 2020
    and on 3 February 2021, the sample post on 2 January 2020. *)
Definition sample_isoparse (s : string) : res (datetime * string) :=
  if bool_decide (s = "2020") then Ok (DateTime 2020 11 14 23 59 7 0, "+00:00")
  else if bool_decide (s = "2021") then Ok (DateTime 2021 2 3 4 5 6 789, "+00:00")
  else Ok (DateTime 2020 1 2 3 4 5 0, "+00:00").
Definition dated_tweets := twitter_corpus two_words id tw_host (tweet_dates sample_isoparse) tw_sample.
Definition dated_posts := sx_corpus spaced_tokens (parse_body lxml_broken) (post_dates sample_isoparse) (made_by one_post) [1]%N.
Lemma sample_isoparse_calendar s : exists t, sample_isoparse s = Ok (t, "+00:00") /\ calendar t.
Proof. unfold sample_isoparse. case_bool_decide; [|case_bool_decide]; eexists; (split; [reflexivity|]); unfold calendar; cbn; lia. Qed.
Example C113_example :
  (isoformat "T" (DateTime 987 1 2 3 4 5 60) = "0987-01-02T03:04:05.000060") /\
  (utc_offset "+00:00") /\
  (* the hypotheses for the posts *)
  (forall url x c t z, x ∈ posts_in url one_post -> xp_created x = Some c -> sample_isoparse c = Ok (t, z) -> calendar t /\ z = "+00:00") /\
  sx_clean (parse_body lxml_broken) (post_dates sample_isoparse) one_post /\
  complete (in_order 1) (length (batches 1 dated_posts)) /\
  intersect_queries_with_field (disk (run_index 1 true dated_posts (in_order 1) conn0).1) [("all", {[0; 5]}%N)] "created_month" =
    ([VText "2020-01-01T00:00:00+00:00"], [1%N], [("all", [1])]) /\
  (* the hypotheses for the tweets *)
  (forall id, id ∈ directly_collected_tweet tw_sample -> exists r name, latest_version tw_sample id r /\ author tw_sample r name /\
     exists t, sample_isoparse (tl_created r) = Ok (t, "+00:00") /\ calendar t) /\
  complete (in_order 2) (length (batches 1 dated_tweets)) /\
  intersect_queries_with_field (disk (run_index 1 false dated_tweets (in_order 2) conn0).1) [("second", {[1]}%N)] "created_hour" =
    ([VText "2020-11-14T23:00:00+00:00"; VText "2021-02-03T04:00:00+00:00"], [1%N; 1%N], [("second", [0; 1])]).
Proof.
  split; [vm_compute; reflexivity|]. split; [right; exists "00:00"; by left|]. split_and!.
  - intros url x c t z _ _ H. destruct (sample_isoparse_calendar c) as (t' & E & Hc). rewrite E in H. by injection H as <- <-.
  - split; [by intros; eexists|]. split.
    + intros url x Hx Hq. unfold posts_in in Hx. apply elem_of_concat in Hx as (l & Hx & Hl). apply elem_of_list_fmap in Hl as (p & -> & Hp).
      apply elem_of_list_fmap in Hp as (q & -> & [[_ Hr] Hin]%elem_of_list_filter). apply elem_of_list_singleton in Hin as ->. cbn in Hx.
      apply elem_of_list_singleton in Hx as ->. by eexists _, _.
    + intros url x Hx Hq. unfold comments_in in Hx. apply elem_of_concat in Hx as (l & Hx & Hl). apply elem_of_list_fmap in Hl as (p & -> & Hp).
      apply elem_of_list_fmap in Hp as (q & -> & [[_ Hr] Hin]%elem_of_list_filter). apply elem_of_list_singleton in Hin as ->. cbn in Hx. by apply elem_of_nil in Hx.
  - apply complete_in_order.
  - by_computation.
  - intros id Hid. change (directly_collected_tweet tw_sample) with ({[11; 10]}%Z : gset Z) in Hid.
    apply elem_of_union in Hid as [->%elem_of_singleton| ->%elem_of_singleton].
    + exists row2, "bob". split; [|split]; [split; [|done]| |apply sample_isoparse_calendar]; unfold author; cbn; set_solver.
    + exists row1, "ann". split; [|split]; [split; [|done]| |apply sample_isoparse_calendar]; unfold author; cbn; set_solver.
  - apply complete_in_order.
  - by_computation.
Qed.
