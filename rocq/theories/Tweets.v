(** Tweets.v: the HTML of tweets made from the tables of a Twittersphere database:
    [render_docs_html] (hyperreal/corpus.py:987-997) of the documents of [docs] (835-952) in
    the template (959-984). *)
From Verif Require Export Twitter Rendered.
From stdpp Require Import pretty.

(** The other columns of a row of [tweet_latest], and of [user_latest], that are shown; NULL
    if they are not known. *)
Record tweet_counts := TweetCounts { tc_likes : option Z; tc_replies : option Z; tc_quotes : option Z; tc_retweets : option Z }.
Record user_profile := UserProfile { up_image : option string; up_name : option string }.
Definition shown_number (o : option Z) : string := shown_text_column (pretty <$> o).

(** corpus.py:959-984: the fields of the template. [d]: the document (corpus.py:846-943), of
    the row [r] (847-857) and the user (918, 954-957). *)
Definition tweet_fields (counts : tw_row -> tweet_counts) (profile : Z * string -> user_profile) (r : tw_row)
    (d : string * tweet) : rendered_tweet :=
  let user := (tl_user r, tw_user d.2) in
  RT (shown_text_column (up_image (profile user))) (tw_user d.2) (shown_text_column (up_name (profile user))) (pretty (tl_id r))
    d.1 (tw_text d.2) (shown_number (tc_likes (counts r))) (shown_number (tc_replies (counts r))) (shown_number (tc_quotes (counts r)))
    (shown_number (tc_retweets (counts r))) (tl_retrieved r).

(** corpus.py:987-997. *)
Definition render_tweets (counts : tw_row -> tweet_counts) (profile : Z * string -> user_profile) (hostname : string -> option string)
    (T : twitter) (ks : list Z) : res (list (Z * string)) :=
  rtraverse (fun id => rbind (twitter_doc hostname T id) (fun d =>
    match latest_tweet T id with
    | [] => Err IndexError
    | r :: _ => Ok (id, render (tweet_template (tweet_fields counts profile r d)))
    end)) ks.
