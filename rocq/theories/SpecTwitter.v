(** SpecTwitter.v: what a tweet of a Twittersphere database says, stated on the tables. *)
From Verif Require Export Twitter SpecCorpus.

(** Keys of the tables: one latest version of each tweet and user, one version of a user at
    a time. *)
Definition twitter_sound (T : twitter) : Prop :=
  (forall r1 r2, r1 ∈ tweet_latest T -> r2 ∈ tweet_latest T -> tl_id r1 = tl_id r2 -> r1 = r2) /\
  (forall u n1 n2, (u, n1) ∈ user_latest T -> (u, n2) ∈ user_latest T -> n1 = n2) /\
  (forall u t n1 n2, (u, t, n1) ∈ user_at_time T -> (u, t, n2) ∈ user_at_time T -> n1 = n2).

(** The tweet's latest version is [r] and its author is known. *)
Definition latest_version (T : twitter) (id : Z) (r : tw_row) : Prop := r ∈ tweet_latest T /\ tl_id r = id.
Definition author (T : twitter) (r : tw_row) (name : string) : Prop := (tl_user r, name) ∈ user_latest T.
(** The author of another tweet at the time that was retrieved. *)
Definition author_then (T : twitter) (id : Z) (name : string) : Prop :=
  exists r, latest_version T id r /\ (tl_user r, tl_retrieved r, name) ∈ user_at_time T.
(** A link of the latest version, in the most resolved form known. *)
Definition links_to (T : twitter) (r : tw_row) (link : string) : Prop :=
  exists u, u ∈ url_table T /\ ur_retrieved u = tl_retrieved r /\ (tl_id r, tl_retrieved r, ur_url u) ∈ tweet_url T /\
    match ur_unwound u, ur_expanded u with
    | Some s, _ => link = s
    | None, Some s => link = s
    | None, None => link = ur_url u
    end.
(** A link to Twitter itself: begins with https://twitter.com/, in any case. *)
Definition to_twitter (link : string) : Prop :=
  exists rest, sql_lower link = ("https://twitter.com/" ++ rest)%string.

(** Everything the tweet can refer to is there. *)
Definition all_known (T : twitter) (r : tw_row) : Prop :=
  match tl_retweeted r with
  | Some id => exists name, author_then T id name
  | None => is_Some (tl_conversation r) /\
            (exists id name, tl_quoted r = Some id /\ author_then T id name) /\
            (exists id name, tl_replied r = Some id /\ author_then T id name)
  end.

(** What the tweet [r] says: the documentation of the class (corpus.py:777-810). *)
Section says.
  Context (tokens : string -> list string) (lower : string -> string) (hostname : string -> option string)
          (times : string -> res (list (string * string))) (T : twitter) (r : tw_row).
  Inductive says : string -> value -> Prop :=
    (* every tweet *)
    | says_by name : author T r name -> says "by" (VText name)
    | says_created g when_ l : times (tl_created r) = Ok l -> (g, when_) ∈ l -> says g (VText when_)
    (* retweets are only pointers *)
    | says_retweeted id : tl_retweeted r = Some id -> says "retweeted_tweet_id" (VInt id)
    | says_retweeted_user id name : tl_retweeted r = Some id -> author_then T id name -> says "retweeted_user" (VText name)
    (* original tweets *)
    | says_word w : tl_retweeted r = None -> w ∈ tokens (tl_text r) -> says "text" (VText w)
    | says_hashtag h : tl_retweeted r = None -> (tl_id r, h) ∈ tweet_hashtag T -> says "#" (VText (lower (sql_lower h)))
    | says_mention m : tl_retweeted r = None -> (tl_id r, m) ∈ tweet_mention T -> says "@" (VText (lower (sql_lower m)))
    | says_conversation id : tl_retweeted r = None -> tl_conversation r = Some id -> says "conversation_id" (VInt id)
    | says_url u : tl_retweeted r = None -> links_to T r u -> ~ to_twitter u -> says "url" (VText u)
    | says_domain u h : tl_retweeted r = None -> links_to T r u -> ~ to_twitter u -> hostname u = Some h -> says "domain" (VText h)
    | says_quoted id : tl_retweeted r = None -> tl_quoted r = Some id -> says "quoted_tweet_id" (VInt id)
    | says_quoted_user id name : tl_retweeted r = None -> tl_quoted r = Some id -> author_then T id name -> says "quoted_user" (VText name)
    | says_replied id : tl_retweeted r = None -> tl_replied r = Some id -> says "replied_to_tweet_id" (VInt id)
    | says_replied_user id name : tl_retweeted r = None -> tl_replied r = Some id -> author_then T id name -> says "replied_to_user" (VText name)
    | says_label c l : tl_retweeted r = None -> (tl_id r, c, 1%Z) ∈ tweet_at_time T -> (c, l) ∈ collection_context T ->
        says "collection_label" (VText l).
End says.
