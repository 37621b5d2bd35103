(** Twitter.v: the corpus of a Twittersphere database (hyperreal/corpus.py:770-1005), on top
    of [tweet_index] (Corpus.v), and opening it. *)
From Verif Require Export Corpus.

(** The tables and views that are read. Simplification: texts, names, tags and urls are not
    NULL; ids are integers; [tweet_latest] and [user_latest] are views of the Twittersphere
    tool, taken as tables. *)
Record tw_row := TwRow {
  tl_id : Z; tl_retrieved : string; tl_user : Z; tl_text : string; tl_created : string;
  tl_conversation : option Z; tl_retweeted : option Z; tl_quoted : option Z; tl_replied : option Z }.
Record url_row := UrlRow { ur_url : string; ur_retrieved : string; ur_expanded : option string; ur_unwound : option string }.
Record twitter := Twitter {
  tweet_latest : list tw_row;
  tweet_at_time : list (Z * Z * Z);               (* tweet_id, context_id, directly_collected *)
  collection_context : list (Z * string);         (* context_id, label *)
  tweet_hashtag : list (Z * string);              (* tweet_id, hashtag *)
  tweet_mention : list (Z * string);              (* tweet_id, mentioned_username *)
  tweet_url : list (Z * string * string);         (* tweet_id, retrieved_at, url *)
  url_table : list url_row;
  user_latest : list (Z * string);                (* user_id, username *)
  user_at_time : list (Z * string * string);      (* user_id, retrieved_at, username *)
  directly_collected_tweet : gset Z }.

(** corpus.py:814-833: opening. [metadata]: the table, if there is one, with the schema
    version, if it has one. Simplification: the version is an integer. *)
Definition twitter_open (metadata : option (option Z)) : res unit :=
  match metadata with
  | None => Err OperationalError                  (* no such table *)
  | Some None => Err ValueError
  | Some (Some version) => if (version <? 15)%Z then Err ValueError else Ok tt
  end.

(** SQL's [lower] and the left-hand side of [like], which ignores case: of ASCII letters. *)
Definition ascii_lower (a : Ascii.ascii) : Ascii.ascii :=
  let n := Ascii.nat_of_ascii a in
  if (65 <=? n) && (n <=? 90) then Ascii.ascii_of_nat (n + 32) else a.
Fixpoint sql_lower (s : string) : string :=
  match s with EmptyString => EmptyString | String a s => String (ascii_lower a) (sql_lower s) end.
(** [like 'https://twitter.com/%']. *)
Definition internal_url (url : string) : bool := String.prefix "https://twitter.com/" (sql_lower url).

(** corpus.py:875-881, 937-951: rows of an id. *)
Definition of_id {A} (id : Z) (l : list (Z * A)) : list A := snd <$> filter (fun p => p.1 = id) l.
Definition latest_tweet (T : twitter) (id : Z) : list tw_row := filter (fun r => tl_id r = id) (tweet_latest T).

(** corpus.py:858-871: labels of the collections in which the tweet was directly collected. *)
Definition labels_of (T : twitter) (id : Z) : list string :=
  concat ((fun r : Z * Z * Z => of_id r.1.2 (collection_context T))
            <$> filter (fun r : Z * Z * Z => r.1.1 = id /\ r.2 = 1%Z) (tweet_at_time T)).

(** corpus.py:895-910: [tweet_latest], [tweet_url] and [url] joined. *)
Definition full_url (u : url_row) : string :=
  match ur_unwound u with
  | Some s => s
  | None => match ur_expanded u with Some s => s | None => ur_url u end
  end.
Definition external_urls (T : twitter) (id : Z) : list string :=
  filter (fun s => internal_url s = false)
    (concat ((fun r => concat ((fun t : Z * string * string =>
        full_url <$> filter (fun u => ur_url u = t.2 /\ ur_retrieved u = tl_retrieved r) (url_table T))
      <$> filter (fun t => t.1 = (id, tl_retrieved r)) (tweet_url T))) <$> latest_tweet T id)).

(** corpus.py:918-941: the user who wrote another tweet, as it was when that was retrieved. *)
Definition related_user (T : twitter) (other : option Z) : option string :=
  match other with
  | None => None
  | Some id =>
      match latest_tweet T id with
      | [] => None
      | r :: _ => snd <$> List.find (fun p : Z * string * string => bool_decide (p.1 = (tl_user r, tl_retrieved r))) (user_at_time T)
      end
  end.

(** corpus.py:846-943: one document; with [created_at]. [hostname]: urlparse. *)
Definition twitter_doc (hostname : string -> option string) (T : twitter) (id : Z) : res (string * tweet) :=
  match latest_tweet T id with
  | [] => Err IndexError
  | r :: _ =>
      match of_id (tl_user r) (user_latest T) with
      | [] => Err IndexError
      | name :: _ =>
          Ok (tl_created r,
              Tweet (tl_text r) name (VInt <$> tl_conversation r)
                (VInt <$> tl_retweeted r) (related_user T (tl_retweeted r))
                (VInt <$> tl_quoted r) (related_user T (tl_quoted r))
                (VInt <$> tl_replied r) (related_user T (tl_replied r))
                (sql_lower <$> of_id id (tweet_hashtag T)) (sql_lower <$> of_id id (tweet_mention T))
                (external_urls T id) (hostname <$> external_urls T id) (labels_of T id) [])
      end
  end.

(** corpus.py:999-1005 [keys], corpus.py:835-947 [docs]. *)
Definition twitter_keys (T : twitter) : list Z := z_list (directly_collected_tweet T).
Definition twitter_docs (hostname : string -> option string) (T : twitter) (keys : option (list Z)) : generator (Z * (string * tweet)) :=
  generate (fun id => rmap (fun d => (id, d)) (twitter_doc hostname T id)) (default (twitter_keys T) keys).

(** What the indexer gets (corpus.py:1007-1043). [tokens]: unescaping and the tokeniser;
    [times]: the date rounded to each granularity, raising if it cannot be read. *)
Definition with_times (l : list (string * string)) (tw : tweet) : tweet :=
  Tweet (tw_text tw) (tw_user tw) (tw_conversation tw) (tw_retweeted tw) (tw_retweeted_user tw)
    (tw_quoted tw) (tw_quoted_user tw) (tw_replied tw) (tw_replied_user tw) (tw_hashtags tw) (tw_mentions tw)
    (tw_urls tw) (tw_domains tw) (tw_labels tw) l.
Definition twitter_corpus (tokens : string -> list string) (lower : string -> string) (hostname : string -> option string)
    (times : string -> res (list (string * string))) (T : twitter) : corpus :=
  (fun id => (VInt id,
     rbind (twitter_doc hostname T id) (fun '(created, tw) =>
     rmap (fun l => tweet_index tokens lower (with_times l tw)) (times created)))) <$> twitter_keys T.
