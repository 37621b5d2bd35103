(** SpecTweets.v: what a page of tweets should show, from the tables. *)
From Verif Require Export Tweets SpecTwitter SpecMarkup.

(** A text as Twitter sends it: of the characters that mean something in HTML, [&], [<] and
    [>] are replaced by references; quotes are not. *)
Fixpoint sent (s : string) : string :=
  match s with
  | "" => ""
  | String c s =>
      ((if Ascii.eqb c "&" then "&amp;" else if Ascii.eqb c "<" then "&lt;" else if Ascii.eqb c ">" then "&gt;" else String c "")
       +:+ sent s)%string
  end.

(** Names of users, addresses of images and dates mean nothing in HTML. *)
Record plain_twitter (profile : Z * string -> user_profile) (T : twitter) : Prop := {
  plain_users_of : forall u n, (u, n) ∈ user_latest T -> harmless n;
  plain_images : forall p s, p ∈ user_latest T -> up_image (profile p) = Some s -> harmless s;
  plain_full_names : forall p s, p ∈ user_latest T -> up_name (profile p) = Some s -> harmless s;
  plain_dates : forall r, r ∈ tweet_latest T -> harmless (tl_created r) /\ harmless (tl_retrieved r) }.

(** The collected tweet and its author are there. *)
Definition can_be_shown (T : twitter) (id : Z) : Prop := exists r name, latest_version T id r /\ author T r name.

(** The same database, but the text of each tweet is another one. *)
Definition with_text (f : tw_row -> string) (r : tw_row) : tw_row :=
  TwRow (tl_id r) (tl_retrieved r) (tl_user r) (f r) (tl_created r) (tl_conversation r) (tl_retweeted r) (tl_quoted r) (tl_replied r).
Definition with_texts (f : tw_row -> string) (T : twitter) : twitter :=
  Twitter (with_text f <$> tweet_latest T) (tweet_at_time T) (collection_context T) (tweet_hashtag T) (tweet_mention T) (tweet_url T)
    (url_table T) (user_latest T) (user_at_time T) (directly_collected_tweet T).
