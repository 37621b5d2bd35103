(** SpecCorpus.v: what the corpora are supposed to store and return. *)
From Verif Require Export Corpus SpecIndexing.

(** The table holds exactly [xs], under the keys 1, 2, ..., in order. *)
Definition numbered {A} (xs : list A) (m : gmap N A) : Prop :=
  forall k, m !! k = if (k =? 0)%N then None else xs !! (N.to_nat k - 1).

(** Key [k] is the document of post [id] of the site [url]. *)
Definition identifies (st : sx) (k : N) (url : string) (id : Z) : Prop :=
  exists row, posts st !! k = Some row /\ sites st !! po_site row = Some url /\ xp_id (po_x row) = id.

(** The document with key [k]. *)
Definition document (st : sx) (k : N) (doc : sx_doc) : Prop := sx_get st k = Ok (k, doc).

(** Databases made by adding dumps (whether or not a call fails). *)
Inductive sx_reachable : sx -> Prop :=
| sx_new : sx_reachable empty_sx
| sx_add url du st : sx_reachable st -> sx_reachable (add_site_data url du st).1.

(** Questions and answers, by PostTypeId. *)
Definition question_or_answer (x : x_post) : Prop := xp_type x = Some "1" \/ xp_type x = Some "2".

(** [x] is the last element of the list satisfying [P]. *)
Definition last_such {A} (P : A -> Prop) (l : list A) (x : A) : Prop :=
  exists l1 l2, l = l1 ++ x :: l2 /\ P x /\ forall y, y ∈ l2 -> ~ P y.

(** No angle bracket in a string; the characters of a string. *)
Definition chars (s : string) : list Ascii.ascii := String.list_ascii_of_string s.
Definition plain_tag (s : string) : Prop := "<"%char ∉ chars s /\ ">"%char ∉ chars s.
Definition tag_string (tags : list string) : string :=
  foldr (fun t rest => "<" ++ t ++ ">" ++ rest)%string "" tags.

(** ** The history of a StackExchange corpus *)

(** All calls of add_site_data made on a new corpus, in order (failed calls included). *)
Definition made_by (h : list (string * dump)) : sx :=
  foldl (fun st p => (add_site_data p.1 p.2 st).1) empty_sx h.

(** The three files can be read to their ends. *)
Definition is_err {A} (r : res A) : bool := match r with Ok _ => false | Err _ => true end.
Definition readable (du : dump) : Prop :=
  existsb is_err (d_posts du) = false /\ existsb is_err (d_comments du) = false /\ existsb is_err (d_users du) = false.
#[global] Instance readable_dec du : Decision (readable du).
Proof. unfold readable. apply _. Defined.

(** Everything read for a site, over all the readable dumps, oldest first. *)
Definition contents {A} (l : list (res A)) : list A := omap (fun r => match r with Ok x => Some x | Err _ => None end) l.
Definition dumps_of (url : string) (h : list (string * dump)) : list dump :=
  snd <$> filter (fun p => p.1 = url /\ readable p.2) h.
Definition posts_in (url : string) (h : list (string * dump)) : list x_post :=
  concat ((fun du => contents (d_posts du)) <$> dumps_of url h).
Definition comments_in (url : string) (h : list (string * dump)) : list x_comment :=
  concat ((fun du => contents (d_comments du)) <$> dumps_of url h).
Definition users_in (url : string) (h : list (string * dump)) : list x_user :=
  concat ((fun du => contents (d_users du)) <$> dumps_of url h).

(** The elements that no later element with the same id replaces. *)
Fixpoint latest {A} (id : A -> option Z) (l : list A) : list A :=
  match l with
  | [] => []
  | x :: l => if decide (id x ≠ None /\ id x ∈ id <$> l) then latest id l else x :: latest id l
  end.

(** The name last given to a user of a site, as shown. *)
Definition name_in (url : string) (h : list (string * dump)) (user : option Z) : string :=
  match user with
  | None => "<Deleted User>"
  | Some u => match List.find (fun x => bool_decide (xu_id x = Some u)) (rev (users_in url h)) with
              | Some x => default "<Deleted User>" (xu_name x)
              | None => "<Deleted User>"
              end
  end.

(** The document a post [x] (the last version read) of a site gives: its own text, the tags
    of the question (every tag any version of it had), the comments on it. *)
Definition tagged (url : string) (h : list (string * dump)) (post : Z) (t : string) : Prop :=
  exists x s, x ∈ posts_in url h /\ question_or_answer x /\ xp_id x = post /\ xp_tags x = Some s /\ t ∈ split_tags s.
Definition document_of (url : string) (h : list (string * dump)) (x : x_post) (doc : sx_doc) : Prop :=
  sd_site_url doc = url /\ sd_id doc = xp_id x /\ sd_title doc = xp_title x /\ sd_body doc = xp_body x /\
  sd_created doc = xp_created x /\ sd_type doc = (if decide (xp_type x = Some "1") then "Question" else "Answer") /\
  sd_name doc = name_in url h (xp_owner x) /\
  (forall t, t ∈ sd_tags doc <-> tagged url h (default (xp_id x) (xp_parent x)) t) /\
  sd_comments doc = (fun c => (name_in url h (xc_user c), xc_text c)) <$>
    filter (fun c => xc_post c = Some (xp_id x)) (latest xc_id (comments_in url h)).

(** ** Text files *)
Definition white : list nat := [9; 10; 11; 12; 13; 28; 29; 30; 31; 32].
Definition only_whitespace (s : string) : Prop := forall a, a ∈ chars s -> Ascii.nat_of_ascii a ∈ white.
#[global] Instance only_whitespace_dec s : Decision (only_whitespace s).
Proof.
  destruct (decide (Forall (fun a => Ascii.nat_of_ascii a ∈ white) (chars s))) as [H|H];
    [left|right]; unfold only_whitespace; by rewrite <- Forall_forall.
Defined.
Fixpoint before_comma (s : string) : string :=
  match s with
  | EmptyString => ""
  | String a s => if decide (a = ","%char) then "" else String a (before_comma s)
  end.
(** Lines on which the model of the CSV reader applies: no double quote. *)
Definition unquoted (line : string) : Prop := """"%char ∉ chars line.

(** ** Tweets *)
Definition tweet_corpus (tokens : string -> list string) (lower : string -> string) (tws : list (value * tweet)) : corpus :=
  (fun p => (p.1, Ok (tweet_index tokens lower p.2))) <$> tws.
(** Everything the tweet refers to is known. *)
Definition references_known (tw : tweet) : Prop :=
  match tw_retweeted tw with
  | Some _ => is_Some (tw_retweeted_user tw)
  | None => is_Some (tw_conversation tw) /\ is_Some (tw_quoted tw) /\ is_Some (tw_quoted_user tw) /\
            is_Some (tw_replied tw) /\ is_Some (tw_replied_user tw)
  end.
