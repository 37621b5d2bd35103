(** SpecRendered.v: what a page of posts should show, from the dumps that were added. *)
From Verif Require Export Rendered SpecCorpus SpecMarkup.

(** Nothing in the dumps means anything in HTML, except the titles, comments and bodies; the
    bodies are complete HTML. *)
Record plain_history (h : list (string * dump)) : Prop := {
  plain_sites : forall url, url ∈ h.*1 -> harmless url;
  plain_posts : forall url x, x ∈ posts_in url h -> question_or_answer x ->
    (forall s, xp_license x = Some s -> harmless s) /\ (forall s, xp_body x = Some s -> complete s) /\
    (forall s t, xp_tags x = Some s -> t ∈ split_tags s -> harmless t);
  plain_remarks : forall url c s, c ∈ comments_in url h -> xc_license c = Some s -> harmless s;
  plain_names : forall url u s, u ∈ users_in url h -> xu_name u = Some s -> harmless s }.

(** The title of a post: its own, or else that of the last version of its question. *)
Inductive titled (url : string) (h : list (string * dump)) (x : x_post) (t : string) : Prop :=
| own_title : xp_title x = Some t -> titled url h x t
| title_of_question p y : xp_title x = None -> xp_parent x = Some p ->
    last_such (fun y => question_or_answer y /\ xp_id y = p) (posts_in url h) y -> xp_title y = Some t -> titled url h x t.
(** The comments on a post, each in its last version. *)
Definition comments_on (url : string) (h : list (string * dump)) (x : x_post) : list x_comment :=
  filter (fun c => xc_post c = Some (xp_id x)) (latest xc_id (comments_in url h)).
(** The name a user was last given. *)
Definition named (url : string) (h : list (string * dump)) (user : option Z) (n : string) : Prop :=
  exists u x, user = Some u /\ u ≠ 0%Z /\ last_such (fun x => xu_id x = Some u) (users_in url h) x /\ xu_name x = Some n.

(** The tags of the page are the tags of the post, in some order. *)
Definition orders_sets (order : N -> gset string -> list string) : Prop := forall k s, order k s ≡ₚ elements s.

(** Two histories that differ only in the titles and the texts of comments. *)
Definition without_title (x : x_post) : x_post :=
  XPost (xp_type x) (xp_id x) (xp_parent x) (xp_owner x) None (xp_body x) (xp_created x) (xp_license x) (xp_tags x).
Definition without_text (c : x_comment) : x_comment := XComment (xc_id c) (xc_post c) (xc_user c) None (xc_license c).
Definition without_texts (du : dump) : dump :=
  Dump (rmap without_title <$> d_posts du) (rmap without_text <$> d_comments du) (d_users du).
Definition same_but_texts (h h' : list (string * dump)) : Prop :=
  (fun p => (p.1, without_texts p.2)) <$> h = (fun p => (p.1, without_texts p.2)) <$> h'.
