(** Rendered.v: the HTML of posts made from the tables of a StackExchange corpus:
    [render_docs_html] (hyperreal/corpus.py:670-693) with the fields of
    [_get_rendered_doc_fields] (601-668) in the template (548-598). *)
From Verif Require Export Corpus Markup.
From stdpp Require Import pretty.

(** What Jinja makes of a column: [str] of the value, "None" for NULL. *)
Definition shown_text_column (o : option string) : string := default "None" o.
(** [{% if ... %}] around the link to a user: NULL and 0 are false. *)
Definition linked_user (u : option Z) : option string :=
  match u with Some u => if bool_decide (u = 0%Z) then None else Some (pretty u) | None => None end.

(** corpus.py:548-598: the fields of the template, with the site of the post for its comments
    (corpus.py:643-662: both have the same [site_id]); [LiveLink]: corpus.py:626. [tags]: the
    set in the order of its iteration. *)
Definition template_fields (tags : list string) (f : sx_fields) : rendered_post :=
  RP (shown_text_column (sf_title f)) (sf_type f) (sf_url f)
     (sf_url f +:+ "/questions/" +:+ pretty (sf_id f))%string
     (shown_text_column (sf_license f)) (linked_user (sf_owner f)) (shown_text_column (sf_name f))
     (shown_text_column (sf_body f)) tags
     ((fun c : option Z * option string * option string * option string =>
         PC (shown_text_column c.1.2) (shown_text_column c.2) (sf_url f) (linked_user c.1.1.1) (shown_text_column c.1.1.2))
        <$> sf_comments f).

(** corpus.py:670-693. [order]: how Python iterates over the set of tags of a post. *)
Definition render_posts (order : N -> gset string -> list string) (st : sx) (ks : list N) : res (list (N * string)) :=
  rtraverse (fun k => rmap (fun f => (k, render (post_template (template_fields (order k (sf_tags f)) f)))) (sx_fields_of st k)) ks.
