(** SpecMarkup.v: how a reader sees an HTML text. A browser's tokeniser, in small: it knows
    text, tags, quoted attribute values and character references. Simplifications: comments
    and declarations are read as tags; a quote anywhere in a tag opens a quoted value; of the
    named references it knows those of &, <, >, and the two quotes, the others are shown as
    they are; the contents of script and style elements are read as text. *)
From Verif Require Export Markup.

(** What is seen of a character: it is shown to the reader, it is part of a tag, or of an
    attribute value inside quotes. *)
Inductive seen := Shown (c : ascii) | Tag (c : ascii) | Attr (c : ascii).
(** Where references are resolved: in the text, inside double or single quotes. *)
Inductive place := InText | InDouble | InSingle.
Inductive mode := At (p : place) | Opening | InTag | Ref (p : place) (acc : string).

Definition letter (c : ascii) : bool :=
  let n := nat_of_ascii c in (((65 <=? n) && (n <=? 90)) || ((97 <=? n) && (n <=? 122)))%nat.
Definition digit (c : ascii) : bool := let n := nat_of_ascii c in ((48 <=? n) && (n <=? 57))%nat.
Fixpoint chars_of (s : string) : list ascii := match s with "" => [] | String c s => c :: chars_of s end.

Definition at_place (p : place) (c : ascii) : seen := match p with InText => Shown c | _ => Attr c end.
Definition literally (p : place) (s : string) : list seen := List.map (at_place p) (chars_of s).

Definition reference (name : string) : option ascii :=
  if String.eqb name "amp" then Some "&"%char
  else if String.eqb name "lt" then Some "<"%char
  else if String.eqb name "gt" then Some ">"%char
  else if String.eqb name "quot" then Some """"%char
  else if String.eqb name "apos" then Some "'"%char
  else if String.eqb name "#34" then Some """"%char
  else if String.eqb name "#39" then Some "'"%char
  else None.

Definition step_at (p : place) (c : ascii) : list seen * mode :=
  if Ascii.eqb c "&" then ([], Ref p "")
  else match p with
       | InText => if Ascii.eqb c "<" then ([], Opening) else ([Shown c], At InText)
       | InDouble => if Ascii.eqb c """" then ([Tag c], InTag) else ([Attr c], At InDouble)
       | InSingle => if Ascii.eqb c "'" then ([Tag c], InTag) else ([Attr c], At InSingle)
       end.
Definition prepend {B} (l : list seen) (x : list seen * B) : list seen * B := (l ++ x.1, x.2).
Definition step (m : mode) (c : ascii) : list seen * mode :=
  match m with
  | At p => step_at p c
  | Opening => if letter c || Ascii.eqb c "/" || Ascii.eqb c "!" || Ascii.eqb c "?"
               then ([Tag "<"; Tag c], InTag)
               else prepend [Shown "<"] (step_at InText c)
  | InTag => ([Tag c], if Ascii.eqb c ">" then At InText else if Ascii.eqb c """" then At InDouble
                       else if Ascii.eqb c "'" then At InSingle else InTag)
  | Ref p acc =>
      if Ascii.eqb c ";" then
        (match reference acc with Some x => [at_place p x] | None => literally p ("&" +:+ acc +:+ ";")%string end, At p)
      else if letter c || digit c || Ascii.eqb c "#" then ([], Ref p (acc +:+ String c ""))
      else prepend (literally p ("&" +:+ acc)%string) (step_at p c)
  end.
Fixpoint scan (m : mode) (s : string) : list seen * mode :=
  match s with
  | "" => ([], m)
  | String c s => let '(l, m') := step m c in prepend l (scan m' s)
  end.
(** What remains when the text ends. *)
Definition at_end (m : mode) : list seen :=
  match m with
  | At _ | InTag => []
  | Opening => [Shown "<"]
  | Ref p acc => literally p ("&" +:+ acc)%string
  end.
Definition reads (s : string) : list seen := let '(l, m) := scan (At InText) s in l ++ at_end m.

Fixpoint string_of (l : list ascii) : string := match l with [] => "" | c :: l => String c (string_of l) end.
(** The text shown to the reader, the tags (without the values of attributes), and the values. *)
Definition shown_text (s : string) : string :=
  string_of (concat (List.map (fun x => match x with Shown c => [c] | _ => [] end) (reads s))).
Definition tags (s : string) : string :=
  string_of (concat (List.map (fun x => match x with Tag c => [c] | _ => [] end) (reads s))).
Definition tags_of (l : list seen) : string :=
  string_of (concat (List.map (fun x => match x with Tag c => [c] | _ => [] end) l)).

(** An HTML text that leaves the reader in the text: every tag, quotation and reference of it
    is finished. *)
Definition complete (s : string) : Prop := (scan (At InText) s).2 = At InText.
(** ... at the latest with the end of the list item it is in. *)
Definition settles (s : string) : Prop := (scan (At InText) (s +:+ "</li>")%string).2 = At InText.
(** No character of the text means anything in HTML. *)
Definition harmless (s : string) : Prop :=
  forall c, c ∈ chars_of s -> c ≠ "&"%char /\ c ≠ "<"%char /\ c ≠ ">"%char /\ c ≠ "'"%char /\ c ≠ """"%char.
Definition number (s : string) : Prop := forall c, c ∈ chars_of s -> digit c = true.

(** The reader sees the text somewhere. *)
Definition is_shown (text html : string) : Prop := exists a b, shown_text html = (a +:+ text +:+ b)%string.

(** Changing the texts of a page and nothing else: names and values of features, texts of
    passages and of plain documents. Ids, and documents that come as HTML, are kept. *)
Section change.
  Context (f : string -> string).
  Definition change_feature (x : feature_item) : feature_item := FI (fi_id x) (f (fi_field x)) (f (fi_value x)) (f (fi_score x)).
  Definition change_cluster (x : cluster_item) : cluster_item := CI (ci_id x) (f <$> ci_score x) (change_feature <$> ci_features x).
  Definition change_passage (p : passage_item) : passage_item := (fun x : string * list string => (f x.1, f <$> x.2)) <$> p.
  Definition change_doc (d : shown_doc) : shown_doc := match d with Plain s => Plain (f s) | Marked s => Marked s end.
  Definition change_results (r : results) : results :=
    match r with Documents l => Documents (change_doc <$> l) | PassagesOf l => PassagesOf (change_passage <$> l) end.
End change.

(** The texts of the results, and of the features. *)
Inductive result_text : results -> string -> Prop :=
| text_of_document l s : Plain s ∈ l -> result_text (Documents l) s
| text_of_field l p fld vs v : p ∈ l -> (fld, vs) ∈ p -> v ∈ vs -> result_text (PassagesOf l) fld
| text_of_passage l p fld vs v : p ∈ l -> (fld, vs) ∈ p -> v ∈ vs -> result_text (PassagesOf l) v.
Inductive feature_text : list feature_item -> string -> Prop :=
| text_field l x : x ∈ l -> feature_text l (fi_field x)
| text_value l x : x ∈ l -> feature_text l (fi_value x)
| text_score l x : x ∈ l -> feature_text l (fi_score x).
(** Documents that come as HTML leave the page as it was. *)
Definition docs_settle (r : results) : Prop := forall l s, r = Documents l -> Marked s ∈ l -> settles s.

(** An option of a selection: the value that is sent, and the text shown, are [x]. *)
Definition option_seen (x : string) : list seen :=
  List.map Tag (chars_of "<option value=""") ++ literally InDouble x ++ List.map Tag (chars_of """>")
  ++ literally InText x ++ List.map Tag (chars_of "</option>").

(** Changing the texts people wrote in a post: its title and the comments. *)
Definition change_comment (f : string -> string) (c : post_comment) : post_comment :=
  PC (f (pc_text c)) (pc_license c) (pc_site c) (pc_user c) (pc_name c).
Definition change_post (f : string -> string) (p : rendered_post) : rendered_post :=
  RP (f (rp_title p)) (rp_type p) (rp_site p) (rp_link p) (rp_license p) (rp_owner p) (rp_name p) (rp_body p) (rp_tags p)
    (change_comment f <$> rp_comments p).
(** A post whose names, tags and addresses mean nothing in HTML, and whose body is complete. *)
Record plain_post (p : rendered_post) : Prop := {
  plain_metadata : forall s, s ∈ [rp_type p; rp_site p; rp_link p; rp_license p; rp_name p] ++ rp_tags p -> harmless s;
  plain_owner : forall u, rp_owner p = Some u -> harmless u;
  plain_body : complete (rp_body p);
  plain_comments : forall c s, c ∈ rp_comments p -> s ∈ [pc_license c; pc_site c; pc_name c] -> harmless s;
  plain_users : forall c u, c ∈ rp_comments p -> pc_user c = Some u -> harmless u }.
(** The same of a tweet. Twitter sends the text of a tweet already escaped, so that nothing is
    asked of it here. *)
Definition plain_tweet (t : rendered_tweet) : Prop :=
  forall s, s ∈ [rt_image t; rt_username t; rt_name t; rt_id t; rt_created t; rt_likes t; rt_replies t; rt_quotes t;
                 rt_retweets t; rt_retrieved t] -> harmless s.
Definition change_tweet (f : string -> string) (t : rendered_tweet) : rendered_tweet :=
  RT (rt_image t) (rt_username t) (rt_name t) (rt_id t) (rt_created t) (f (rt_text t)) (rt_likes t) (rt_replies t)
    (rt_quotes t) (rt_retweets t) (rt_retrieved t).
