(** SpecHtml.v: what a StackExchange post says, in the words of its reader. *)
From Verif Require Export Html SpecCorpus.

(** A text shown in a node: directly in it or in a node inside it. *)
Inductive shown : html -> string -> Prop :=
| shown_text tag s cs : s ≠ "" -> shown (Element tag s cs) s
| shown_child tag t cs c tail s : (c, tail) ∈ cs -> shown c s -> shown (Element tag t cs) s
| shown_tail tag t cs c s : (c, s) ∈ cs -> s ≠ "" -> shown (Element tag t cs) s.
(** [code] is a code block: [<pre><code>...</code></pre>]. *)
Definition in_pre (tag : string) (c : html) : Prop := tag = "pre" /\ exists t cs, c = Element "code" t cs.
Inductive code_block : html -> html -> Prop :=
| block_here tag t cs c tail : (c, tail) ∈ cs -> in_pre tag c -> code_block (Element tag t cs) c
| block_inside tag t cs c tail code : (c, tail) ∈ cs -> code_block c code -> code_block (Element tag t cs) code.
(** A text outside of code blocks. *)
Inductive prose : html -> string -> Prop :=
| prose_text tag s cs : s ≠ "" -> prose (Element tag s cs) s
| prose_child tag t cs c tail s : (c, tail) ∈ cs -> ~ in_pre tag c -> prose c s -> prose (Element tag t cs) s
| prose_tail tag t cs c s : (c, s) ∈ cs -> s ≠ "" -> prose (Element tag t cs) s.
(** The same without the texts that directly follow a code block inside the [<pre>]. *)
Inductive kept_prose : html -> string -> Prop :=
| kept_text tag s cs : s ≠ "" -> kept_prose (Element tag s cs) s
| kept_child tag t cs c tail s : (c, tail) ∈ cs -> ~ in_pre tag c -> kept_prose c s -> kept_prose (Element tag t cs) s
| kept_tail tag t cs c s : (c, s) ∈ cs -> ~ in_pre tag c -> s ≠ "" -> kept_prose (Element tag t cs) s.
(** Nothing follows a code block inside its [<pre>]. *)
Inductive ends_with_code : html -> Prop :=
| ends_here tag t cs c tail : (c, tail) ∈ cs -> in_pre tag c -> tail ≠ "" -> ends_with_code (Element tag t cs)
| ends_inside tag t cs c tail : (c, tail) ∈ cs -> ends_with_code c -> ends_with_code (Element tag t cs).
Definition nothing_after_code (h : html) : Prop := ~ ends_with_code h.

Section says.
  Context (tokens : string -> list string) (lxml : string -> res html) (dates : string -> res (string * string * string)).
  (** A tokeniser that treats a space as the end of a word. *)
  Definition splits_at_spaces : Prop := tokens "" = [] /\ forall a b, tokens (a ++ " " ++ b)%string = tokens a ++ tokens b.

  (** A text of the body of a post, of the given kind. *)
  Definition body_says (x : x_post) (kind : html -> string -> Prop) (w : string) : Prop :=
    exists b tree s, xp_body x = Some b /\ b ≠ "" /\ lxml b = Ok tree /\ kind tree s /\ w ∈ tokens s.
  Definition in_code_block (tree : html) (s : string) : Prop := exists code, code_block tree code /\ shown code s.
  (** The comments on a post, in their latest versions. *)
  Definition commented (url : string) (h : list (string * dump)) (x : x_post) (c : x_comment) : Prop :=
    c ∈ latest xc_id (comments_in url h) /\ xc_post c = Some (xp_id x).
  Definition created (x : x_post) (day month year : string) : Prop := exists c, xp_created x = Some c /\ dates c = Ok (day, month, year).

  (** What a post says, field by field. [kind]: which texts of the body count as prose. *)
  Inductive says (kind : html -> string -> Prop) (url : string) (h : list (string * dump)) (x : x_post) : string -> string -> Prop :=
  | says_author : says kind url h x "UserPosting" (name_in url h (xp_owner x))
  | says_title t w : xp_title x = Some t -> w ∈ tokens t -> says kind url h x "Post" w
  | says_body w : body_says x kind w -> says kind url h x "Post" w
  | says_code w : body_says x in_code_block w -> says kind url h x "CodeBlock" w
  | says_tag t : tagged url h (default (xp_id x) (xp_parent x)) t -> says kind url h x "Tag" t
  | says_commenter c : commented url h x c -> says kind url h x "UserCommenting" (name_in url h (xc_user c))
  | says_comment c t w : commented url h x c -> xc_text c = Some t -> w ∈ tokens t -> says kind url h x "Comment" w
  | says_site : says kind url h x "Site" url
  | says_question : xp_type x = Some "1" -> says kind url h x "PostType" "Question"
  | says_answer : xp_type x ≠ Some "1" -> says kind url h x "PostType" "Answer"
  | says_day d m y : created x d m y -> says kind url h x "created_day" d
  | says_month d m y : created x d m y -> says kind url h x "created_month" m
  | says_year d m y : created x d m y -> says kind url h x "created_year" y.
End says.
