(** Html.v: the texts of a StackExchange post (hyperreal/corpus.py:722-742): the tree that
    lxml makes of the body, its texts, and the code blocks. Simplification: the parser is an
    arbitrary function from strings to trees that may raise (see Corpus.v:sx_index). *)
From Verif Require Export Corpus.

(** An lxml node: the text before its first child, and the children, each with the text that
    follows it ("tail"). Comments and processing instructions are nodes without texts. An
    empty text stands for [None]. *)
Inductive html := Element (tag : string) (text : string) (children : list (html * string)) | Comment.

Definition piece (s : string) : list string := match s with "" => [] | _ => [s] end.
(** lxml [itertext]: the texts in document order; the tail of the node itself is not one of
    them, the tails of comments are. *)
Fixpoint itertext (h : html) : list string :=
  match h with
  | Element _ t cs => piece t ++ concat (List.map (fun c : html * string => itertext c.1 ++ piece c.2) cs)
  | Comment => []
  end.
Definition is_code (h : html) : bool := match h with Element t _ _ => String.eqb t "code" | Comment => false end.
(** corpus.py:728 [xpath("//pre/code")]: in document order. *)
Fixpoint code_nodes (h : html) : list html :=
  match h with
  | Element tag _ cs =>
      concat (List.map (fun c : html * string =>
        (if String.eqb tag "pre" && is_code c.1 then [c.1] else []) ++ code_nodes c.1) cs)
  | Comment => []
  end.
(** corpus.py:732 [node.getparent().remove(node)] for all of them: lxml removes the node
    with its tail. (A node inside another one is removed from the node already removed; the
    outer one comes first, so its text had been taken before.) *)
Fixpoint without_code (h : html) : html :=
  match h with
  | Element tag t cs =>
      Element tag t (concat (List.map (fun c : html * string =>
        if String.eqb tag "pre" && is_code c.1 then [] else [(without_code c.1, c.2)]) cs))
  | Comment => Comment
  end.
(** corpus.py:730, 736: [" ".join]. *)
Fixpoint spaced (l : list string) : string :=
  match l with [] => "" | [s] => s | s :: l => (s ++ " " ++ spaced l)%string end.
(** corpus.py:725-736. *)
Definition body_texts (h : html) : string * list string :=
  (spaced (itertext (without_code h)), (fun c => spaced (itertext c)) <$> code_nodes h).
Definition parse_body (lxml : string -> res html) (body : string) : res (string * list string) := rmap body_texts (lxml body).
