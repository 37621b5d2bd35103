(** Tokens.v: the tokenisers of hyperreal/utilities.py. Simplification: the text as
    characters (code points); the word boundaries of the Unicode standard and the lower case
    are arbitrary functions. *)
From Coq Require Import Ascii.
From Verif Require Export Base.

Notation text := (list N).
Definition chars (s : string) : text := N_of_ascii <$> list_ascii_of_string s.

Section tokens.
  (** [\s] of the [regex] module; what [str.strip] removes. *)
  Context (is_space blank : N -> bool).
  (** utilities.py:15, 39, 46: [translate] and [lower]. *)
  Context (lower : text -> text).
  (** utilities.py:17-24, 40, 47: [word_tokenizer.split]: the pieces between the matches. *)
  Context (split : text -> list text).

  Fixpoint is_prefix (p l : text) : bool :=
    match p, l with
    | [], _ => true
    | a :: p, b :: l => (a =? b)%N && is_prefix p l
    | _ :: _, [] => false
    end.
  (** utilities.py:26-34: [https?://|#|@] at this place; then everything up to the next
      whitespace or the end is removed ([skip]). *)
  Definition at_marker (l : text) : bool :=
    is_prefix (chars "http://") l || is_prefix (chars "https://") l || is_prefix (chars "#") l || is_prefix (chars "@") l.
  Fixpoint clean (skip : bool) (l : text) : text :=
    match l with
    | [] => []
    | c :: l' =>
        if is_space c then c :: clean false l'
        else if skip then clean true l'
        else if at_marker l then clean true l'
        else c :: clean false l'
    end.
  (** [if token.strip()] *)
  Definition not_blank (w : text) : bool := negb (forallb blank w).
  (** utilities.py:37-42 *)
  Definition social_media_tokens (t : text) : list text := filter not_blank (split (clean false (lower t))).
  (** utilities.py:45-48 *)
  Definition word_tokens (t : text) : list text := filter not_blank (split (lower t)).
End tokens.
