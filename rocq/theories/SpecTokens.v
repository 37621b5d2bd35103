(** SpecTokens.v: what the words of a text should be. *)
From Verif Require Export Tokens.

(** What begins a link, a hashtag or a mention. *)
Definition marker (m : text) : Prop := m ∈ [chars "http://"; chars "https://"; chars "#"; chars "@"].
Definition occurs (m t : text) : Prop := exists l r, t = l ++ m ++ r.
Definition marked (t : text) : Prop := exists m, marker m /\ occurs m t.

Section spec.
  Context (is_space blank : N -> bool).
  (** The part of a word before the first marker in it. *)
  Definition before_marker (w p : text) : Prop :=
    ~ marked w /\ p = w \/
    (exists m r, marker m /\ w = p ++ m ++ r) /\ forall p' m' r', marker m' -> w = p' ++ m' ++ r' -> length p <= length p'.
  (** A text with links, hashtags and mentions removed: of every run of other characters
      between whitespace the part before its first marker is kept, and all whitespace is. *)
  Inductive cleaned : text -> text -> Prop :=
  | cleaned_last w p : Forall (fun c => is_space c = false) w -> before_marker w p -> cleaned w p
  | cleaned_more w p c t t' : Forall (fun c => is_space c = false) w -> before_marker w p -> is_space c = true -> cleaned t t' ->
      cleaned (w ++ c :: t) (p ++ c :: t').

  (** What a splitter at word boundaries does: the pieces are separated by spaces and at most
      an apostrophe. *)
  Definition apostrophe : N := 39.
  Definition separator (s : text) : Prop := exists sp q, s = sp ++ q /\ Forall (fun c => is_space c = true) sp /\ (q = [] \/ q = [apostrophe]).
  Inductive pieces : text -> list text -> Prop :=
  | pieces_last t : pieces t [t]
  | pieces_more w s t l : separator s -> pieces t l -> pieces (w ++ s ++ t) (w :: l).
  (** The characters that count. *)
  Definition letters (t : text) : text := filter (fun c => blank c = false /\ c ≠ apostrophe) t.
  Record characters : Prop := {
    markers_visible : forall m c, marker m -> c ∈ m -> is_space c = false;
    space_blank : forall c, is_space c = true -> blank c = true }.
End spec.
