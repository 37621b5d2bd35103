(** PropertiesTokens.v: C98-C99, the words of texts. Vocabulary: SpecTokens.v. *)
From Verif Require Import TwitterProofs PropertiesIndexing PropertiesCorpus TokensProofs PropertiesTwitter.

Section properties.
  Context (is_space blank : N -> bool) (Hchars : characters is_space blank).
  Context (lower : text -> text) (split : text -> list text) (Hsplit : forall t, pieces is_space t (split t)).
  Notation tweet_words := (social_media_tokens is_space blank lower split).
  Notation words := (word_tokens blank lower split).

  (** ** C98: links, hashtags and mentions are not words of a tweet, all else is. *)
  Theorem C98_no_markers t w : w ∈ tweet_words t -> ~ marked w /\ exists c, c ∈ w /\ blank c = false.
  Proof.
    intros [Hb Hin]%elem_of_list_filter. split; [|apply not_blank_spec; by apply Is_true_true].
    destruct (pieces_infix _ _ _ _ (Hsplit _) Hin) as (a & b & E). intros (m & Hm & l & r & ->).
    eapply (cleaned_unmarked is_space blank Hchars); [by eapply clean_cleaned|]. rewrite E. exists m. split; [done|]. exists (a ++ l), (r ++ b). by rewrite <- !app_assoc.
  Qed.
  Theorem C98_rest_kept t : exists t', cleaned is_space (lower t) t' /\ concat (letters blank <$> tweet_words t) = letters blank t'.
  Proof.
    exists (clean is_space false (lower t)). split; [by eapply clean_cleaned|]. unfold social_media_tokens.
    rewrite (filter_letters blank). by eapply pieces_letters.
  Qed.
  (** Nothing else satisfies that description: *)
  Theorem C98_cleaned_unique t t1 t2 : cleaned is_space t t1 -> cleaned is_space t t2 -> t1 = t2.
  Proof.
    assert (forall w p1 p2, before_marker w p1 -> before_marker w p2 -> p1 = p2) as Hb.
    { intros w p1 p2 [[H1 ->]|[(m1 & r1 & Hm1 & E1) H1]] [[H2 ->]|[(m2 & r2 & Hm2 & E2) H2]].
      - done.
      - exfalso. apply H1. exists m2. split; [done|]. by exists p2, r2.
      - exfalso. apply H2. exists m1. split; [done|]. by exists p1, r1.
      - specialize (H1 p2 m2 r2 Hm2 E2). specialize (H2 p1 m1 r1 Hm1 E1). rewrite E1 in E2. apply (app_inj_1 p1 p2) in E2; [by destruct E2|]. lia. }
    assert (forall w1 w2 c1 c2 t1 t2, Forall (fun c => is_space c = false) w1 -> Forall (fun c => is_space c = false) w2 -> is_space c1 = true -> is_space c2 = true ->
      w1 ++ c1 :: t1 = w2 ++ c2 :: t2 -> w1 = w2 /\ c1 = c2 /\ t1 = t2) as Hw.
    { intros w1 w2 c1 c2 s1 s2 Hw1. revert w2. induction Hw1 as [|a w1 Ha Hw1 IH]; intros w2 Hw2 Hc1 Hc2 He.
      - destruct Hw2 as [|b w2 Hb2 Hw2]; cbn in He; injection He as -> ->; [done|congruence].
      - destruct Hw2 as [|b w2 Hb2 Hw2]; cbn in He; injection He as -> He; [congruence|]. destruct (IH w2 Hw2 Hc1 Hc2 He) as (-> & -> & ->). done. }
    intros H. revert t2. induction H as [w p Hs Hp|w p c t t' Hs Hp Hc Ht IH]; intros t2 H2.
    - inversion H2 as [w2 p2 Hs2 Hp2|w2 p2 c2 s2 s2' Hs2 Hp2 Hc2 Hr2 E]; subst; [by eapply Hb|]. exfalso.
      rewrite Forall_app, Forall_cons in Hs. destruct Hs as (_ & ? & _). congruence.
    - inversion H2 as [w2 p2 Hs2 Hp2 E|w2 p2 c2 s2 s2' Hs2 Hp2 Hc2 Hr2 E]; subst.
      + exfalso. rewrite Forall_app, Forall_cons in Hs2. destruct Hs2 as (_ & ? & _). congruence.
      + destruct (Hw w2 w c2 c s2 t Hs2 Hs Hc2 Hc E) as (-> & -> & ->). rewrite (Hb w p p2 Hp Hp2), (IH _ Hr2). done.
  Qed.
  (** So no tweet is found by a word containing one. [decode]: the characters of a stored
      text (with HTML entities unescaped); [encode]: the stored form of a word. *)
  Theorem C98_not_found (decode : string -> text) (encode : text -> string) (Hinj : Inj (=) (=) encode) lower' hostname times T bsz pos s cn :
    index_ready cn -> quiet (disk cn) -> pool_works cn -> (forall i, fault s i = None) ->
    twitter_sound T -> directly_collected_tweet T ≠ ∅ ->
    (forall id, id ∈ directly_collected_tweet T -> exists r name l, latest_version T id r /\ author T r name /\ times (tl_created r) = Ok l) ->
    (pos = true -> forall id r, id ∈ directly_collected_tweet T -> latest_version T id r -> all_known T r) ->
    (forall created l, times created = Ok l -> "text" ∉ l.*1) ->
    let cp := twitter_corpus (fun s => encode <$> tweet_words (decode s)) lower' hostname times T in
    complete s (length (batches bsz cp)) ->
    exists cn', run_index bsz pos cp s cn = (cn', Ok tt) /\
      forall w, marked w -> getitem (disk cn') (KFeature ("text", VText (encode w))) = Some ∅.
  Proof.
    intros Hr Hq Hp Hf Hs Hne Hk Hpos Htimes cp Hc.
    destruct (C90_tweets_found (fun s => encode <$> tweet_words (decode s)) lower' hostname times T bsz pos s cn Hr Hq Hp Hf Hs Hne Hk Hpos Hc)
      as (cn' & ids & Hrun & _ & _ & _ & Hall). exists cn'. split; [done|]. intros w Hw. destruct (Hall "text" (VText (encode w))) as (docs & -> & Hd).
    f_equal. apply set_eq. intros n. split; [|by intros ?%not_elem_of_empty]. intros Hn. exfalso. rewrite <- (N2Nat.id n) in Hn.
    apply Hd in Hn as (id & r & _ & _ & Hsays). inversion Hsays as [| |? |? |v Hnr Hin| | | | | | | | | |]; subst.
    - match goal with H : times _ = Ok ?l, H' : (_, _) ∈ ?l |- _ => apply (Htimes _ _ H); apply elem_of_list_fmap; by eexists (_, _) end.
    - apply elem_of_list_fmap in Hin as (w' & Ew & Hin). apply (inj encode) in Ew as <-. by destruct (C98_no_markers _ _ Hin).
  Qed.

  (** ** C99: no word of a text is lost. *)
  Theorem C99_words_kept t : concat (letters blank <$> words t) = letters blank (lower t) /\
    forall w, w ∈ words t -> (exists c, c ∈ w /\ blank c = false) /\ occurs w (lower t).
  Proof.
    split.
    - unfold word_tokens. rewrite (filter_letters blank). by eapply pieces_letters.
    - intros w [Hb Hin]%elem_of_list_filter. split; [apply not_blank_spec; by apply Is_true_true|].
      destruct (pieces_infix _ _ _ _ (Hsplit _) Hin) as (a & b & E). by exists a, b.
  Qed.
End properties.

(** ** A concrete case: words separated by single spaces. *)
Definition ex_space (c : N) : bool := (c =? 32)%N || (c =? 10)%N.
Fixpoint ex_split_at (w t : text) : list text :=
  match t with [] => [w] | c :: t => if (c =? 32)%N then w :: ex_split_at [] t else ex_split_at (w ++ [c]) t end.
Lemma ex_characters : characters ex_space ex_space.
Proof.
  split; [|done]. intros m c Hm Hc. unfold marker in Hm. rewrite !elem_of_cons in Hm.
  assert (forallb (fun c => negb (ex_space c)) m = true) as H by (destruct Hm as [->|[->|[->|[->|Hm]]]]; [reflexivity..|by apply elem_of_nil in Hm]).
  rewrite forallb_forall in H. apply elem_of_list_In, H in Hc. by destruct (ex_space c).
Qed.
Lemma ex_pieces t : pieces ex_space t (ex_split_at [] t).
Proof.
  change t with ([] ++ t) at 1. generalize (@nil N) as w. induction t as [|c t IH]; intros w; cbn [ex_split_at]; [rewrite app_nil_r; constructor|].
  destruct (N.eqb_spec c 32) as [->|Hc].
  - apply (pieces_more _ w [32%N] t); [|apply (IH [])]. exists [32%N], []. split_and!; [done| |by left]. by constructor.
  - replace (w ++ c :: t) with ((w ++ [c]) ++ t) by (by rewrite <- app_assoc). apply IH.
Qed.
Example C98_example : social_media_tokens ex_space ex_space id (ex_split_at []) (chars "see https://t.co/x #tag me@home x#1 ok") =
  [chars "see"; chars "me"; chars "x"; chars "ok"] /\
  marked (chars "https://t.co/x") /\
  word_tokens ex_space id (ex_split_at []) (chars "see  #tag") = [chars "see"; chars "#tag"].
Proof.
  split; [reflexivity|]. split; [|reflexivity]. exists (chars "https://"). split; [unfold marker; rewrite !elem_of_cons; auto|]. by exists [], (chars "t.co/x").
Qed.

Print Assumptions C98_no_markers.
Print Assumptions C98_rest_kept.
Print Assumptions C98_cleaned_unique.
Print Assumptions C98_not_found.
Print Assumptions C99_words_kept.
