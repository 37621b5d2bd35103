(** CorpusCalls.v: plain text corpora, text files and tweets. *)
From Verif Require Export StackHistory LookupProofs.

Lemma numbered_keys {A} (xs : list A) (m : gmap N A) : numbered xs m -> bm_list (dom m) = N.of_nat <$> seq 1 (length xs).
Proof.
  intros H. apply bm_list_unique.
  - generalize 1. induction (length xs) as [|n IH]; intros s; [constructor|].
    cbn. constructor; [apply IH|]. apply Forall_forall. intros y (i & -> & Hi%elem_of_seq)%elem_of_list_fmap. lia.
  - intros k. rewrite elem_of_dom, (H k), elem_of_list_fmap. split.
    + intros (i & -> & [Hi1 Hi2]%elem_of_seq). destruct (N.eqb_spec (N.of_nat i) 0); [lia|]. apply lookup_lt_is_Some. lia.
    + destruct (N.eqb_spec k 0); [by intros [? ?]|]. intros Hk%lookup_lt_is_Some. exists (N.to_nat k). split; [lia|]. apply elem_of_seq. lia.
Qed.
Lemma numbered_lookup {A} (xs : list A) (m : gmap N A) i : numbered xs m -> m !! N.of_nat (S i) = xs !! i.
Proof. intros H. rewrite (H (N.of_nat (S i))). destruct (N.eqb_spec (N.of_nat (S i)) 0); [lia|]. f_equal. lia. Qed.

Lemma pt_docs_ok (m : gmap N value) ks out : Forall2 (fun k (p : N * value) => p.1 = k /\ m !! k = Some p.2) ks out ->
  pt_docs (Some m) (Some ks) = (out, Ok tt).
Proof.
  intros HF. unfold pt_docs. apply generate_ok. eapply Forall2_impl; [done|]. intros k [k' v] [<- Hk]. cbn in *. by rewrite Hk.
Qed.
Lemma known_docs (m : gmap N value) ks : (forall k, k ∈ ks -> is_Some (m !! k)) ->
  exists out, Forall2 (fun k (p : N * value) => p.1 = k /\ m !! k = Some p.2) ks out.
Proof.
  induction ks as [|k ks IH]; intros H; [exists []; constructor|].
  destruct (H k) as [v Hv]; [by left|]. destruct IH as [out Ho]; [intros; apply H; by right|]. exists ((k, v) :: out). by constructor.
Qed.

Lemma pt_corpus_numbered tok texts m : numbered (VText <$> texts) m ->
  pt_corpus tok m = imap (fun i s => (VInt (Z.of_nat (S i)), Ok [("text", Seq ((fun t => Some (VText t)) <$> tok s))])) texts.
Proof.
  intros H. unfold pt_corpus. rewrite (numbered_keys _ _ H), fmap_length.
  assert (forall (n : nat) (f : N -> option (value * res features)) (l : list (value * res features)),
    (forall i x, l !! i = Some x -> f (N.of_nat (n + i)) = Some x) -> omap f (N.of_nat <$> seq n (length l)) = l) as Hom.
  { intros n f l. revert n. induction l as [|x l IH]; intros n Hl; [done|]. cbn. rewrite <- (Nat.add_0_r n) at 1. rewrite (Hl 0 x eq_refl). f_equal.
    apply IH. intros i y Hy. replace (S n + i) with (n + S i) by lia. by apply Hl. }
  rewrite <- (imap_length (fun i s => (VInt (Z.of_nat (S i)), Ok [("text", Seq ((fun t => Some (VText t)) <$> tok s))] : res features)) texts).
  apply Hom. intros i x Hx. rewrite list_lookup_imap in Hx. destruct (texts !! i) as [s|] eqn:E; [|done]. cbn in Hx. injection Hx as <-.
  change (1 + i) with (S i). rewrite (numbered_lookup _ _ i H), list_lookup_fmap, E. cbn [fmap option_fmap option_map pt_index].
  repeat f_equal; lia.
Qed.

(** ** Text files *)
Lemma py_space_white a : py_space a = true <-> Ascii.nat_of_ascii a ∈ white.
Proof.
  unfold py_space, white. cbv zeta. rewrite !elem_of_cons, elem_of_nil. set (n := Ascii.nat_of_ascii a).
  destruct (9 <=? n) eqn:E1, (n <=? 13) eqn:E2, (28 <=? n) eqn:E3, (n <=? 32) eqn:E4; rewrite ?Nat.leb_le, ?Nat.leb_gt in *; cbn; split; intros H; try done; lia.
Qed.
Lemma blank_white s : blank s = true <-> only_whitespace s.
Proof.
  unfold blank, only_whitespace. rewrite forallb_forall. split; intros H a Ha.
  - apply py_space_white, H. by apply elem_of_list_In.
  - apply py_space_white, H. by apply elem_of_list_In.
Qed.
Lemma first_column line : line ≠ "" -> exists rest, csv_row line = before_comma line :: rest.
Proof.
  intros Hne. assert (forall l cur, exists rest, String.string_of_list_ascii <$> split_at (fun a => Ascii.eqb a ","%char) cur (chars l) =
    String.string_of_list_ascii (rev cur ++ chars (before_comma l)) :: rest) as H.
  { induction l as [|a l IH]; intros cur; cbn; [rewrite app_nil_r; by eexists|].
    destruct (Ascii.eqb_spec a ","%char) as [->|Hn].
    - destruct (decide _); [|done]. cbn. rewrite app_nil_r. by eexists.
    - destruct (decide _); [done|]. destruct (IH (a :: cur)) as [rest Hr]. unfold chars in Hr. rewrite Hr. exists rest. f_equal. cbn. by rewrite <- app_assoc. }
  destruct (H line []) as [rest Hr]. exists rest. unfold csv_row, Corpus.split. destruct line; [done|]. unfold chars in Hr. rewrite Hr. f_equal. apply string_chars.
Qed.
Lemma csv_docs_lines lines : csv_docs (csv_row <$> lines) =
  (fun s => Ok (Some (VText s))) <$> filter (fun s => ~ only_whitespace s) (before_comma <$> lines).
Proof.
  induction lines as [|l lines IH]; [done|]. unfold csv_docs in *. rewrite !fmap_cons, filter_cons. cbn [omap list_omap].
  destruct (decide (l = "")) as [->|Hne].
  - change (before_comma "") with "". change (csv_row "") with (@nil string). rewrite decide_False; [apply IH|]. intros H. apply H. by intros a ?%elem_of_nil.
  - destruct (first_column l Hne) as [rest ->]. destruct (blank (before_comma l)) eqn:E.
    + apply blank_white in E. rewrite decide_False by tauto. apply IH.
    + rewrite decide_True; [|rewrite <- blank_white; congruence]. rewrite fmap_cons. f_equal. apply IH.
Qed.
Lemma before_comma_plain s : ","%char ∉ chars s -> before_comma s = s.
Proof.
  induction s as [|a s IH]; intros H; [done|]. cbn. change (chars (String a s)) with (a :: chars s) in H. apply not_elem_of_cons in H as [H1 H2].
  rewrite decide_False by congruence. f_equal. auto.
Qed.
Lemma omap_id_Some {A} (l : list A) : omap id (Some <$> l) = l.
Proof. induction l as [|x l IH]; [done|]. cbn. by f_equal. Qed.

(** ** Tweets *)
Lemma tweet_sequences tokens lower tw : references_known tw <->
  forall field vs, (field, Seq vs) ∈ tweet_index tokens lower tw -> None ∉ vs.
Proof.
  unfold references_known, tweet_index, text_value.
  assert (forall l : list string, None ∉ (fun s => Some (VText s)) <$> l) as Hs by (intros l (? & ? & _)%elem_of_list_fmap; done).
  assert (forall o : option value, is_Some o <-> None ∉ [o]) as Ho.
  { intros o. rewrite elem_of_list_singleton. destruct o as [x|]; [split; [done|by eexists]|]. split; [by intros [? ?]|]. intros H. exfalso. by apply H. }
  assert (forall o : option string, is_Some o <-> None ∉ [VText <$> o]) as Hp.
  { intros o. rewrite elem_of_list_singleton. destruct o as [x|]; [split; [done|by eexists]|]. split; [by intros [? ?]|]. intros H. exfalso. by apply H. }
  assert (forall field vs, (field, Seq vs) ∈ (fun t : string * string => (t.1, Seq [Some (VText t.2)])) <$> tw_times tw -> None ∉ vs) as Ht.
  { intros field vs ([a b] & [= -> ->] & _)%elem_of_list_fmap. by intros ?%elem_of_list_singleton. }
  destruct (tw_retweeted tw) as [id|].
  - split.
    + intros H field vs [Hin|Hin]%elem_of_app; [|by eapply Ht]. rewrite !elem_of_cons, elem_of_nil in Hin.
      destruct Hin as [[= _ ->]|[[= _ ->]|[[= _ ->]|[]]]]; [by intros ?%elem_of_list_singleton..|by apply Hp].
    + intros H. apply Hp. apply (H "retweeted_user"). apply elem_of_app. left. rewrite !elem_of_cons. auto.
  - split.
    + intros (H1 & H2 & H3 & H4 & H5) field vs [Hin|Hin]%elem_of_app; [|by eapply Ht]. rewrite !elem_of_cons, elem_of_nil in Hin.
      repeat destruct Hin as [Hin|Hin]; try done; injection Hin as _ ->; try apply Hs; try (by apply Ho); try (by apply Hp). 
    + intros H. assert (forall field vs, (field, Seq vs) ∈ [("conversation_id", Seq [tw_conversation tw]); ("quoted_tweet_id", Seq [tw_quoted tw]);
        ("quoted_user", Seq [VText <$> tw_quoted_user tw]); ("replied_to_tweet_id", Seq [tw_replied tw]); ("replied_to_user", Seq [VText <$> tw_replied_user tw])] -> None ∉ vs) as H'.
      { intros field vs Hin. apply (H field). apply elem_of_app. left. rewrite !elem_of_cons in Hin. rewrite elem_of_nil in Hin. rewrite !elem_of_cons. tauto. }
      split_and!; [apply Ho, (H' "conversation_id")|apply Ho, (H' "quoted_tweet_id")|apply Hp, (H' "quoted_user")|apply Ho, (H' "replied_to_tweet_id")|apply Hp, (H' "replied_to_user")];
        rewrite !elem_of_cons; tauto.
Qed.
Lemma tweets_well_formed tokens lower pos tws : well_formed pos (tweet_corpus tokens lower tws) <->
  tws ≠ [] /\ NoDup tws.*1 /\ (pos = true -> forall p, p ∈ tws -> references_known p.2).
Proof.
  unfold well_formed, tweet_corpus. rewrite <- list_fmap_compose. split.
  - intros (H1 & H2 & H3). split_and!; [by intros ->|done|]. intros -> p Hp. apply (tweet_sequences tokens lower).
    destruct (H3 p.1 (Ok (tweet_index tokens lower p.2))) as (fs & [= <-] & Hfs); [|by apply Hfs].
    apply elem_of_list_fmap. eauto.
  - intros (H1 & H2 & H3). split_and!; [by destruct tws|done|]. intros k r (p & [= -> ->] & Hp)%elem_of_list_fmap.
    eexists. split; [done|]. intros ->. apply tweet_sequences. by apply H3.
Qed.
