(** TokenProofs.v: positions and passages in terms of the tokens of the corpus. *)
From Verif Require Export MatchProofs LookupProofs.

Lemma doc_sequence_unique c F doc vs vs' : dicts c ->
  doc_sequence c F doc vs -> doc_sequence c F doc vs' -> vs = vs'.
Proof.
  intros Hd (k & fs & Hk & Hin & _) (k' & fs' & Hk' & Hin' & _). rewrite Hk in Hk'. injection Hk' as <- <-.
  assert (Seq (Some <$> vs) = Seq (Some <$> vs')) as Heq.
  { assert (NoDup fs.*1) as Hnd by (apply (Hd k); by eapply elem_of_list_lookup_2).
    clear -Hnd Hin Hin'. induction fs as [|[f x] fs IH]; [by apply elem_of_nil in Hin|].
    cbn in Hnd. apply NoDup_cons in Hnd as [Hn Hnd].
    apply elem_of_cons in Hin as [Hin|Hin]; apply elem_of_cons in Hin' as [Hin'|Hin'].
    - congruence.
    - injection Hin as <- <-. exfalso. apply Hn. apply elem_of_list_fmap. by exists (F, Seq (Some <$> vs')).
    - injection Hin' as <- <-. exfalso. apply Hn. apply elem_of_list_fmap. by exists (F, Seq (Some <$> vs)).
    - auto. }
  injection Heq as Heq. by apply (inj (fmap (M := list) Some)) in Heq.
Qed.

Section tokens.
  Context (c : corpus) (d : db) (F : string) (first : N) (pm : posmap_row).
  Hypothesis Hen : encodes c d.
  Hypothesis Hpm : position_doc_map d !! (F, first) = Some pm.
  Notation docs := (pm_doc_ids pm).
  Notation bd := (pm_boundaries pm).

  (** The document of the i-th id starts at the i-th boundary. *)
  Definition starts_at (doc s : N) : Prop :=
    exists i, bm_list docs !! i = Some doc /\ bm_list bd !! i = Some s.

  Lemma starts_at_exists doc : doc ∈ docs -> exists s, starts_at doc s.
  Proof.
    intros Hd. apply elem_of_bm_list, elem_of_list_lookup in Hd as [i Hi].
    pose proof (en_partitions c d Hen F first pm Hpm) as [_ _ [Hsz _] _ _].
    destruct (bm_list bd !! i) as [s|] eqn:Hs; [exists s, i; done|].
    apply lookup_ge_None in Hs. apply lookup_lt_Some in Hi. rewrite length_bm_list in *. lia.
  Qed.
  Lemma starts_at_fun doc s s' : starts_at doc s -> starts_at doc s' -> s = s'.
  Proof. intros (i & H1 & H2) (j & H3 & H4). pose proof (bm_list_inj _ _ _ _ H1 H3) as ->. congruence. Qed.
  Lemma starts_at_in doc s : starts_at doc s -> doc ∈ docs.
  Proof. intros (i & H & _). apply elem_of_bm_list. by eapply elem_of_list_lookup_2. Qed.

  (** A document of the partition occupies the positions between two neighbouring
      boundaries. *)
  Lemma starts_at_span doc s vs : starts_at doc s -> doc_sequence c F doc vs ->
    forall p, (s <= p < s + N.of_nat (length vs))%N -> brackets bd p s (s + N.of_nat (length vs)).
  Proof.
    intros (i & H1 & H2) Hseq p Hp.
    pose proof (en_partitions c d Hen F first pm Hpm) as [_ _ _ Hs _].
    destruct (Hs i doc vs H1 Hseq) as (start & stop & E1 & E2 & -> & _).
    rewrite H2 in E1. injection E1 as <-. split_and!.
    - apply elem_of_bm_list. by eapply elem_of_list_lookup_2.
    - apply elem_of_bm_list. by eapply elem_of_list_lookup_2.
    - lia.
    - lia.
    - intros y Hy. apply elem_of_bm_list, elem_of_list_lookup in Hy as [k Hk].
      pose proof (sorted_bm_list bd) as Hsort. assert (k <= i \/ S i <= k) as [Hle|Hge] by lia.
      + left. destruct (decide (k = i)) as [->|]; [rewrite Hk in H2; injection H2 as ->; lia|].
        assert (y < s)%N; [|lia]. assert (k < i) as Hlt by lia. clear -Hsort Hk H2 Hlt.
        revert k i Hk H2 Hlt. induction Hsort as [|a l Hl IH Hf]; intros k i Hk Hi Hlt; [done|].
        destruct i as [|i]; [lia|]. cbn in Hi. destruct k as [|k]; cbn in Hk.
        * injection Hk as <-. rewrite Forall_forall in Hf. apply Hf. by eapply elem_of_list_lookup_2.
        * apply (IH k i); [done|done|lia].
      + right. destruct (decide (k = S i)) as [->|]; [rewrite Hk in E2; injection E2 as ->; lia|].
        assert (s + N.of_nat (length vs) < y)%N; [|lia]. assert (S i < k) as Hlt by lia.
        revert Hsort Hk E2 Hlt. clear. generalize (s + N.of_nat (length vs))%N (S i). intros x j Hsort Hk Hj Hlt.
        revert k j Hk Hj Hlt. induction Hsort as [|a l Hl IH Hf]; intros k j Hk Hj Hlt; [done|].
        destruct k as [|k]; [lia|]. cbn in Hk. destruct j as [|j]; cbn in Hj.
        * injection Hj as <-. rewrite Forall_forall in Hf. apply Hf. by eapply elem_of_list_lookup_2.
        * apply (IH k j); [done|done|lia].
  Qed.

  Lemma refers_id f v : lookup_feature d f = Ok (F, v) <-> lookup_feature_id d (F, v) = Ok f.
  Proof.
    rewrite (lookup_feature_id_ok _ _ _ (en_unique c d Hen)). rewrite lookup_feature_ok. done.
  Qed.

  Lemma positions_tokens f v p : lookup_feature d f = Ok (F, v) ->
    p ∈ partition_positions d first f <->
    exists doc j s, starts_at doc s /\ token c F doc j v /\ p = (s + N.of_nat j)%N.
  Proof.
    intros Hf. pose proof (en_partitions c d Hen F first pm Hpm) as [Hd _ _ Hs Hp].
    assert (p ∈ partition_positions d first f <-> holds_position d F first v p) as ->.
    { unfold partition_positions, holds_position. split.
      - destruct (position_index d !! (f, first)) as [row|] eqn:E; [|by intros ?%not_elem_of_empty].
        intros Hin. exists f, row. split_and!; [by apply refers_id|done|done].
      - intros (g & row & Hg & Hrow & Hin). apply refers_id in Hf. rewrite Hf in Hg. injection Hg as <-. by rewrite Hrow. }
    split.
    - intros Hh. destruct (Hp v p Hh) as (i & doc & vs & start & H1 & H2 & H3 & H4).
      destruct (Hs i doc vs H1 H2) as (start' & stop & E1 & E2 & -> & Hpos). rewrite H3 in E1. injection E1 as <-.
      exists doc, (N.to_nat (p - start)), start. split_and!; [exists i; done| |lia].
      exists vs. split; [done|]. apply Hpos; [lia|]. by replace (start + N.of_nat (N.to_nat (p - start)))%N with p by lia.
    - intros (doc & j & s & (i & H1 & H2) & (vs & Hseq & Hj) & ->).
      destruct (Hs i doc vs H1 Hseq) as (start' & stop & E1 & E2 & -> & Hpos). rewrite H2 in E1. injection E1 as <-.
      apply Hpos; [by eapply lookup_lt_Some|done].
  Qed.

  (** *** One clause *)
  Lemma resolve_ref_ok r k : resolve_ref d r = Ok k <->
    exists v, refers d r k.1 v /\ lookup_feature d k.2 = Ok (k.1, v) /\ (forall f, r = ById f -> f = k.2).
  Proof.
    destruct r as [f|F' v']; destruct k as [G g]; cbn [resolve_ref fst snd refers].
    - destruct (lookup_feature d f) as [[G' v']|e] eqn:E; cbn.
      + split.
        * intros Heq. injection Heq as <- <-. exists v'. split; [done|]. split; [done|]. intros h Hh. by injection Hh.
        * intros (v & [= -> ->] & _ & Hid). by rewrite (Hid f eq_refl).
      + split; [done|]. by intros (v & ? & _).
    - destruct (lookup_feature_id d (F', v')) as [f|e] eqn:E; cbn.
      + pose proof E as E'. rewrite (lookup_feature_id_ok _ _ _ (en_unique c d Hen)) in E. split.
        * intros [= <- <-]. exists v'. split_and!; [done|done|exact E|done].
        * intros (v & [-> ->] & Hg & _).
          rewrite <- (lookup_feature_id_ok _ _ _ (en_unique c d Hen)) in Hg. rewrite E' in Hg. by injection Hg as ->.
      + split; [done|]. intros (v & [-> ->] & Hg & _).
        rewrite <- (lookup_feature_id_ok _ _ _ (en_unique c d Hen)) in Hg. congruence.
  Qed.

  Lemma clause_members cl rcl f : rtraverse (resolve_ref d) cl = Ok rcl ->
    f ∈ clause_in_field F rcl <-> exists r v, r ∈ cl /\ refers d r F v /\ lookup_feature d f = Ok (F, v) .
  Proof.
    clear Hpm. intros H. apply rtraverse_ok_iff in H. unfold clause_in_field. rewrite elem_of_list_to_set, elem_of_list_fmap. split.
    - intros ([G g] & -> & Hg). apply elem_of_list_filter in Hg as [HG Hg]. cbn in HG. subst G. cbn.
      apply elem_of_list_lookup in Hg as [i Hi]. destruct (Forall2_lookup_r _ _ _ _ _ H Hi) as (r & Hr & Hrr).
      apply resolve_ref_ok in Hrr as (v & H1 & H2 & _). exists r, v. split_and!; [by eapply elem_of_list_lookup_2|done|done].
    - intros (r & v & Hr & Hrf & Hf). apply elem_of_list_lookup in Hr as [i Hi].
      destruct (Forall2_lookup_l _ _ _ _ _ H Hi) as ([G g] & Hg & Hrr). pose proof Hrr as Hrr'.
      apply resolve_ref_ok in Hrr as (v' & H1 & H2 & H3). cbn [fst snd] in *.
      assert (G = F /\ v' = v) as [-> ->].
      { destruct r as [h|F' v'']; cbn in *; [by rewrite H1 in Hrf; injection Hrf|]. destruct Hrf as [<- <-], H1 as [<- <-]. done. }
      exists (F, g). split; [|apply elem_of_list_filter; split; [done|by eapply elem_of_list_lookup_2]]. cbn.
      apply refers_id in Hf, H2. congruence.
  Qed.

  Lemma clause_positions cl rcl p : rtraverse (resolve_ref d) cl = Ok rcl ->
    p ∈ union_position_query d first (clause_in_field F rcl) <->
    exists doc j s, starts_at doc s /\ clause_at c d cl F doc j /\ p = (s + N.of_nat j)%N.
  Proof.
    intros H. rewrite elem_of_union_query. split.
    - intros (f & Hf & Hp). apply (clause_members cl rcl f H) in Hf as (r & v & Hr & Hrv & Hfv).
      apply (positions_tokens f v p Hfv) in Hp as (doc & j & s & H1 & H2 & ->).
      exists doc, j, s. split_and!; [done| |done]. exists r, v. done.
    - intros (doc & j & s & H1 & (r & v & Hr & Hrv & Ht) & ->).
      pose proof H as HF2. apply rtraverse_ok_iff in HF2. apply elem_of_list_lookup in Hr as [i Hi].
      destruct (Forall2_lookup_l _ _ _ _ _ HF2 Hi) as ([G g] & Hg & Hrr).
      apply resolve_ref_ok in Hrr as (v' & E1 & E2 & E3). cbn [fst snd] in *.
      assert (G = F /\ v' = v) as [-> ->].
      { destruct r as [h|F' v'']; cbn in *; [by rewrite E1 in Hrv; injection Hrv|]. destruct Hrv as [<- <-], E1 as [<- <-]. done. }
      exists g. split.
      + apply (clause_members cl rcl g H). exists r, v. split_and!; [by eapply elem_of_list_lookup_2|done|done].
      + apply (positions_tokens g v _ E2). eauto 10.
  Qed.

  Lemma tokens_delimited P : (forall p, p ∈ P -> exists doc j s v, starts_at doc s /\ token c F doc j v /\ p = (s + N.of_nat j)%N) ->
    delimited bd P.
  Proof.
    intros H p Hp. destruct (H p Hp) as (doc & j & s & v & Hs & (vs & Hseq & Hj) & ->).
    apply lookup_lt_Some in Hj. destruct (starts_at_span doc s vs Hs Hseq (s + N.of_nat j)) as (H1 & H2 & H3 & _); [lia|].
    split; [exists s|exists (s + N.of_nat (length vs))%N]; (split; [done|lia]).
  Qed.

  Lemma same_document_tokens doc j s vs doc' j' s' vs' :
    starts_at doc s -> doc_sequence c F doc vs -> j < length vs ->
    starts_at doc' s' -> doc_sequence c F doc' vs' -> j' < length vs' ->
    same_document bd (s + N.of_nat j) (s' + N.of_nat j') <-> doc = doc'.
  Proof.
    intros Hs Hseq Hj Hs' Hseq' Hj'.
    pose proof (starts_at_span doc s vs Hs Hseq (s + N.of_nat j) ltac:(lia)) as B.
    pose proof (starts_at_span doc' s' vs' Hs' Hseq' (s' + N.of_nat j') ltac:(lia)) as B'.
    split.
    - intros Hsm. pose proof B as (B1 & B2 & B3 & B4). pose proof B' as (B1' & B2' & B3' & B4').
      assert (brackets bd (s' + N.of_nat j') s (s + N.of_nat (length vs))) as B''.
      { split_and!; [done|done| | |done].
        - apply (Hsm s B1). lia.
        - pose proof (Hsm _ B2) as Hx. lia. }
      destruct (brackets_unique _ _ _ _ _ _ B' B'') as [-> _].
      destruct Hs as (i & Hi1 & Hi2), Hs' as (i' & Hi1' & Hi2').
      pose proof (bm_list_inj _ _ _ _ Hi2 Hi2') as ->. congruence.
    - intros <-. pose proof (starts_at_fun _ _ _ Hs Hs') as <-.
      intros b Hb. destruct B as (_ & _ & B3 & B4), B' as (_ & _ & B3' & B4'). specialize (B4 b Hb). specialize (B4' b Hb).
      pose proof (doc_sequence_unique c F doc vs vs' (en_dicts c d Hen) Hseq Hseq') as <-. lia.
  Qed.
End tokens.
