(** PassageCalls.v: score_passages_dnf in terms of the corpus. *)
From Verif Require Export TokenProofs.

Lemma bm_list_lt b i j x y : bm_list b !! i = Some x -> bm_list b !! j = Some y -> (x < y)%N <-> i < j.
Proof.
  assert (forall i j x y, bm_list b !! i = Some x -> bm_list b !! j = Some y -> i < j -> (x < y)%N) as H.
  { pose proof (sorted_bm_list b) as Hs. induction Hs as [|a l Hl IH Hf]; intros k m u v Hk Hm Hlt; [done|].
    destruct m as [|m]; [lia|]. cbn in Hm. destruct k as [|k]; cbn in Hk.
    - injection Hk as <-. rewrite Forall_forall in Hf. apply Hf. by eapply elem_of_list_lookup_2.
    - apply (IH k m); [done|done|lia]. }
  intros Hi Hj. split; [|by eapply H]. intros Hlt. destruct (Nat.lt_trichotomy i j) as [|[->|Hgt]]; [done| |].
  - rewrite Hi in Hj. injection Hj as ->. lia.
  - specialize (H j i y x Hj Hi Hgt). lia.
Qed.

Lemma set_size_map_inj (f : N -> N) (X : gset N) :
  (forall x y, x ∈ X -> y ∈ X -> f x = f y -> x = y) -> size (set_map f X : gset N) = size X.
Proof.
  intros Hinj. unfold set_map. rewrite size_list_to_set; [by rewrite fmap_length|].
  apply NoDup_fmap_2_strong; [|apply NoDup_elements]. intros x y Hx Hy. apply elem_of_elements in Hx, Hy. auto.
Qed.

(** ** Every match is in a run *)
Section runs.
  Context (bd M : gset N) (w : N).
  Hypothesis Hdel : delimited bd M.

  Definition chain (a b : N) : Prop :=
    forall x, x ∈ M -> (a <= x < b)%N -> exists y, y ∈ M /\ (x < y <= b)%N /\ (y <= x + w)%N.

  Lemma same_document_trans a b x : same_document bd a b -> same_document bd b x -> same_document bd a x.
  Proof. intros H1 H2 y Hy. specialize (H1 y Hy). specialize (H2 y Hy). tauto. Qed.
  Lemma same_document_sym a b : same_document bd a b -> same_document bd b a.
  Proof. intros H1 y Hy. specialize (H1 y Hy). tauto. Qed.
  Lemma same_document_refl a : same_document bd a a.
  Proof. intros y Hy. tauto. Qed.

  Lemma same_document_brackets q s e x : brackets bd q s e -> same_document bd q x <-> (s <= x < e)%N.
  Proof.
    intros (Hs & He & Hr & Hb). split.
    - intros Hsm. pose proof (Hsm s Hs). pose proof (Hsm e He). lia.
    - intros Hx y Hy. specialize (Hb y Hy). lia.
  Qed.

  Lemma run_right : forall n q, q ∈ M -> (forall x, x ∈ M -> (N.to_nat (x - q) <= n)%nat) ->
    exists b, b ∈ M /\ (q <= b)%N /\ same_document bd q b /\ chain q b /\
      forall x, x ∈ M -> (b < x)%N -> same_document bd b x -> (b + w < x)%N.
  Proof.
    induction n as [|n IH]; intros q Hq Hmax;
      destruct (bracket_exists bd M q Hdel Hq) as (s & e & Hb & _).
    - exists q. split_and!; [done|lia|apply same_document_refl|intros ? ? ?; lia|].
      intros x Hx Hlt _. specialize (Hmax x Hx). lia.
    - destruct (decide (filter (fun x => (q < x <= q + w)%N /\ (x < e)%N) M = ∅)) as [Hem|Hne].
      + exists q. split_and!; [done|lia|apply same_document_refl|intros ? ? ?; lia|].
        intros x Hx Hlt Hsm. apply (same_document_brackets q s e x Hb) in Hsm.
        destruct (N.lt_ge_cases (q + w) x) as [|Hle]; [done|].
        assert (x ∈ filter (fun x => (q < x <= q + w)%N /\ (x < e)%N) M) as Hin by (apply elem_of_filter; split; [lia|done]).
        rewrite Hem in Hin. by apply not_elem_of_empty in Hin.
      + apply set_choose_L in Hne as [y Hy]. apply elem_of_filter in Hy as [[Hqy Hye] HyM].
        destruct (IH y HyM) as (b & HbM & Hyb & Hsm & Hch & Hrr).
        { intros x Hx. specialize (Hmax x Hx). lia. }
        assert (same_document bd q y) as Hqy' by (apply (same_document_brackets q s e y Hb); destruct Hb as (_ & _ & ? & _); lia).
        exists b. split_and!; [done|lia|by eapply same_document_trans| |done].
        intros x Hx Hr. destruct (N.lt_ge_cases x y) as [Hlt|Hge]; [|apply Hch; [done|lia]].
        exists y. split; [done|]. lia.
  Qed.

  Lemma run_left : forall n q, q ∈ M -> (N.to_nat q <= n)%nat ->
    exists a, a ∈ M /\ (a <= q)%N /\ same_document bd a q /\ chain a q /\
      forall x, x ∈ M -> (x < a)%N -> same_document bd x a -> (x + w < a)%N.
  Proof.
    induction n as [|n IH]; intros q Hq Hmax;
      destruct (bracket_exists bd M q Hdel Hq) as (s & e & Hb & _).
    - exists q. split_and!; [done|lia|apply same_document_refl|intros ? ? ?; lia|]. intros x Hx ?. lia.
    - destruct (decide (filter (fun x => (x < q <= x + w)%N /\ (s <= x)%N) M = ∅)) as [Hem|Hne].
      + exists q. split_and!; [done|lia|apply same_document_refl|intros ? ? ?; lia|].
        intros x Hx Hlt Hsm. apply same_document_sym, (same_document_brackets q s e x Hb) in Hsm.
        destruct (N.lt_ge_cases (x + w) q) as [|Hle]; [done|].
        assert (x ∈ filter (fun x => (x < q <= x + w)%N /\ (s <= x)%N) M) as Hin by (apply elem_of_filter; split; [lia|done]).
        rewrite Hem in Hin. by apply not_elem_of_empty in Hin.
      + apply set_choose_L in Hne as [y Hy]. apply elem_of_filter in Hy as [[Hqy Hye] HyM].
        destruct (IH y HyM) as (a & HaM & Hya & Hsm & Hch & Hrr); [lia|].
        assert (same_document bd y q) as Hqy'.
        { apply same_document_sym, (same_document_brackets q s e y Hb). destruct Hb as (_ & _ & ? & _); lia. }
        exists a. split_and!; [done|lia|by eapply same_document_trans| |done].
        intros x Hx Hr. destruct (N.lt_ge_cases x y) as [Hlt|Hge].
        * destruct (Hch x Hx ltac:(lia)) as (z & Hz & ? & ?). exists z. split; [done|lia].
        * exists q. split; [done|lia].
  Qed.

  Lemma run_exists q : q ∈ M -> exists a b, run bd w M a b /\ (a <= q <= b)%N.
  Proof.
    intros Hq. destruct (run_left (N.to_nat q) q Hq) as (a & HaM & Ha & Hsa & Hca & Hla); [lia|].
    destruct (run_right (N.to_nat (default 0%N (last (bm_list M)))) q Hq) as (b & HbM & Hb & Hsb & Hcb & Hrb).
    { intros x Hx. pose proof Hx as Hx'. apply elem_of_bm_list, elem_of_list_lookup in Hx' as [i Hi].
      rewrite last_lookup. destruct (bm_list M !! pred (length (bm_list M))) as [m|] eqn:Em; cbn.
      - assert (x <= m)%N; [|lia]. pose proof (lookup_lt_Some _ _ _ Hi).
        destruct (decide (i = pred (length (bm_list M)))) as [->|]; [rewrite Hi in Em; injection Em as ->; lia|].
        pose proof (proj2 (bm_list_lt M i _ x m Hi Em)). lia.
      - apply lookup_ge_None in Em. apply lookup_lt_Some in Hi. lia. }
    exists a, b. split; [|lia]. split_and!; [done|done|lia|by eapply same_document_trans| |done|done].
    intros x Hx Hr. destruct (N.lt_ge_cases x q) as [Hlt|Hge].
    - destruct (Hca x Hx ltac:(lia)) as (z & Hz & ? & ?). exists z. split; [done|lia].
    - apply Hcb; [done|lia].
  Qed.
End runs.

(** Two runs of one document are equal or more than [w] apart. *)
Lemma runs_apart bd w (M : gset N) a b a' b' : run bd w M a b -> run bd w M a' b' -> same_document bd a a' ->
  (a = a' /\ b = b') \/ (b + w < a')%N \/ (b' + w < a)%N.
Proof.
  assert (forall a b a' b', run bd w M a b -> run bd w M a' b' -> same_document bd a a' -> (a < a')%N -> (b + w < a')%N) as H.
  { clear. intros a b a' b' (Ha & Hb & Hab & Hsm & Hch & Hl & Hr) (Ha' & Hb' & Hab' & Hsm' & Hch' & Hl' & Hr') Hsame Hlt.
    assert (same_document bd b a') as Hba.
    { intros y Hy. specialize (Hsm y Hy). specialize (Hsame y Hy). tauto. }
    destruct (N.lt_ge_cases b a') as [Hlt'|Hge]; [by apply Hr|]. exfalso.
    assert (forall n x, x ∈ M -> (a <= x < a')%N -> (N.to_nat (a' - x) <= n)%nat -> False) as Hstep.
    { induction n as [|n IH]; intros x Hx Hrg Hn; [lia|].
      destruct (Hch x Hx ltac:(lia)) as (y & Hy & Hxy & Hyw).
      destruct (N.lt_ge_cases y a') as [Hys|Hys]; [apply (IH y Hy); lia|].
      assert (same_document bd x a') as Hsx.
      { intros z Hz. specialize (Hsm z Hz). specialize (Hsame z Hz). lia. }
      specialize (Hl' x Hx ltac:(lia) Hsx). lia. }
    apply (Hstep (N.to_nat (a' - a)) a Ha); lia. }
  intros H1 H2 Hs. destruct (N.lt_trichotomy a a') as [Hlt|[->|Hgt]].
  - right. left. by eapply H.
  - left. split; [done|]. destruct H1 as (Ha & Hb & Hab & Hsm & Hch & Hl & Hr), H2 as (Ha' & Hb' & Hab' & Hsm' & Hch' & Hl' & Hr').
    assert (same_document bd b b') as Hbb by (intros y Hy; specialize (Hsm y Hy); specialize (Hsm' y Hy); tauto).
    destruct (N.lt_trichotomy b b') as [Hlt|[|Hgt]]; [|done|].
    + destruct (Hch' b Hb ltac:(lia)) as (y & Hy & Hby & Hyw).
      assert (same_document bd b y) as Hsy by (intros z Hz; specialize (Hbb z Hz); lia).
      specialize (Hr y Hy ltac:(lia) Hsy). lia.
    + destruct (Hch b' Hb' ltac:(lia)) as (y & Hy & Hby & Hyw).
      assert (same_document bd b' y) as Hsy by (intros z Hz; specialize (Hbb z Hz); lia).
      specialize (Hr' y Hy ltac:(lia) Hsy). lia.
  - right. right. eapply H; [done|done| |done]. intros y Hy. specialize (Hs y Hy). tauto.
Qed.

(** ** One partition *)
Section partition.
  Context (c : corpus) (d : db) (clauses : list (list feature_ref)) (rcl : list (list (string * N))).
  Hypothesis Hen : encodes c d.
  Hypothesis Hres : resolve_clauses d clauses = Ok rcl.

  Lemma clause_resolved cl : cl ∈ clauses -> exists r, r ∈ rcl /\ rtraverse (resolve_ref d) cl = Ok r.
  Proof.
    intros Hcl. unfold resolve_clauses in Hres. apply rtraverse_ok_iff in Hres.
    apply elem_of_list_lookup in Hcl as [i Hi]. destruct (Forall2_lookup_l _ _ _ _ _ Hres Hi) as (r & Hr & E).
    exists r. split; [by eapply elem_of_list_lookup_2|done].
  Qed.
  Lemma clause_original r : r ∈ rcl -> exists cl, cl ∈ clauses /\ rtraverse (resolve_ref d) cl = Ok r.
  Proof.
    intros Hcl. unfold resolve_clauses in Hres. apply rtraverse_ok_iff in Hres.
    apply elem_of_list_lookup in Hcl as [i Hi]. destruct (Forall2_lookup_r _ _ _ _ _ Hres Hi) as (r' & Hr & E).
    exists r'. split; [by eapply elem_of_list_lookup_2|done].
  Qed.

  Lemma concerns_nonempty F cl r : rtraverse (resolve_ref d) cl = Ok r ->
    concerns d cl F <-> clause_in_field F r ≠ ∅.
  Proof.
    intros H. split.
    - intros (x & v & Hx & Hv). pose proof H as H'. apply rtraverse_ok_iff in H'.
      apply elem_of_list_lookup in Hx as [i Hi]. destruct (Forall2_lookup_l _ _ _ _ _ H' Hi) as ([G g] & Hg & E).
      apply (resolve_ref_ok c d Hen) in E as (v' & E1 & E2 & _). cbn [fst snd] in *.
      assert (G = F) as ->.
      { destruct x as [h|F' v'']; cbn in *; [by rewrite E1 in Hv; injection Hv|]. destruct Hv as [<- <-], E1 as [<- <-]. done. }
      intros Hem. assert (g ∈ clause_in_field F r) as Hin.
      { unfold clause_in_field. apply elem_of_list_to_set, elem_of_list_fmap. exists (F, g). split; [done|].
        apply elem_of_list_filter. split; [done|]. by eapply elem_of_list_lookup_2. }
      rewrite Hem in Hin. by apply not_elem_of_empty in Hin.
    - intros Hne. apply set_choose_L in Hne as [f Hf].
      apply (clause_members c d F Hen cl r f H) in Hf as (x & v & Hx & Hv & _). by exists x, v.
  Qed.

  Lemma in_field_query F s : s ∈ field_query F rcl <->
    exists cl r, cl ∈ clauses /\ rtraverse (resolve_ref d) cl = Ok r /\ concerns d cl F /\ s = clause_in_field F r.
  Proof.
    unfold field_query. rewrite elem_of_list_filter, elem_of_list_fmap. split.
    - intros (Hne & r & -> & Hr). apply clause_original in Hr as (cl & Hcl & E). exists cl, r.
      split_and!; [done|done|by apply (concerns_nonempty F cl r E)|done].
    - intros (cl & r & Hcl & E & Hcon & ->). split; [by apply (concerns_nonempty F cl r E)|].
      destruct (clause_resolved cl Hcl) as (r' & Hr' & E'). rewrite E in E'. injection E' as <-. by exists r.
  Qed.

  Section one.
  Context (F : string) (first : N) (pm : posmap_row) (sorter : clause_sorter) (w : N).
  Hypothesis Hpm : position_doc_map d !! (F, first) = Some pm.
  Hypothesis Hsorter : permutes sorter.
  Hypothesis Hquery : field_query F rcl ≠ [].
  Notation docs := (pm_doc_ids pm).
  Notation bd := (pm_boundaries pm).
  Notation starts := (starts_at pm).

  Lemma before_leak cl doc j s vs doc' j' s' :
    starts doc s -> doc_sequence c F doc vs -> j < length vs ->
    starts doc' s' -> clause_at c d cl F doc' j' ->
    within w (s' + N.of_nat j') (s + N.of_nat j) -> next_document_start bd (s' + N.of_nat j') (s + N.of_nat j) ->
    j = 0 /\ clause_before c d cl F w doc.
  Proof.
    intros Hs Hseq Hj Hs' Hcl Hw (Hq1 & Hq2 & Hq3). pose proof Hcl as (rr & v & _ & _ & vs' & Hseq' & Hj').
    apply lookup_lt_Some in Hj'.
    pose proof (starts_at_span c d F first pm Hen Hpm doc s vs Hs Hseq (s + N.of_nat j) ltac:(lia)) as (B1 & B2 & B3 & B4).
    pose proof (starts_at_span c d F first pm Hen Hpm doc' s' vs' Hs' Hseq' (s' + N.of_nat j') ltac:(lia)) as (C1 & C2 & C3 & C4).
    pose proof (B4 _ Hq1). pose proof (C4 _ Hq1). pose proof (Hq3 _ C2).
    assert (j = 0) as -> by lia. split; [done|]. replace (s + N.of_nat 0)%N with s in * by lia.
    assert (s = s' + N.of_nat (length vs'))%N as E by lia.
    pose proof Hs as (i & Hi1 & Hi2). pose proof Hs' as (i' & Hi1' & Hi2').
    assert (doc' < doc)%N as Hdd.
    { apply (bm_list_lt docs i' i doc' doc Hi1' Hi1). apply (bm_list_lt bd i' i s' s Hi2' Hi2). lia. }
    exists doc', vs', j'. split_and!; [|done|done| |done|unfold within in Hw; lia].
    { exists first, pm. split_and!; [done|by eapply starts_at_in|by eapply starts_at_in]. }
    intros doc'' vs'' Hseq'' Hr.
    pose proof (en_partitions c d Hen F first pm Hpm) as [Hd _ [Hsz _] _ _].
    assert (doc'' ∈ docs) as Hin.
    { apply Hd. split; [|eauto]. assert (doc' ∈ docs /\ doc ∈ docs) as [X1 X2].
      { split; apply elem_of_bm_list; by eapply elem_of_list_lookup_2. }
      apply Hd in X1 as [? _], X2 as [? _]. lia. }
    apply elem_of_bm_list, elem_of_list_lookup in Hin as [k Hk].
    assert (i' < k) as K1 by (apply (bm_list_lt docs i' k doc' doc'' Hi1' Hk); lia).
    assert (k < i) as K2 by (apply (bm_list_lt docs k i doc'' doc Hk Hi1); lia).
    destruct (bm_list bd !! k) as [sk|] eqn:Ek.
    2:{ apply lookup_ge_None in Ek. apply lookup_lt_Some in Hk. rewrite length_bm_list in *. lia. }
    assert (sk ∈ bd) as Hsk by (apply elem_of_bm_list; by eapply elem_of_list_lookup_2).
    pose proof (proj2 (bm_list_lt bd i' k s' sk Hi2' Ek) K1). pose proof (proj2 (bm_list_lt bd k i sk s Ek Hi2) K2).
    pose proof (C4 sk Hsk). lia.
  Qed.

  Lemma partition_report : exists M pr, score_partition sorter d F first (field_query F rcl) w = Ok pr /\
    delimited bd M /\
    (forall q, q ∈ M -> exists doc j s vs, starts doc s /\ q = (s + N.of_nat j)%N /\
       doc_sequence c F doc vs /\ j < length vs /\
       (exists cl, cl ∈ clauses /\ clause_at c d cl F doc j) /\
       forall cl, cl ∈ clauses -> concerns d cl F ->
         clause_near c d cl F w doc (N.of_nat j) \/ (j = 0 /\ clause_before c d cl F w doc)) /\
    (forall doc J j s, starts doc s -> cooccur c d clauses F w doc J -> j ∈ J -> (s + N.of_nat j)%N ∈ M) /\
    (forall doc p, p ∈ reported pr doc <->
       exists a b s, run bd w M a b /\ ~ (a = b /\ forall x, x ∈ M -> (x <= b)%N) /\
         in_document docs bd doc s a /\ p = passage_of F M s a b).
  Proof.
    pose proof (en_partitions c d Hen F first pm Hpm) as [_ _ [Hsz _] _ _].
    destruct (partition_matches_spec d first bd w sorter (field_query F rcl) Hsorter Hquery) as (M & HM & Hsound & Hcompl).
    { intros s Hs. apply in_field_query in Hs as (cl & r & Hcl & E & Hcon & ->).
      apply (tokens_delimited c d F first pm Hen Hpm). intros p Hp.
      apply (clause_positions c d F first pm Hen Hpm cl r p E) in Hp as (doc & j & s & H1 & (x & v & _ & _ & Ht) & ->). eauto 10. }
    assert (forall q, q ∈ M -> exists doc j s vs, starts doc s /\ q = (s + N.of_nat j)%N /\
       doc_sequence c F doc vs /\ j < length vs /\
       (exists cl, cl ∈ clauses /\ clause_at c d cl F doc j) /\
       forall cl, cl ∈ clauses -> concerns d cl F ->
         clause_near c d cl F w doc (N.of_nat j) \/ (j = 0 /\ clause_before c d cl F w doc)) as Htok.
    { intros q Hq. destruct (Hsound q Hq) as [(X & HX & HqX) Hall].
      apply in_field_query in HX as (cl & r & Hcl & E & Hcon & ->).
      apply (clause_positions c d F first pm Hen Hpm cl r q E) in HqX as (doc & j & s & H1 & Hat & ->).
      pose proof Hat as (x & v & _ & _ & vs & Hseq & Hj). apply lookup_lt_Some in Hj.
      exists doc, j, s, vs. split_and!; [done..|by exists cl|].
      intros cl' Hcl' Hcon'. destruct (clause_resolved cl' Hcl') as (r' & Hr' & E').
      destruct (Hall (clause_in_field F r')) as (p & Hp & Hw & Hor); [apply in_field_query; by exists cl', r'|].
      apply (clause_positions c d F first pm Hen Hpm cl' r' p E') in Hp as (doc' & j' & s' & H1' & Hat' & ->).
      pose proof Hat' as (x' & v' & _ & _ & vs' & Hseq' & Hj'). apply lookup_lt_Some in Hj'.
      destruct Hor as [Hsm|Hnext].
      - left. apply (same_document_tokens c d F first pm Hen Hpm doc' j' s' vs' doc j s vs) in Hsm as ->; [|done..].
        pose proof (starts_at_fun pm _ _ _ H1 H1') as <-. exists j'. split; [done|]. unfold within in *. lia.
      - right. by apply (before_leak cl' doc j s vs doc' j' s'). }
    assert (delimited bd M) as Hdel.
    { apply (tokens_delimited c d F first pm Hen Hpm). intros p Hp.
      destruct (Htok p Hp) as (doc & j & s & vs & H1 & -> & Hseq & Hj & _).
      destruct (lookup_lt_is_Some_2 vs j Hj) as [v Hv]. exists doc, j, s, v. split_and!; [done|by exists vs|done]. }
    destruct (walk_passages_spec F docs bd M w Hdel Hsz) as (pr & Hpr & Hrep & _).
    exists M, pr. split; [|split_and!; [done|done| |done]].
    - unfold score_partition, partition_header. rewrite Hpm. cbn [rbind]. rewrite HM. done.
    - intros doc J j s Hs (Hnear & Hocc & Hcov) Hj.
      assert (forall i, i ∈ J -> exists vs, doc_sequence c F doc vs /\ i < length vs) as Hin.
      { intros i Hi. destruct (Hocc i Hi) as (cl & _ & x & v & _ & _ & vs & Hseq & Hv). exists vs. split; [done|]. by eapply lookup_lt_Some. }
      apply (Hcompl (set_map (fun j => (s + N.of_nat j)%N) J)).
      + intros p q Hp Hq. apply elem_of_map in Hp as (jp & -> & Hjp), Hq as (jq & -> & Hjq).
        split; [specialize (Hnear jp jq Hjp Hjq); unfold near, within in *; lia|left].
        destruct (Hin jp Hjp) as (vs & Hseq & Hl), (Hin jq Hjq) as (vs' & Hseq' & Hl').
        apply (same_document_tokens c d F first pm Hen Hpm doc jp s vs doc jq s vs'); done.
      + intros X HX. apply in_field_query in HX as (cl & r & Hcl & E & Hcon & ->).
        destruct (Hcov cl Hcl Hcon) as (i & Hi & Hat). exists (s + N.of_nat i)%N. split; [apply elem_of_map; eauto|].
        apply (clause_positions c d F first pm Hen Hpm cl r _ E). eauto 10.
      + apply elem_of_map; eauto.
      + destruct (Hocc j Hj) as (cl & Hcl & Hat). destruct (clause_resolved cl Hcl) as (r & Hr & E).
        exists (clause_in_field F r). split.
        * apply in_field_query. exists cl, r. split_and!; [done|done| |done].
          destruct Hat as (x & v & ? & ? & _). by exists x, v.
        * apply (clause_positions c d F first pm Hen Hpm cl r _ E). eauto 10.
  Qed.
  End one.
End partition.

(** ** All partitions *)
Lemma reported_merge a b doc : reported (merge_scores a b) doc = reported a doc ++ reported b doc.
Proof.
  unfold reported, merge_scores. rewrite lookup_union_with.
  destruct (a !! doc), (b !! doc); cbn; by rewrite ?app_nil_r.
Qed.
Lemma reported_merge_all rs acc doc :
  reported (foldl merge_scores acc rs) doc = reported acc doc ++ concat ((fun r => reported r doc) <$> rs).
Proof.
  revert acc. induction rs as [|r rs IH]; intros acc; cbn; [by rewrite app_nil_r|].
  by rewrite IH, reported_merge, <- app_assoc.
Qed.

(** A traversal over all positions of a list in any order visits every element. *)
Lemma rtraverse_arrival {A B} (f : A -> res B) (l : list A) arrival ys (dflt : res B) :
  arrival ≡ₚ seq 0 (length l) ->
  rtraverse (fun i => match l !! i with Some x => f x | None => dflt end) arrival = Ok ys ->
  exists zs, ys ≡ₚ zs /\ Forall2 (fun x y => f x = Ok y) l zs.
Proof.
  intros Hp Hr. apply rtraverse_ok_iff in Hr.
  assert (exists zs, zs ≡ₚ ys /\ Forall2 (fun i y => match l !! i with Some x => f x | None => dflt end = Ok y) (seq 0 (length l)) zs)
    as (zs & Hzs & HF).
  { revert ys Hr. induction Hp as [|x l1 l2 _ IH|x y l1|l1 l2 l3 _ IH1 _ IH2]; intros ys Hr.
    - inversion Hr; subst. exists []. by split.
    - inversion Hr as [|? z ? zs' Hz Hr']; subst. destruct (IH _ Hr') as (zs & H1 & H2). exists (z :: zs). split; [by f_equiv|by constructor].
    - inversion Hr as [|? z1 ? zs1 Hz1 Hr1]; subst. inversion Hr1 as [|? z2 ? zs2 Hz2 Hr2]; subst.
      exists (z2 :: z1 :: zs2). split; [constructor|]. by repeat constructor.
    - destruct (IH1 _ Hr) as (zs & H1 & H2). destruct (IH2 _ H2) as (zs' & H3 & H4). exists zs'. split; [by etrans|done]. }
  exists zs. split; [by symmetry|]. apply Forall2_same_length_lookup. split.
  - apply Forall2_length in HF. by rewrite seq_length in HF.
  - intros i x y Hx Hy. destruct (Forall2_lookup_r _ _ _ _ _ HF Hy) as (k & Hk & E).
    apply lookup_seq in Hk as [-> _]. cbn in E. by rewrite Hx in E.
Qed.

Lemma rtraverse_total {A B} (f : A -> res B) (l : list A) : (forall x, x ∈ l -> exists y, f x = Ok y) ->
  exists ys, rtraverse f l = Ok ys.
Proof.
  induction l as [|x l IH]; intros H; [by exists []|]. cbn [rtraverse].
  destruct (H x) as [y Hy]; [by left|]. destruct IH as [ys Hys]; [intros; apply H; by right|].
  rewrite Hy. cbn [rbind]. rewrite Hys. by eexists.
Qed.

Lemma passage_jobs_in d rcl F first : (F, first) ∈ passage_jobs d rcl <->
  F ∈ positional_fields d /\ field_query F rcl ≠ [] /\ is_Some (position_doc_map d !! (F, first)).
Proof.
  unfold passage_jobs. rewrite elem_of_concat. split.
  - intros (l & Hin & Hl). apply elem_of_list_fmap in Hl as (G & -> & HG). apply elem_of_elements in HG.
    destruct (field_query G rcl) as [|q qs] eqn:E; [by apply elem_of_nil in Hin|].
    apply elem_of_list_fmap in Hin as (x & [= <- <-] & Hx). split_and!; [done|by rewrite E|].
    unfold field_partitions in Hx. apply elem_of_list_omap in Hx as ([[G y] pm] & Hkv & Hx). cbn in Hx.
    case_bool_decide; [|done]. injection Hx as <-. subst G. apply elem_of_map_to_list in Hkv. by exists pm.
  - intros (HF & Hq & [pm Hpm]).
    exists (match field_query F rcl with [] => [] | _ :: _ => pair F <$> field_partitions d F end). split.
    + destruct (field_query F rcl); [done|]. apply elem_of_list_fmap. exists first. split; [done|].
      unfold field_partitions. apply elem_of_list_omap. exists (F, first, pm). cbn. split; [by apply elem_of_map_to_list|].
      by rewrite bool_decide_eq_true_2.
    + apply elem_of_list_fmap. exists F. split; [done|]. by apply elem_of_elements.
Qed.

Lemma score_passages_split sorter arrival d clauses w rcl ps :
  resolve_clauses d clauses = Ok rcl -> all_done arrival (length (passage_jobs d rcl)) ->
  score_passages_dnf sorter arrival d clauses w = Ok ps ->
  forall doc p, p ∈ reported ps doc <->
    exists F first pr, F ∈ positional_fields d /\ field_query F rcl ≠ [] /\ is_Some (position_doc_map d !! (F, first)) /\
      score_partition sorter d F first (field_query F rcl) w = Ok pr /\ p ∈ reported pr doc.
Proof.
  intros Hres Hall. unfold score_passages_dnf. rewrite Hres. cbn [rbind].
  destruct (rtraverse _ arrival) as [rs|] eqn:E; [|done]. cbn [rbind]. intros [= <-] doc p.
  assert (rtraverse (fun i => match passage_jobs d rcl !! i with
     | Some x => (fun y : string * N => score_partition sorter d y.1 y.2 (field_query y.1 rcl) w) x | None => Err IndexError end) arrival = Ok rs) as E'.
  { rewrite <- E. clear. induction arrival as [|i l IH]; [done|]. cbn [rtraverse]. rewrite IH.
    by destruct (passage_jobs d rcl !! i) as [[? ?]|]. }
  destruct (rtraverse_arrival _ _ _ _ _ Hall E') as (zs & Hp & HF).
  rewrite reported_merge_all. replace (reported ∅ doc) with (@nil passage) by (unfold reported; by rewrite lookup_empty).
  cbn [app]. rewrite elem_of_concat. split.
  - intros (l & Hpl & Hl). apply elem_of_list_fmap in Hl as (r & -> & Hr). rewrite Hp in Hr.
    apply elem_of_list_lookup in Hr as [i Hi]. destruct (Forall2_lookup_r _ _ _ _ _ HF Hi) as ([F first] & Hx & Hs).
    cbn in Hs. apply elem_of_list_lookup_2, passage_jobs_in in Hx as (H1 & H2 & H3). eauto 10.
  - intros (F & first & pr & H1 & H2 & H3 & Hs & Hin).
    assert ((F, first) ∈ passage_jobs d rcl) as Hx by by apply passage_jobs_in.
    apply elem_of_list_lookup in Hx as [i Hi]. destruct (Forall2_lookup_l _ _ _ _ _ HF Hi) as (r & Hr & Hs').
    cbn in Hs'. rewrite Hs in Hs'. injection Hs' as <-. exists (reported pr doc). split; [done|].
    apply elem_of_list_fmap. exists pr. split; [done|]. rewrite Hp. by eapply elem_of_list_lookup_2.
Qed.

Lemma score_passages_resolved sorter arrival d clauses w ps :
  score_passages_dnf sorter arrival d clauses w = Ok ps -> exists rcl, resolve_clauses d clauses = Ok rcl.
Proof. unfold score_passages_dnf. destruct (resolve_clauses d clauses) as [rcl|]; [eauto|done]. Qed.

(** The number of jobs of a query. *)
Definition job_count (d : db) (clauses : list (list feature_ref)) : nat :=
  match resolve_clauses d clauses with Ok rcl => length (passage_jobs d rcl) | Err _ => 0 end.

Section calls.
  Context (c : corpus) (d : db) (clauses : list (list feature_ref)) (sorter : clause_sorter) (arrival : list nat) (w : N).
  Hypothesis Hen : encodes c d.
  Hypothesis Hsorter : permutes sorter.
  Hypothesis Hall : all_done arrival (job_count d clauses).

  Lemma passages_total : (forall cl r, cl ∈ clauses -> r ∈ cl -> exists F v f, refers d r F v /\ lookup_feature d f = Ok (F, v)) ->
    exists ps, score_passages_dnf sorter arrival d clauses w = Ok ps.
  Proof.
    intros Hknown.
    assert (exists rcl, resolve_clauses d clauses = Ok rcl) as [rcl Hres].
    { apply rtraverse_total. intros cl Hcl. apply rtraverse_total. intros r Hr.
      destruct (Hknown cl r Hcl Hr) as (F & v & f & Hrv & Hf). destruct r as [g|G x]; cbn in *.
      - exists (F, g). by rewrite Hrv.
      - destruct Hrv as [-> ->]. exists (F, f). apply (refers_id c d F Hen) in Hf. by rewrite Hf. }
    unfold job_count in Hall. rewrite Hres in Hall.
    unfold score_passages_dnf. rewrite Hres. cbn [rbind].
    match goal with |- context [rtraverse ?f arrival] => destruct (rtraverse_total f arrival) as [rs Hrs] end; [|rewrite Hrs; by eexists].
    intros i Hi. unfold all_done in Hall. rewrite Hall in Hi. apply elem_of_seq in Hi as [_ Hi]. cbn in Hi.
    destruct (lookup_lt_is_Some_2 _ _ Hi) as [[F first] Hx]. rewrite Hx.
    apply elem_of_list_lookup_2, passage_jobs_in in Hx as (H1 & H2 & [pm H3]).
    destruct (partition_report c d clauses rcl Hen Hres F first pm sorter w H3 Hsorter H2) as (M & pr & Hs & _). eauto.
  Qed.

  Context (ps : gmap N (list passage)).
  Hypothesis Hscore : score_passages_dnf sorter arrival d clauses w = Ok ps.

  (** The partition a reported passage comes from. *)
  Lemma reported_partition doc p : p ∈ reported ps doc ->
    exists rcl F first pm M a b s, resolve_clauses d clauses = Ok rcl /\ field_query F rcl ≠ [] /\
      position_doc_map d !! (F, first) = Some pm /\
      delimited (pm_boundaries pm) M /\
    (forall q, q ∈ M -> exists doc j s vs, starts_at pm doc s /\ q = (s + N.of_nat j)%N /\
       doc_sequence c F doc vs /\ j < length vs /\
       (exists cl, cl ∈ clauses /\ clause_at c d cl F doc j) /\
       forall cl, cl ∈ clauses -> concerns d cl F ->
         clause_near c d cl F w doc (N.of_nat j) \/ (j = 0 /\ clause_before c d cl F w doc)) /\
      run (pm_boundaries pm) w M a b /\ in_document (pm_doc_ids pm) (pm_boundaries pm) doc s a /\
      p = passage_of F M s a b.
  Proof.
    intros Hp. destruct (score_passages_resolved _ _ _ _ _ _ Hscore) as [rcl Hres].
    unfold job_count in Hall. rewrite Hres in Hall.
    apply (score_passages_split _ _ _ _ _ _ _ Hres Hall Hscore) in Hp as (F & first & pr & H1 & H2 & [pm H3] & Hs & Hin).
    destruct (partition_report c d clauses rcl Hen Hres F first pm sorter w H3 Hsorter H2) as (M & pr' & Hs' & Hdel & Htok & _ & Hrep).
    rewrite Hs in Hs'. injection Hs' as <-. apply Hrep in Hin as (a & b & s & Hrun & _ & Hdoc & ->).
    exists rcl, F, first, pm, M, a, b, s. done.
  Qed.

  Lemma passages_sound doc F s e n : (F, s, e, n) ∈ reported ps doc ->
    passage_ok c d clauses F doc s e n (fun cl m =>
      clause_near c d cl F w doc m \/ (m = 0%N /\ clause_before c d cl F w doc)).
  Proof.
    intros Hp. destruct (reported_partition _ _ Hp) as (rcl & F' & first & pm & M & a & b & st & Hres & Hq & Hpm & Hdel & Htok & Hrun & Hdoc & Heq).
    unfold passage_of in Heq. injection Heq as <- -> -> ->.
    pose proof Hrun as (HaM & HbM & Hab & Hsm & _).
    assert (starts_at pm doc st) as Hst by (destruct Hdoc as (i & ? & ? & _); by exists i).
    assert (st <= a)%N as Hsta by (destruct Hdoc as (i & _ & _ & ? & _); done).
    assert (forall q, q ∈ M -> (a <= q <= b)%N -> exists j vs, q = (st + N.of_nat j)%N /\ doc_sequence c F doc vs /\ j < length vs /\
       (exists cl, cl ∈ clauses /\ clause_at c d cl F doc j) /\
       forall cl, cl ∈ clauses -> concerns d cl F ->
         clause_near c d cl F w doc (N.of_nat j) \/ (j = 0 /\ clause_before c d cl F w doc)) as Hin.
    { intros q HqM Hr. destruct (Htok q HqM) as (doc' & j & s' & vs & Hs' & -> & Hseq & Hj & Hc & Hcl).
      assert (same_document (pm_boundaries pm) st (s' + N.of_nat j)) as Hsq.
      { destruct Hdoc as (i & _ & _ & _ & Hd). intros y Hy. specialize (Hd y Hy). specialize (Hsm y Hy). lia. }
      destruct (starts_at_span c d F first pm Hen Hpm doc' s' vs Hs' Hseq (s' + N.of_nat j) ltac:(lia)) as (B1 & B2 & B3 & B4).
      assert (s' = st) as ->.
      { destruct Hst as (i & _ & Hi). assert (st ∈ pm_boundaries pm) as Hstb by (apply elem_of_bm_list; by eapply elem_of_list_lookup_2).
        pose proof (Hsq s' B1). pose proof (B4 st Hstb). pose proof (Hsq st Hstb). lia. }
      assert (doc' = doc) as ->.
      { destruct Hst as (i & E1 & E2), Hs' as (i' & E1' & E2'). pose proof (bm_list_inj _ _ _ _ E2 E2') as ->. congruence. }
      exists j, vs. done. }
    destruct (Hin b HbM ltac:(lia)) as (jb & vs & Eb & Hseq & Hjb & _).
    exists vs, (set_map (fun q => (q - st)%N) (filter (fun x => (a <= x <= b)%N) M)). split_and!.
    - done.
    - lia.
    - lia.
    - apply set_size_map_inj.
      intros x y Hx Hy E. apply elem_of_filter in Hx as [Hx _], Hy as [Hy _]. lia.
    - apply elem_of_map. exists a. split; [done|]. apply elem_of_filter. split; [lia|done].
    - apply elem_of_map. exists b. split; [done|]. apply elem_of_filter. split; [lia|done].
    - intros m Hm. apply elem_of_map in Hm as (q & -> & Hqf). apply elem_of_filter in Hqf as [Hr HqM].
      destruct (Hin q HqM Hr) as (j & vs' & -> & _ & _ & Hc & Hcl).
      replace (st + N.of_nat j - st)%N with (N.of_nat j) by lia. rewrite Nat2N.id. split; [lia|]. split; [done|].
      intros cl H1 H2. destruct (Hcl cl H1 H2) as [?|[-> ?]]; [by left|by right].
  Qed.

  Lemma passages_complete F first pm doc J j :
    position_doc_map d !! (F, first) = Some pm -> doc ∈ pm_doc_ids pm -> cooccur c d clauses F w doc J -> j ∈ J ->
    in_passage ps F doc j \/
    forall doc' J' j', doc' ∈ pm_doc_ids pm -> cooccur c d clauses F w doc' J' -> j' ∈ J' ->
      (doc' < doc)%N \/ (doc' = doc /\ (j' = j \/ (N.of_nat j' + w < N.of_nat j)%N)).
  Proof.
    intros Hpm Hdoc Hco Hj. destruct (score_passages_resolved _ _ _ _ _ _ Hscore) as [rcl Hres].
    pose proof Hall as Hall'. unfold job_count in Hall'. rewrite Hres in Hall'.
    assert (exists cl, cl ∈ clauses /\ clause_at c d cl F doc j) as (cl & Hcl & Hat) by (destruct Hco as (_ & H & _); auto).
    assert (exists vs, doc_sequence c F doc vs) as [vs Hseq] by (destruct Hat as (? & ? & _ & _ & vs & ? & _); eauto).
    assert (F ∈ positional_fields d) as HF by (apply (en_positional c d Hen); eauto).
    assert (field_query F rcl ≠ []) as Hq.
    { destruct (clause_resolved d clauses rcl Hres cl Hcl) as (r & Hr & E).
      assert (clause_in_field F r ∈ field_query F rcl) as Hin.
      { apply (in_field_query c d clauses rcl Hen Hres F). exists cl, r. split_and!; [done|done| |done].
        destruct Hat as (x & v & ? & ? & _). by exists x, v. }
      intros Hnil. rewrite Hnil in Hin. by apply elem_of_nil in Hin. }
    destruct (partition_report c d clauses rcl Hen Hres F first pm sorter w Hpm Hsorter Hq) as (M & pr & Hs & Hdel & Htok & Hcompl & Hrep).
    destruct (starts_at_exists c d F first pm Hen Hpm doc Hdoc) as [s Hst].
    pose proof (Hcompl doc J j s Hst Hco Hj) as HqM.
    destruct (run_exists _ _ w Hdel _ HqM) as (a & b & Hrun & Hab).
    assert (in_document (pm_doc_ids pm) (pm_boundaries pm) doc s a /\ (s <= a)%N) as [Hina Hsa].
    { destruct Hrun as (HaM & _ & _ & Hsm & _). pose proof Hat as (? & ? & _ & _ & vs0 & Hseq0 & Hj0).
      apply lookup_lt_Some in Hj0.
      destruct (starts_at_span c d F first pm Hen Hpm doc s vs0 Hst Hseq0 (s + N.of_nat j) ltac:(lia)) as (B1 & B2 & B3 & B4).
      assert (s <= a)%N as Hsa by (pose proof (Hsm s B1); lia). split; [|done].
      destruct Hst as (i & E1 & E2). exists i. split_and!; [done|done|done|].
      intros y Hy. specialize (B4 y Hy). lia. }
    destruct (decide (a = b /\ set_Forall (fun x => x <= b)%N M)) as [[<- Hmax]|Hn].
    - right. intros doc' J' j' Hdoc' Hco' Hj'.
      destruct (starts_at_exists c d F first pm Hen Hpm doc' Hdoc') as [s' Hst'].
      pose proof (Hcompl doc' J' j' s' Hst' Hco' Hj') as HqM'. assert (s + N.of_nat j = a)%N as Ea by lia.
      pose proof (Hmax _ HqM') as Hle. cbn in Hle.
      assert (exists vs', doc_sequence c F doc' vs' /\ j' < length vs') as (vs' & Hseq' & Hl').
      { destruct Hco' as (_ & H & _). destruct (H j' Hj') as (? & _ & ? & ? & _ & _ & vs' & ? & Hv).
        exists vs'. split; [done|]. by eapply lookup_lt_Some. }
      destruct (decide (doc' = doc)) as [->|Hne].
      + right. split; [done|]. pose proof (starts_at_fun pm _ _ _ Hst Hst') as <-.
        destruct (decide (j' = j)) as [|Hjj]; [by left|right].
        destruct Hrun as (_ & _ & _ & _ & _ & Hleft & _).
        assert (j < length vs') as Hjl.
        { destruct Hat as (? & ? & _ & _ & vs0 & Hseq0 & Hj0). rewrite (doc_sequence_unique _ _ _ _ _ (en_dicts c d Hen) Hseq' Hseq0).
          by eapply lookup_lt_Some. }
        assert (same_document (pm_boundaries pm) (s + N.of_nat j') (s + N.of_nat j)) as Hsm
          by (by apply (same_document_tokens c d F first pm Hen Hpm doc j' s vs' doc j s vs')).
        rewrite Ea in Hsm. specialize (Hleft _ HqM' ltac:(lia) Hsm). lia.
      + left. destruct Hst as (i & E1 & E2), Hst' as (i' & E1' & E2').
        apply (bm_list_lt (pm_doc_ids pm) i' i doc' doc E1' E1).
        destruct (Nat.lt_trichotomy i' i) as [|[->|Hgt]]; [done|congruence|exfalso].
        assert (s < s')%N as Hss by (by apply (bm_list_lt (pm_boundaries pm) i i' s s' E2 E2')).
        assert (starts_at pm doc s) as Hst by (by exists i).
        destruct Hat as (? & ? & _ & _ & vs0 & Hseq0 & Hj0). apply lookup_lt_Some in Hj0.
        destruct (starts_at_span c d F first pm Hen Hpm doc s vs0 Hst Hseq0 (s + N.of_nat j) ltac:(lia)) as (B1 & B2 & B3 & B4).
        assert (s' ∈ pm_boundaries pm) as Hsb by (apply elem_of_bm_list; by eapply elem_of_list_lookup_2).
        specialize (B4 s' Hsb). lia.
    - left. exists (a - s)%N, (b - s)%N, (size (filter (fun x => (a <= x <= b)%N) M)). split; [|lia].
      apply (score_passages_split _ _ _ _ _ _ _ Hres Hall' Hscore). exists F, first, pr. split_and!; [done|done|by eexists|done|].
      apply Hrep. exists a, b, s. split_and!; [done| |done|done]. intros [-> H]. apply Hn. split; [done|]. intros x Hx. by apply H.
  Qed.

  Lemma passages_separated doc F s e n s' e' n' :
    (F, s, e, n) ∈ reported ps doc -> (F, s', e', n') ∈ reported ps doc ->
    (s, e, n) = (s', e', n') \/ (e + w < s')%N \/ (e' + w < s)%N.
  Proof.
    intros Hp Hq. destruct (score_passages_resolved _ _ _ _ _ _ Hscore) as [rcl Hres].
    unfold job_count in Hall. rewrite Hres in Hall.
    apply (score_passages_split _ _ _ _ _ _ _ Hres Hall Hscore) in Hp as (F1 & first & pr & H1 & H2 & [pm H3] & Hs & Hin).
    apply (score_passages_split _ _ _ _ _ _ _ Hres Hall Hscore) in Hq as (F2 & first' & pr' & H1' & H2' & [pm' H3'] & Hs' & Hin').
    destruct (partition_report c d clauses rcl Hen Hres F1 first pm sorter w H3 Hsorter H2) as (M & pr0 & Hs0 & _ & _ & _ & Hrep).
    rewrite Hs in Hs0. injection Hs0 as <-.
    destruct (partition_report c d clauses rcl Hen Hres F2 first' pm' sorter w H3' Hsorter H2') as (M' & pr0' & Hs0' & _ & _ & _ & Hrep').
    rewrite Hs' in Hs0'. injection Hs0' as <-.
    apply Hrep in Hin as (a & b & st & Hrun & _ & Hdoc & Heq). pose proof Hin' as Hin2.
    apply Hrep' in Hin' as (a' & b' & st' & Hrun' & _ & Hdoc' & Heq').
    unfold passage_of in Heq, Heq'. injection Heq as -> -> -> ->. injection Heq' as -> -> -> ->.
    assert (first' = first) as ->.
    { assert (forall f0 pm0 st0 a0, position_doc_map d !! (F2, f0) = Some pm0 ->
        in_document (pm_doc_ids pm0) (pm_boundaries pm0) doc st0 a0 -> doc ∈ pm_doc_ids pm0) as Hd.
      { intros f0 pm0 st0 a0 _ (i & Hi & _). apply elem_of_bm_list. by eapply elem_of_list_lookup_2. }
      pose proof (Hd first pm st a H3 Hdoc) as D1. pose proof (Hd first' pm' st' a' H3' Hdoc') as D2.
      pose proof D1 as D1'. apply (pl_docs _ _ _ _ _ (en_partitions c d Hen F2 first pm H3)) in D1' as [_ [vs Hseq]].
      destruct (en_covered c d Hen F2 doc vs Hseq) as (f0 & _ & Hu).
      pose proof (Hu first ltac:(by exists pm)). pose proof (Hu first' ltac:(by exists pm')). congruence. }
    rewrite H3 in H3'. injection H3' as <-. rewrite Hs in Hs'. injection Hs' as <-.
    apply Hrep in Hin2 as (a2 & b2 & st2 & Hrun2 & _ & Hdoc2 & Heq2). unfold passage_of in Heq2. injection Heq2 as E1 E2 E3.
    assert (st2 = st) as -> by (destruct Hdoc as (i & X1 & X2 & _), Hdoc2 as (i2 & Y1 & Y2 & _); pose proof (bm_list_inj _ _ _ _ X1 Y1) as ->; congruence).
    assert (st <= a /\ st <= a2)%N as [? ?] by (destruct Hdoc as (? & _ & _ & ? & _), Hdoc2 as (? & _ & _ & ? & _); done).
    assert (a <= b /\ a2 <= b2)%N as [? ?] by (destruct Hrun as (_ & _ & ? & _), Hrun2 as (_ & _ & ? & _); done).
    assert (same_document (pm_boundaries pm) a a2) as Hsm.
    { destruct Hdoc as (? & _ & _ & _ & X), Hdoc2 as (? & _ & _ & _ & Y). intros y Hy. specialize (X y Hy). specialize (Y y Hy). tauto. }
    rewrite E1, E2, E3. destruct (runs_apart _ _ _ _ _ _ _ Hrun Hrun2 Hsm) as [[-> ->]|[?|?]]; [by left|right; left; lia|right; right; lia].
  Qed.
End calls.
