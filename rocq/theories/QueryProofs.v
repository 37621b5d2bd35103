(** QueryProofs.v: proofs about Query.v. *)
From Coq Require Import Field.
From Verif Require Import SpecQuery Query.
From Verif Require Import BaseProofs ClusterProofs ClusterCalls ScoreProofs RefineFacts LookupProofs.

Lemma Qc0 : Qc_of_Z 0 = 0%Qc.
Proof. by apply Qc_is_canon. Qed.
Lemma Qof_pos n : 0 < n -> (Qc_of_Z 0 < Qof n)%Qc.
Proof. intros H. unfold Qof. rewrite <- Z2Qc_inj_lt. lia. Qed.
Lemma Qof_mult a b : Qof (a * b) = (Qof a * Qof b)%Qc.
Proof. unfold Qof. rewrite Nat2Z.inj_mul. by rewrite Z2Qc_inj_mul. Qed.

Lemma ratio_le rnd a b a' b' : rounding rnd -> 0 < b -> 0 < b' -> a * b' <= a' * b ->
  (ratio rnd a b <= ratio rnd a' b')%Qc.
Proof.
  intros [Hm _] Hb Hb' Hc. apply Hm.
  pose proof (Qof_pos b Hb) as P1. pose proof (Qof_pos b' Hb') as P2.
  assert (Qof b <> 0%Qc) as N1. { intros H. rewrite H, Qc0 in P1. by apply Qclt_not_eq in P1. }
  assert (Qof b' <> 0%Qc) as N2. { intros H. rewrite H, Qc0 in P2. by apply Qclt_not_eq in P2. }
  apply (Qcmult_lt_0_le_reg_r _ _ (Qof b * Qof b')%Qc).
  - rewrite <- Qc0, <- Qof_mult. apply Qof_pos. nia.
  - assert (Qof a / Qof b * (Qof b * Qof b') = Qof (a * b'))%Qc as ->.
    { rewrite Qof_mult. field. done. }
    assert (Qof a' / Qof b' * (Qof b * Qof b') = Qof (a' * b))%Qc as ->.
    { rewrite Qof_mult. field. done. }
    unfold Qof. rewrite <- Z2Qc_inj_le. lia.
Qed.

Lemma jaccard_similarity rnd q x : jaccard rnd q x = similarity rnd q x.
Proof. done. Qed.

Lemma docs_of_feature d f : docs_of d f = feature_docs d f.
Proof. done. Qed.

(** ** The threshold bounds the similarity *)
Lemma size_union_inter (q x : gset N) : size (q ∪ x) + size (q ∩ x) = size q + size x.
Proof.
  rewrite size_union_alt, size_diff. pose proof (subseteq_size (q ∩ x) x ltac:(set_solver)).
  assert (x ∩ q = q ∩ x) as -> by set_solver. lia.
Qed.

Lemma threshold_bound rnd (q x docs : gset N) : rounding rnd -> q ≠ ∅ -> x ⊆ docs ->
  (jaccard rnd q x <= max_threshold rnd (size q) (size (q ∩ docs)) (size x))%Qc.
Proof.
  intros Hr Hq Hx. unfold jaccard, max_threshold.
  pose proof (size_union_inter q x) as Hs.
  pose proof (subseteq_size (q ∩ x) (q ∩ docs) ltac:(set_solver)).
  pose proof (subseteq_size (q ∩ x) x ltac:(set_solver)).
  pose proof (subseteq_size (q ∩ docs) q ltac:(set_solver)).
  assert (size q <> 0) by (by rewrite size_0).
  apply ratio_le; [done|lia|lia|].
  set (m := min (size x) (size (q ∩ docs))) in *.
  assert (size (q ∩ x) <= m) by lia. assert (m <= size q) by lia. assert (m <= size x) by lia.
  apply Nat.mul_le_mono; [done|]. unfold bitmap in *. lia.
Qed.

(** ** The heap *)
Lemma heap_ok_seen {K} (kl : K -> K -> bool) k s1 s2 h : s1 ≡ₚ s2 ->
  heap_ok kl k s1 h -> heap_ok kl k s2 h.
Proof.
  intros Hp (Hl & Hs & rest & Hr & Ho). split_and!; [|done|].
  - by rewrite <- Hp.
  - exists rest. split; [by rewrite <- Hp|done].
Qed.

Lemma tail_length {A} (l : list A) : length (tail l) = length l - 1.
Proof. destruct l; cbn; lia. Qed.

Lemma list_filter_all {A} (P : A -> Prop) `{!forall x, Decision (P x)} l : Forall P l -> filter P l = l.
Proof. induction 1; [done|]. rewrite filter_cons_True by done. by f_equal. Qed.

Lemma elem_of_list_fmap_2' {A B} (f : A -> B) (l : list A) x y : x ∈ l -> y = f x -> y ∈ f <$> l.
Proof. intros. subst. by apply elem_of_list_fmap_1. Qed.

Section pivot.
  Context (rnd : Qc -> Qc) (d : db) (q : bitmap).
  Definition cand (f : N) : Qc * Z := (jaccard rnd q (docs_of d f), Z.of_N f).

  Lemma pivot_loop_ok order heap k seen h :
    pivot_loop rnd d q order heap = Ok h ->
    heap_ok Z.leb k seen heap -> length heap = k ->
    StronglySorted (fun a b : Qc * N => b.1 <= a.1)%Qc order ->
    (forall t f, (t, f) ∈ order -> (jaccard rnd q (docs_of d f) <= t)%Qc) ->
    heap_ok Z.leb k ((cand <$> order.*2) ++ seen) h /\ length h = k.
  Proof.
    revert heap seen. induction order as [|[t f] order IH]; intros heap seen; cbn [pivot_loop].
    { intros [= <-] ? ? _ _. done. }
    destruct heap as [|[least i] heap]; [discriminate|].
    intros Hl Hh Hk Hs Hb. inversion Hs as [|? ? Hs' Hf]; subst.
    case_bool_decide as Ht.
    - injection Hl as <-. split; [|done].
      destruct Hh as (Hlen & Hso & rest & Hp & Hr). split_and!; [|done|].
      + rewrite app_length. lia.
      + exists (rest ++ (cand <$> ((t, f) :: order).*2)). split.
        * rewrite app_assoc, Hp. apply Permutation_app_comm.
        * intros x y Hx Hy. apply elem_of_app in Hx as [Hx|Hx]; [by apply Hr|].
          apply elem_of_list_fmap in Hx as (g & -> & Hg). apply elem_of_list_fmap in Hg as ([t' g'] & -> & Hg).
          assert (t' <= t)%Qc as Htt.
          { apply elem_of_cons in Hg as [[= -> ->]|Hg]; [apply Qcle_refl|].
            rewrite Forall_forall in Hf. by apply (Hf _ Hg). }
          pose proof (Hb _ _ Hg) as Hj. cbn [snd].
          assert (least <= y.1)%Qc as Hy'.
          { apply elem_of_cons in Hy as [->|Hy]; [apply Qcle_refl|].
            inversion Hso as [|? ? _ Hf']; subst. rewrite Forall_forall in Hf'.
            specialize (Hf' _ Hy). unfold cand_le, cand_leb in Hf'. cbn [fst snd] in Hf'.
            case_decide as E; [subst; apply Qcle_refl|]. by apply bool_decide_eq_true in Hf'. }
          assert (jaccard rnd q (docs_of d g') < y.1)%Qc as Hlt.
          { eapply Qcle_lt_trans; [exact Hj|]. eapply Qcle_lt_trans; [exact Htt|].
            eapply Qclt_le_trans; [exact Ht|done]. }
          unfold cand_le, cand_leb, cand. cbn [fst snd]. rewrite decide_False.
          2:{ intros Heq. rewrite Heq in Hlt. by apply Qclt_not_eq in Hlt. }
          apply bool_decide_eq_true. by apply Qclt_le_weak.
    - cbn [fmap list_fmap snd].
      assert (heap_ok Z.leb (length ((least, i) :: heap)) (cand f :: seen)
                (tail (heap_insert Z.leb (cand f) ((least, i) :: heap)))) as Hh'.
      { pose proof (heap_offer_ok Z.leb order_Z _ _ _ (cand f) Hh) as Ho. unfold heap_offer in Ho.
        by rewrite Nat.ltb_irrefl in Ho. }
      assert (length (tail (heap_insert Z.leb (cand f) ((least, i) :: heap))) = length ((least, i) :: heap)) as Hlen.
      { rewrite tail_length. pose proof (Permutation_length (heap_insert_perm Z.leb (cand f) ((least, i) :: heap))) as E.
        rewrite E. cbn. lia. }
      destruct (IH _ _ Hl Hh' Hlen Hs') as [H1 H2].
      { intros t' f' Hin. apply Hb. by right. }
      split; [|done]. eapply heap_ok_seen; [|exact H1].
      cbn [app]. rewrite <- Permutation_middle. done.
  Qed.

  Lemma pivot_loop_total order heap : heap <> [] -> exists h, pivot_loop rnd d q order heap = Ok h.
  Proof.
    revert heap. induction order as [|[t f] order IH]; intros heap Hh; cbn [pivot_loop]; [eauto|].
    destruct heap as [|[least i] heap]; [done|]. case_bool_decide; [eauto|].
    apply IH. intros E. apply (f_equal length) in E. rewrite tail_length in E.
    pose proof (Permutation_length (heap_insert_perm Z.leb (cand f) ((least, i) :: heap))) as E'.
    unfold cand in E'. rewrite E' in E. cbn in E. lia.
  Qed.
End pivot.

Lemma heap_positive k (cands h : list (Qc * Z)) :
  heap_ok Z.leb k (cands ++ replicate k (Qc_of_Z 0, (-1)%Z)) h -> length h = k ->
  let pos := fun e : Qc * Z => (Qc_of_Z 0 < e.1)%Qc in
  length (filter pos h) = min k (length (filter pos cands)) /\
  StronglySorted (cand_le Z.leb) (filter pos h) /\
  exists rest, filter pos h ++ rest ≡ₚ filter pos cands /\
    forall x y, x ∈ rest -> y ∈ filter pos h -> cand_le Z.leb x y.
Proof.
  intros (_ & Hs & rest & Hp & Hr) Hk pos.
  assert (filter pos (cands ++ replicate k (Qc_of_Z 0, (-1)%Z)) = filter pos cands) as Hf.
  { rewrite filter_app. rewrite <- (app_nil_r (filter pos cands)) at 2. f_equal.
    clear. induction k as [|k IH]; cbn [replicate]; [done|]. rewrite filter_cons_False; [done|].
    unfold pos. cbn. intros H. by apply Qclt_not_eq in H. }
  assert (filter pos h ++ filter pos rest ≡ₚ filter pos cands) as Hp'.
  { rewrite <- Hf, <- filter_app. by rewrite Hp. }
  split_and!.
  - pose proof (Permutation_length Hp') as Hl. rewrite app_length in Hl.
    pose proof (filter_length pos h) as Hle.
    destruct (filter pos rest) as [|x xs] eqn:E; [cbn in Hl; lia|].
    assert (x ∈ filter pos rest) as Hx by (rewrite E; left).
    apply elem_of_list_filter in Hx as [Hx1 Hx2].
    assert (filter pos h = h) as Hall.
    { apply list_filter_all. apply Forall_forall. intros y Hy. specialize (Hr _ _ Hx2 Hy).
      unfold cand_le, cand_leb in Hr. unfold pos in *. case_decide as E'; [by rewrite <- E'|].
      apply bool_decide_eq_true in Hr. by eapply Qclt_le_trans. }
    rewrite Hall in *. lia.
  - clear -Hs. induction Hs as [|x h Hs IH Hf]; [constructor|].
    rewrite filter_cons. case_decide; [|done]. constructor; [done|].
    rewrite Forall_forall in *. intros y Hy. apply elem_of_list_filter in Hy as [_ Hy]. by apply Hf.
  - exists (filter pos rest). split; [done|]. intros x y Hx Hy.
    apply elem_of_list_filter in Hx as [_ Hx]. apply elem_of_list_filter in Hy as [_ Hy]. by apply Hr.
Qed.

Lemma quiet_cluster_docs d c : quiet d -> c ∈ dom (cluster d) ->
  cluster_docs d c = Ok (Some (cluster_documents d c)).
Proof.
  intros [_ [Hc _]] Hin. apply elem_of_dom in Hin as [row Hrow]. unfold cluster_docs. rewrite Hrow.
  destruct (Hc _ _ Hrow) as (_ & (docs & Hd & He & _) & _). rewrite Hd. do 2 f_equal.
  apply leibniz_equiv. intros x. rewrite He. unfold cluster_documents. by rewrite covered_elem.
Qed.

Lemma cluster_docs_dom d c x : cluster_docs d c = Ok x -> c ∈ dom (cluster d).
Proof. unfold cluster_docs. destruct (cluster d !! c) eqn:E; [|done]. intros _. apply elem_of_dom. eauto. Qed.

#[global] Instance search_ge_total : Total search_ge.
Proof. intros a b. unfold search_ge. pose proof order_cand N.leb as H.
  destruct H as [Ht _ _]; [|by destruct (Ht a b); [right|left]].
  split; intros *; rewrite ?N.leb_le; lia.
Qed.
#[global] Instance search_ge_trans : Transitive search_ge.
Proof. intros a b c. unfold search_ge. pose proof order_cand N.leb as H.
  destruct H as [_ Ht _]; [|intros H1 H2; by apply (Ht c b a)].
  split; intros *; rewrite ?N.leb_le; lia.
Qed.
#[global] Instance by_similarity_total : Total by_similarity.
Proof. intros a b. unfold by_similarity. apply Qcle_total. Qed.
#[global] Instance by_similarity_trans : Transitive by_similarity.
Proof. intros a b c. unfold by_similarity. intros. by eapply Qcle_trans. Qed.

(** What is reported for one cluster. *)
Definition pivot_result (rnd : Qc -> Qc) (d : db) (q : bitmap) (k : nat)
    (out : Z * Qc * list (N * string * value * Qc)) : Prop :=
  let '(c, s, rows) := out in
  s = similarity rnd q (cluster_documents d c) /\
  StronglySorted (fun a b => b.2 <= a.2)%Qc rows /\
  (exists best, k_greatest score_le k (scored_features rnd d q c) best /\
     (fun r => (r.2, r.1.1.1)) <$> rows ≡ₚ best) /\
  (forall f field v w, (f, field, v, w) ∈ rows ->
     exists ii, inverted_index d !! f = Some ii /\ f_field ii = field /\ f_value ii = v).

Lemma pivot_cluster_spec rnd d q k c inter out :
  rounding rnd -> quiet d -> q ≠ ∅ -> inter = size (q ∩ cluster_documents d c) ->
  pivot_cluster rnd d q k c inter = Ok out -> out.1.1 = c /\ pivot_result rnd d q k out.
Proof.
  intros Hrnd Hq Hne Hin. unfold pivot_cluster.
  destruct (cluster_features_spec d c None (proj1 Hq)) as (all & Hids & Hrows & _ & ->).
  set (thr := fun '(f, _, _, n) => (max_threshold rnd (size q) inter (N.to_nat n), f)).
  set (order := merge_sort search_ge (thr <$> all)).
  destruct (pivot_loop rnd d q order (replicate k (Qc_of_Z 0, (-1)%Z))) as [h|] eqn:El; [|discriminate].
  cbn [rbind]. destruct (cluster_docs d c) as [docs|] eqn:Ed; [|discriminate]. cbn [rbind].
  rewrite (quiet_cluster_docs d c Hq (cluster_docs_dom _ _ _ Ed)) in Ed. injection Ed as <-.
  intros [= <-]. split; [done|]. unfold pivot_result.
  (* the order *)
  assert (order ≡ₚ thr <$> all) as Hpo by apply merge_sort_Permutation.
  assert (order.*2 ≡ₚ elements (members d c)) as Hpm.
  { rewrite Hpo, <- Hids, <- !list_fmap_compose. apply reflexive_eq. apply list_fmap_ext.
    intros ? [[[? ?] ?] ?] _. done. }
  assert (forall f, f ∈ members d c -> feature_docs d f ⊆ cluster_documents d c) as Hsub.
  { intros f Hf x Hx. unfold cluster_documents. rewrite covered_elem. eauto. }
  pose proof El as El'. apply (pivot_loop_ok rnd d q order _ k (replicate k (Qc_of_Z 0, (-1)%Z))) in El' as [Hh Hk].
  2:{ split_and!.
      - rewrite replicate_length. lia.
      - clear. induction k as [|k IH]; cbn; constructor; [done|]. apply Forall_forall. intros x Hx.
        apply elem_of_replicate in Hx as [-> _].
        unfold cand_le, cand_leb. by rewrite decide_True.
      - exists []. rewrite app_nil_r. split; [done|]. intros ? ? ?%elem_of_nil. done. }
  2:{ apply replicate_length. }
  2:{ eapply StronglySorted_weaken; [|apply (StronglySorted_merge_sort search_ge)].
      intros [t f] [t' f']. unfold search_ge, cand_leb. cbn [fst snd]. case_decide as E.
      - subst. intros _. apply Qcle_refl.
      - by rewrite bool_decide_eq_true. }
  2:{ intros t f Hf. rewrite Hpo in Hf. apply elem_of_list_fmap in Hf as ([[[f' fld] v] n] & Heq & Hf).
      cbn in Heq. injection Heq as -> ->.
      destruct (Hrows _ Hf) as (ii & Hii & Heq). cbn in Hii, Heq. injection Heq as -> -> ->.
      assert (f' ∈ members d c) as Hm.
      { apply elem_of_elements. rewrite <- Hids.
        apply (elem_of_list_fmap_2' fst _ (f', f_field ii)); [|done].
        apply (elem_of_list_fmap_2' fst _ (f', f_field ii, f_value ii)); [|done].
        by apply (elem_of_list_fmap_2' fst _ (f', f_field ii, f_value ii, f_docs_count ii)). }
      assert (f_docs_count ii = N.of_nat (size (docs_of d f'))) as ->.
      { destruct Hq as [(_ & Hdc & _) _]. unfold docs_of. rewrite Hii. by apply Hdc with f'. }
      rewrite Nat2N.id. subst inter. apply threshold_bound; [done|done|].
      rewrite docs_of_feature. by apply Hsub. }
  destruct (heap_positive _ _ _ Hh Hk) as (Hlen & Hsort & rest & Hperm & Hrest).
  set (pos := fun e : Qc * Z => (Qc_of_Z 0 < e.1)%Qc) in *.
  set (g := fun e : Qc * Z => (e.1, Z.to_N e.2)).
  set (P := filter pos h) in *.
  (* the entries come from members *)
  assert (forall e, e ∈ P ++ rest -> exists f, f ∈ members d c /\ e = cand rnd d q f) as Hmem.
  { intros e He. rewrite Hperm in He. apply elem_of_list_filter in He as [_ He].
    apply elem_of_list_fmap in He as (f & -> & Hf). rewrite Hpm in Hf. apply elem_of_elements in Hf. eauto. }
  assert (g <$> P ++ rest ≡ₚ scored_features rnd d q c) as Hg.
  { rewrite Hperm. unfold scored_features.
    assert (forall l : list N, g <$> filter pos (cand rnd d q <$> l) =
       filter (fun s : Qc * N => (of_nat 0 < s.1)%Qc) ((fun f => (similarity rnd q (feature_docs d f), f)) <$> l)) as Hl.
    { intros l. induction l as [|f l IH]; [done|]. cbn [fmap list_fmap]. rewrite !filter_cons.
      unfold pos at 1. cbn [fst]. unfold cand at 1. cbn [fst].
      change (jaccard rnd q (docs_of d f)) with (similarity rnd q (feature_docs d f)).
      change (of_nat 0) with (Qc_of_Z 0).
      do 2 case_decide; try done. cbn [fmap list_fmap]. f_equal; [|exact IH].
      unfold g, cand. cbn [fst snd]. by rewrite N2Z.id. }
    rewrite Hl. by rewrite Hpm. }
  assert (forall a b, a ∈ P ++ rest -> b ∈ P ++ rest -> cand_le Z.leb a b -> score_le (g a) (g b)) as Hle.
  { intros a b Ha Hb. destruct (Hmem _ Ha) as (f & _ & ->). destruct (Hmem _ Hb) as (f' & _ & ->).
    unfold cand_le, cand_leb, score_le, g, cand. cbn [fst snd]. rewrite !N2Z.id. case_decide as E.
    - rewrite Z.leb_le. right. split; [done|lia].
    - rewrite bool_decide_eq_true. left. apply Qcle_lt_or_eq in H as [?|?]; [done|congruence]. }
  set (rows := omap (pivot_row d) P).
  assert (merge_sort by_similarity rows ≡ₚ rows) as Hmr by apply merge_sort_Permutation.
  assert (forall l : list (Qc * Z), (forall e, e ∈ l -> exists f, f ∈ members d c /\ e = cand rnd d q f) ->
    (fun r : N * string * value * Qc => (r.2, r.1.1.1)) <$> omap (pivot_row d) l = g <$> l) as Hrg.
  { induction l as [|e l IH]; intros Hl; [done|]. cbn [omap list_omap].
    destruct (Hl e ltac:(left)) as (f & Hf & ->). apply members_assigned in Hf. unfold assigned in Hf.
    destruct (feature_cluster d !! f) as [fc|] eqn:Efc; [|done].
    destruct (proj1 (proj1 Hq) _ _ Efc) as [(ii & Hii & _) _]. 
    assert (pivot_row d (cand rnd d q f) = Some (f, f_field ii, f_value ii, jaccard rnd q (docs_of d f))) as ->.
    { unfold pivot_row, cand. cbn [fst snd]. rewrite N2Z.id, Hii. done. }
    cbn [fmap list_fmap].
    f_equal; [|apply IH; intros; apply Hl; by right]. unfold g, cand. cbn. by rewrite N2Z.id. }
  split_and!.
  - done.
  - eapply StronglySorted_weaken; [|apply (StronglySorted_merge_sort by_similarity)]. done.
  - exists (rev (g <$> P)). split.
    2:{ rewrite Hmr. unfold rows. rewrite Hrg by (intros; apply Hmem; set_solver). apply Permutation_rev. }
    split_and!.
    + rewrite rev_length, fmap_length, Hlen. f_equal. rewrite <- Hg, fmap_length, Hperm. done.
    + assert (forall l : list (Qc * Z), (forall e, e ∈ l -> e ∈ P ++ rest) -> StronglySorted (cand_le Z.leb) l ->
        StronglySorted score_le (g <$> l)) as Hss.
      { intros l Hl. induction 1 as [|x l Hs IH Hf]; [constructor|]. cbn [fmap list_fmap]. constructor.
        - apply IH. intros; apply Hl; by right.
        - apply Forall_fmap. rewrite Forall_forall in *. intros y Hy. cbn. apply Hle; [apply Hl; by left|apply Hl; by right|].
          by apply Hf. }
      apply StronglySorted_rev. apply Hss; [set_solver|done].
    + exists (g <$> rest). split.
      * rewrite <- (Permutation_rev (g <$> P)), <- fmap_app. done.
      * intros x y Hx Hy. rewrite <- (Permutation_rev (g <$> P)) in Hy.
        apply elem_of_list_fmap in Hx as (x' & -> & Hx). apply elem_of_list_fmap in Hy as (y' & -> & Hy).
        apply Hle; [set_solver..|]. by apply Hrest.
  - intros f field v w Hr. rewrite Hmr in Hr. unfold rows in Hr. apply elem_of_list_omap in Hr as (e & He & Heq).
    unfold pivot_row in Heq. destruct (inverted_index d !! Z.to_N e.2) as [ii|] eqn:E; [|done].
    cbn in Heq. injection Heq as <- <- <- <-. eauto.
Qed.

(** ** The clusters that share a document with the query *)
Definition weight_entry (rnd : Qc -> Qc) (d : db) (q : bitmap) (c : Z) : option (Z * Qc * nat) :=
  if size (q ∩ cluster_documents d c) =? 0 then None
  else Some (c, similarity rnd q (cluster_documents d c), size (q ∩ cluster_documents d c)).

Lemma cooccurrence_cons rnd d q c cs :
  query_cooccurrence rnd d q (c :: cs) =
  rbind (cluster_docs d c) (fun docs =>
    match docs with
    | None => Err TypeError
    | Some docs => rbind (query_cooccurrence rnd d q cs) (fun l =>
        Ok ((if size (q ∩ docs) =? 0 then [] else [(c, jaccard rnd q docs, size (q ∩ docs))]) ++ l))
    end).
Proof.
  unfold query_cooccurrence. cbn [rtraverse]. destruct (cluster_docs d c) as [[docs|]|]; cbn [rbind]; [|done|done].
  destruct (rtraverse _ cs); done.
Qed.

Lemma cooccurrence_cases rnd d q cs : quiet d ->
  (Forall (fun c => c ∈ dom (cluster d)) cs /\
   query_cooccurrence rnd d q cs = Ok (omap (weight_entry rnd d q) cs)) \/
  (~ Forall (fun c => c ∈ dom (cluster d)) cs /\ query_cooccurrence rnd d q cs = Err IndexError).
Proof.
  intros Hq. induction cs as [|c cs IH]; [left; split; [constructor|done]|].
  rewrite cooccurrence_cons. destruct (decide (c ∈ dom (cluster d))) as [Hc|Hc].
  - rewrite (quiet_cluster_docs d c Hq Hc). cbn [rbind].
    destruct IH as [[Hf ->]|[Hf ->]]; cbn [rbind].
    + left. split; [by constructor|]. f_equal. cbn [omap list_omap]. unfold weight_entry at 2.
      rewrite jaccard_similarity. by destruct (_ =? 0).
    + right. split; [|done]. inversion 1; subst; done.
  - right. split; [inversion 1; subst; done|].
    unfold cluster_docs. apply not_elem_of_dom in Hc. by rewrite Hc.
Qed.

Lemma Forall_stride {A} (P : A -> Prop) n (l : list A) : 0 < n ->
  (forall i, i < n -> Forall P (stride i n l)) <-> Forall P l.
Proof.
  intros Hn. pose proof (stride_partition n l Hn) as Hp. rewrite <- Hp.
  rewrite Forall_concat, Forall_fmap, Forall_seq. unfold compose. split.
  - intros H i [_ Hi]. by apply H.
  - intros H i Hi. apply H. lia.
Qed.

Lemma omap_concat {A B} (f : A -> option B) (ls : list (list A)) : omap f (concat ls) = concat ((fun l : list A => omap f l) <$> ls).
Proof. induction ls as [|l ls IH]; [done|]. cbn [concat fmap list_fmap]. by rewrite omap_app, IH. Qed.

Lemma concat_perm {A} (l1 l2 : list (list A)) : l1 ≡ₚ l2 -> concat l1 ≡ₚ concat l2.
Proof. intros H. induction H; cbn; rewrite ?app_assoc; [done|by f_equiv|f_equiv; apply Permutation_app_comm|by etrans]. Qed.

Lemma weights_cases rnd d q n arrival cs : quiet d -> 0 < n -> arrival ≡ₚ seq 0 n ->
  (Forall (fun c => c ∈ dom (cluster d)) cs /\
   exists ws, rtraverse (fun i => query_cooccurrence rnd d q (stride i n cs)) arrival = Ok ws /\
     concat ws ≡ₚ omap (weight_entry rnd d q) cs) \/
  (~ Forall (fun c => c ∈ dom (cluster d)) cs /\
   rtraverse (fun i => query_cooccurrence rnd d q (stride i n cs)) arrival = Err IndexError).
Proof.
  intros Hq Hn Ha.
  assert (forall l,
    (Forall (fun i => Forall (fun c => c ∈ dom (cluster d)) (stride i n cs)) l /\
     rtraverse (fun i => query_cooccurrence rnd d q (stride i n cs)) l =
       Ok ((fun i => omap (weight_entry rnd d q) (stride i n cs)) <$> l)) \/
    (~ Forall (fun i => Forall (fun c => c ∈ dom (cluster d)) (stride i n cs)) l /\
     rtraverse (fun i => query_cooccurrence rnd d q (stride i n cs)) l = Err IndexError)) as Hgen.
  { induction l as [|i l IH]; [left; split; [constructor|done]|]. cbn [rtraverse fmap list_fmap].
    destruct (cooccurrence_cases rnd d q (stride i n cs) Hq) as [[Hf ->]|[Hf ->]]; cbn [rbind].
    - destruct IH as [[Hg ->]|[Hg ->]]; cbn [rbind]; [left|right]; (split; [|done]).
      + by constructor.
      + inversion 1; subst; done.
    - right. split; [inversion 1; subst; done|done]. }
  assert (Forall (fun i => Forall (fun c => c ∈ dom (cluster d)) (stride i n cs)) arrival <->
    Forall (fun c => c ∈ dom (cluster d)) cs) as Hiff.
  { rewrite Ha. rewrite <- (Forall_stride _ n cs Hn). rewrite Forall_seq.
    split; [intros H i Hi; apply H; lia|intros H i [_ Hi]; by apply H]. }
  destruct (Hgen arrival) as [[Hf Hr]|[Hf Hr]]; rewrite Hiff in Hf; [left|right]; split; [done| |done|done].
  eexists. split; [exact Hr|]. etrans; [|apply omap_Permutation, (stride_partition n cs Hn)].
  rewrite omap_concat, <- list_fmap_compose. apply concat_perm. by rewrite Ha.
Qed.

#[global] Instance weight_ge_total : Total weight_ge.
Proof. intros a b. unfold weight_ge. apply Qcle_total. Qed.
#[global] Instance weight_ge_trans : Transitive weight_ge.
Proof. intros a b c. unfold weight_ge. intros. by eapply Qcle_trans. Qed.

Lemma pivot_ids_perm d sel : pivot_ids d sel ≡ₚ requested d sel.
Proof.
  destruct sel as [[|x l]|]; cbn [pivot_ids requested]; [|done|].
  all: rewrite merge_sort_Permutation, <- list_fmap_compose; apply NoDup_Permutation;
    [apply (NoDup_fst_map_to_list (cluster d))|apply NoDup_elements|];
    intros x; rewrite elem_of_elements, elem_of_dom, elem_of_list_fmap; split;
    [intros ([y row] & -> & Hin); apply elem_of_map_to_list in Hin; eauto|
     intros [row Hrow]; exists (x, row); split; [done|by apply elem_of_map_to_list]].
Qed.

Lemma weight_entry_some rnd d q c e : weight_entry rnd d q c = Some e ->
  e = (c, similarity rnd q (cluster_documents d c), size (q ∩ cluster_documents d c)) /\
  q ∩ cluster_documents d c ≠ ∅ /\ q ≠ ∅.
Proof.
  unfold weight_entry. destruct (_ =? 0) eqn:E; [done|]. intros [= <-]. apply Nat.eqb_neq in E.
  rewrite size_0 in E. split_and!; [done|done|set_solver].
Qed.

Lemma omap_weight_ids rnd d q cs :
  (omap (weight_entry rnd d q) cs).*1.*1 = filter (fun c => q ∩ cluster_documents d c ≠ ∅) cs.
Proof.
  induction cs as [|c cs IH]; [done|]. cbn [omap list_omap]. rewrite filter_cons.
  unfold weight_entry at 1. destruct (size (q ∩ cluster_documents d c) =? 0) eqn:E.
  - apply Nat.eqb_eq, size_0 in E. rewrite decide_False by (intros H; by apply H). done.
  - apply Nat.eqb_neq in E. rewrite size_0 in E. rewrite decide_True by done. cbn. by f_equal.
Qed.

Lemma Forall_dom_perm d l1 l2 : l1 ≡ₚ l2 ->
  Forall (fun c => c ∈ dom (cluster d)) l1 <-> Forall (fun c => c ∈ dom (cluster d)) l2.
Proof. intros H. by rewrite H. Qed.

(** Every entry of the output, whatever the call. *)
Lemma pivot_output rnd workers arrival d q sel k out : rounding rnd -> quiet d ->
  pivot_clusters_by_query rnd workers arrival d q sel k = Ok out -> Forall (pivot_result rnd d q k) out.
Proof.
  intros Hr Hq. unfold pivot_clusters_by_query.
  destruct (rtraverse _ arrival) as [ws|] eqn:Ew; [|discriminate]. cbn [rbind]. intros Ho.
  apply rtraverse_ok_iff in Ew. apply rtraverse_ok_iff in Ho.
  apply Forall_forall. intros o Hin. apply elem_of_list_lookup in Hin as [i Hi].
  destruct (Forall2_lookup_r _ _ _ _ _ Ho Hi) as ([[c s] inter] & Hx & Hp).
  apply elem_of_list_lookup_2 in Hx. rewrite merge_sort_Permutation in Hx.
  apply elem_of_concat in Hx as (w & Hw & Hws). apply elem_of_list_lookup in Hws as [j Hj].
  destruct (Forall2_lookup_r _ _ _ _ _ Ew Hj) as (a & _ & Ha).
  destruct (cooccurrence_cases rnd d q (stride a (workers * 2) (pivot_ids d sel)) Hq) as [[_ E]|[_ E]];
    rewrite E in Ha; [|discriminate]. injection Ha as <-.
  apply elem_of_list_omap in Hw as (c' & _ & Hc'). apply weight_entry_some in Hc' as ([= -> -> ->] & _ & Hne).
  eapply pivot_cluster_spec; eauto.
Qed.

Lemma pivot_cluster_total rnd d q k c inter : quiet d -> 0 < k -> c ∈ dom (cluster d) ->
  exists rows, pivot_cluster rnd d q k c inter = Ok (c, similarity rnd q (cluster_documents d c), rows).
Proof.
  intros Hq Hk Hc. unfold pivot_cluster.
  edestruct (pivot_loop_total rnd d q) as [h Hh]; [|rewrite Hh].
  - destruct k; [lia|]. discriminate.
  - cbn [rbind]. rewrite (quiet_cluster_docs d c Hq Hc). cbn [rbind]. eauto.
Qed.

Lemma pivot_total rnd workers arrival d q sel k : quiet d -> 0 < workers ->
  arrival ≡ₚ seq 0 (workers * 2) -> 0 < k ->
  (forall c, c ∈ requested d sel -> c ∈ dom (cluster d)) ->
  exists out, pivot_clusters_by_query rnd workers arrival d q sel k = Ok out /\
    out.*1.*1 ≡ₚ filter (fun c => q ∩ cluster_documents d c ≠ ∅) (requested d sel) /\
    StronglySorted (fun a b => b.1.2 <= a.1.2)%Qc out.
Proof.
  intros Hq Hw Ha Hk Hids. unfold pivot_clusters_by_query.
  destruct (weights_cases rnd d q (workers * 2) arrival (pivot_ids d sel) Hq ltac:(lia) Ha)
    as [[_ (ws & Hws & Hp)]|[Hf _]].
  2:{ destruct Hf. rewrite pivot_ids_perm. apply Forall_forall. exact Hids. }
  rewrite Hws. cbn [rbind].
  set (order := merge_sort weight_ge (concat ws)).
  assert (order ≡ₚ omap (weight_entry rnd d q) (pivot_ids d sel)) as Hpo.
  { unfold order. by rewrite merge_sort_Permutation. }
  assert (StronglySorted weight_ge order) as Hso by apply (StronglySorted_merge_sort weight_ge).
  assert (forall e, e ∈ order -> e.1.1 ∈ dom (cluster d) /\ e.1.2 = similarity rnd q (cluster_documents d e.1.1)) as He.
  { intros e He. rewrite Hpo in He. apply elem_of_list_omap in He as (c & Hc & He).
    apply weight_entry_some in He as (-> & _). split; [|done]. apply Hids. by rewrite <- pivot_ids_perm. }
  assert (exists out, rtraverse (fun '(c, _, inter) => pivot_cluster rnd d q k c inter) order = Ok out /\
    out.*1 = order.*1) as (out & Ho & Hfst).
  { clear Hpo Hso. induction order as [|[[c s] inter] order IH]; [by exists []|].
    destruct IH as (out & Ho & Hf). { intros; apply He; by right. }
    destruct (He (c, s, inter) ltac:(left)) as [Hc Hs]. cbn in Hc, Hs.
    destruct (pivot_cluster_total rnd d q k c inter Hq Hk Hc) as [rows Hrows].
    cbn [rtraverse]. rewrite Hrows, Ho. cbn [rbind]. eexists. split; [done|]. cbn. rewrite Hs. by f_equal. }
  exists out. split_and!; [done| |].
  - rewrite Hfst, Hpo, omap_weight_ids. by rewrite pivot_ids_perm.
  - clear -Hso Hfst. revert out Hfst. induction Hso as [|x l Hs IH Hf]; intros out E.
    + destruct out; [constructor|discriminate].
    + destruct out as [|o out]; [discriminate|]. cbn in E. injection E as E1 E2. constructor; [by apply IH|].
      apply Forall_forall. intros b Hb. rewrite E1.
      assert (b.1 ∈ l.*1) as Hb'. { rewrite <- E2. by apply elem_of_list_fmap_1. }
      apply elem_of_list_fmap in Hb' as (y & -> & Hy). rewrite Forall_forall in Hf. by apply (Hf y).
Qed.

Lemma pivot_unknown rnd workers arrival d q sel k c : quiet d -> 0 < workers ->
  arrival ≡ₚ seq 0 (workers * 2) -> c ∈ requested d sel -> c ∉ dom (cluster d) ->
  pivot_clusters_by_query rnd workers arrival d q sel k = Err IndexError.
Proof.
  intros Hq Hw Ha Hc Hn. unfold pivot_clusters_by_query.
  destruct (weights_cases rnd d q (workers * 2) arrival (pivot_ids d sel) Hq ltac:(lia) Ha)
    as [[Hf _]|[_ ->]]; [|done].
  rewrite pivot_ids_perm, Forall_forall in Hf. by destruct Hn; apply Hf.
Qed.

Lemma pivot_top_k_zero rnd workers arrival d q sel c : quiet d -> 0 < workers ->
  arrival ≡ₚ seq 0 (workers * 2) -> (forall c, c ∈ requested d sel -> c ∈ dom (cluster d)) ->
  c ∈ requested d sel -> q ∩ cluster_documents d c ≠ ∅ ->
  pivot_clusters_by_query rnd workers arrival d q sel 0 = Err IndexError.
Proof.
  intros Hq Hw Ha Hids Hc Hne. unfold pivot_clusters_by_query.
  destruct (weights_cases rnd d q (workers * 2) arrival (pivot_ids d sel) Hq ltac:(lia) Ha)
    as [[_ (ws & Hws & Hp)]|[Hf _]].
  2:{ destruct Hf. rewrite pivot_ids_perm. apply Forall_forall. exact Hids. }
  rewrite Hws. cbn [rbind].
  assert (merge_sort weight_ge (concat ws) ≡ₚ omap (weight_entry rnd d q) (pivot_ids d sel)) as Hpo
    by (by rewrite merge_sort_Permutation).
  destruct (merge_sort weight_ge (concat ws)) as [|[[c' s] inter] order].
  { exfalso. assert (c ∈ ([] : list Z)) as Hn; [|by apply elem_of_nil in Hn].
    change ([] : list Z) with (([] : list (Z * Qc * nat)).*1.*1). rewrite Hpo, omap_weight_ids.
    apply elem_of_list_filter. split; [done|]. by rewrite pivot_ids_perm. }
  cbn [rtraverse]. assert (pivot_cluster rnd d q 0 c' inter = Err IndexError) as ->; [|done].
  assert (c' ∈ dom (cluster d)) as Hc'.
  { apply Hids. rewrite <- pivot_ids_perm.
    assert ((c', s, inter) ∈ omap (weight_entry rnd d q) (pivot_ids d sel)) as Hin by (rewrite <- Hpo; left).
    apply elem_of_list_omap in Hin as (x & Hx & E). by apply weight_entry_some in E as ([= -> _ _] & _). }
  unfold pivot_cluster.
  destruct (cluster_features_spec d c' None (proj1 Hq)) as (all & Hall & _ & _ & ->).
  match goal with |- context [merge_sort search_ge ?l] => assert (merge_sort search_ge l ≡ₚ l) as Hms by apply merge_sort_Permutation;
    destruct (merge_sort search_ge l) as [|[t f] r] eqn:E end.
  - exfalso. apply Permutation_nil_l in Hms. destruct all; [|discriminate]. cbn in Hall.
    assert (members d c' ≠ ∅) as Hm. { apply (proj1 (proj2 (proj2 Hq))). by apply elem_of_dom. }
    apply Hm. symmetry in Hall. apply Permutation_nil_r in Hall. by apply elements_empty_inv, leibniz_equiv in Hall.
  - done.
Qed.
