(** CollocationProofs.v: proofs about collocation counts. *)
From Verif Require Export PassageCalls.

(** A traversal over all positions of a list in any order is one over a permutation. *)
Lemma arrival_perm {A B} (f : A -> res B) (l : list A) arrival ys (dflt : res B) :
  arrival ≡ₚ seq 0 (length l) ->
  rtraverse (fun i => match l !! i with Some x => f x | None => dflt end) arrival = Ok ys ->
  exists l', l' ≡ₚ l /\ Forall2 (fun x y => f x = Ok y) l' ys.
Proof.
  intros Hp Hr. apply rtraverse_ok_iff in Hr. exists (omap (fun i => l !! i) arrival). split.
  - etrans; [apply omap_Permutation; exact Hp|].
    assert (forall (l1 l2 : list A), omap (fun i => (l1 ++ l2) !! i) (seq (length l1) (length l2)) = l2) as H.
    { intros l1 l2. revert l1. induction l2 as [|x l2 IH]; intros l1; [done|]. cbn.
      rewrite list_lookup_middle by done. f_equal. specialize (IH (l1 ++ [x])). rewrite app_length in IH. cbn in IH.
      rewrite Nat.add_1_r in IH. rewrite <- IH at 2. rewrite <- app_assoc. done. }
    pose proof (H [] l) as H0. cbn [app length] in H0. by rewrite H0.
  - assert (forall i, i ∈ arrival -> i < length l) as Hlt.
    { intros i Hi. rewrite Hp in Hi. apply elem_of_seq in Hi. lia. }
    clear Hp. induction Hr as [|i y arrival ys Hy Hr IH]; cbn; [constructor|].
    destruct (lookup_lt_is_Some_2 l i) as [x Hx]; [apply Hlt; by left|]. rewrite Hx in *.
    constructor; [done|]. apply IH. intros; apply Hlt; by right.
Qed.

Lemma field_partitions_in d F first : first ∈ field_partitions d F <-> is_Some (position_doc_map d !! (F, first)).
Proof.
  unfold field_partitions. rewrite elem_of_list_omap. split.
  - intros ([[G y] pm] & Hkv & Hx). cbn in Hx. case_bool_decide; [|done]. injection Hx as <-. subst.
    apply elem_of_map_to_list in Hkv. by exists pm.
  - intros [pm Hpm]. exists (F, first, pm). split; [by apply elem_of_map_to_list|]. cbn. by rewrite bool_decide_eq_true_2.
Qed.
Lemma field_partitions_NoDup d F : NoDup (field_partitions d F).
Proof.
  unfold field_partitions. pose proof (NoDup_fst_map_to_list (position_doc_map d)) as Hnd.
  induction (map_to_list (position_doc_map d)) as [|[[G y] pm] l IH]; cbn; [constructor|].
  cbn in Hnd. apply NoDup_cons in Hnd as [Hn Hnd]. case_bool_decide as HG; [|auto].
  apply NoDup_cons. split; [|auto]. intros Hin. apply Hn. apply elem_of_list_omap in Hin as ([[G' y'] pm'] & Hin & E).
  cbn in E. case_bool_decide; [|done]. injection E as ->. subst. apply elem_of_list_fmap. by exists (F, y, pm').
Qed.

Lemma foldl_add_count l : NoDup l.*1.*1 -> forall m g,
  (forall x y, (g, x, y) ∈ l -> foldl add_count m l !! g =
     Some ((default (0, 0) (m !! g)).1 + x, (default (0, 0) (m !! g)).2 + y)) /\
  (g ∉ l.*1.*1 -> foldl add_count m l !! g = m !! g).
Proof.
  induction l as [|[[h x0] y0] l IH]; intros Hnd m g; cbn in *.
  - split; [by intros ? ? ?%elem_of_nil|done].
  - apply NoDup_cons in Hnd as [Hn Hnd]. destruct (default (0, 0) (m !! h)) as [a b] eqn:E.
    destruct (IH Hnd (<[h := (a + x0, b + y0)]> m) g) as [H1 H2]. split.
    + intros x y [Heq|Hin]%elem_of_cons.
      * injection Heq as -> -> ->. rewrite H2 by done. rewrite lookup_insert. by rewrite E.
      * assert (g ≠ h) as Hgh.
        { intros ->. apply Hn. apply elem_of_list_fmap. exists (h, x). split; [done|].
          apply elem_of_list_fmap. by exists (h, x, y). }
        rewrite (H1 x y Hin). by rewrite lookup_insert_ne.
    + intros Hg. apply not_elem_of_cons in Hg as [Hgh Hg]. rewrite H2 by done. by rewrite lookup_insert_ne.
Qed.

Section counts.
  Context (d : db) (F : string) (fs : gset N) (w : N) (win : N -> gset N).
  Notation Q first := (union_position_query d first fs).
  Notation P first g := (partition_positions d first g).

  Definition near_sum (g : N) (L : list N) : nat := sum_list_with (fun first => size (win first ∩ P first g)) L.
  Definition total_sum (g : N) (L : list N) : nat := sum_list_with (fun first => size (P first g)) L.
  Definition occurs_in (g : N) (L : list N) : Prop := exists first, first ∈ L /\ P first g ≠ ∅.

  Record tallied (L : list N) (st : gmap N (nat * nat) * nat * nat) : Prop := {
    ty_q : st.1.2 = sum_list_with (fun first => size (Q first)) L;
    ty_w : st.2 = sum_list_with (fun first => size (win first)) L;
    ty_some : forall g, g ∉ fs -> occurs_in g L -> st.1.1 !! g = Some (near_sum g L, total_sum g L);
    ty_none : forall g, g ∈ fs \/ ~ occurs_in g L -> st.1.1 !! g = None }.

  Lemma not_occurs g L : ~ occurs_in g L -> near_sum g L = 0 /\ total_sum g L = 0.
  Proof.
    intros Hn. unfold near_sum, total_sum. induction L as [|x L IH]; [done|]. cbn.
    assert (P x g = ∅) as E.
    { destruct (decide (P x g = ∅)) as [|Hne]; [done|]. exfalso. apply Hn. exists x. split; [by left|done]. }
    rewrite E. rewrite intersection_empty_r_L, size_empty. destruct IH as [-> ->]; [|done].
    intros (y & Hy & Hne). apply Hn. exists y. split; [by right|done].
  Qed.

  Lemma count_step L first st counts q wn : tallied L st -> count_partition d F fs w first = Ok (counts, q, wn) ->
    (forall pm, position_doc_map d !! (F, first) = Some pm ->
       expand_positions_window (Q first) (pm_boundaries pm) w = Ok (win first)) ->
    tallied (L ++ [first]) (add_counts st (counts, q, wn)).
  Proof.
    intros [T1 T2 T3 T4]. unfold count_partition, partition_header.
    destruct (position_doc_map d !! (F, first)) as [pm|] eqn:Hpm; [|done]. cbn [rbind]. intros Hc Hw.
    rewrite (Hw pm eq_refl) in Hc. cbn [rbind] in Hc. injection Hc as Hc <- <-.
    set (g0 := fun kv : N * N * pos_row => if bool_decide (kv.1.2 = first /\ kv.1.1 ∉ fs) then
        if bool_decide (P first kv.1.1 = ∅) then None else Some (kv.1.1, size (win first ∩ P first kv.1.1), size (P first kv.1.1))
        else None).
    change (omap g0 (map_to_list (position_index d)) = counts) in Hc.
    assert (forall g x y, (g, x, y) ∈ counts <-> g ∉ fs /\ P first g ≠ ∅ /\ x = size (win first ∩ P first g) /\ y = size (P first g)) as Hin.
    { intros g x y. rewrite <- Hc, elem_of_list_omap. split.
      - intros ([[g' f'] row] & Hkv & E). unfold g0 in E. cbn [fst snd] in E.
        case_bool_decide as B1; [|done]. case_bool_decide as B2; [done|]. injection E as <- <- <-. by destruct B1 as [_ ?].
      - intros (Hg & Hne & -> & ->). pose proof Hne as Hne'. unfold partition_positions in Hne'.
        destruct (position_index d !! (g, first)) as [row|] eqn:Hrow; [|done].
        exists (g, first, row). split; [by apply elem_of_map_to_list|]. unfold g0. cbn [fst snd].
        rewrite bool_decide_eq_true_2 by done. by rewrite bool_decide_eq_false_2. }
    assert (NoDup counts.*1.*1) as Hnd.
    { rewrite <- Hc. clear -g0. pose proof (NoDup_fst_map_to_list (position_index d)) as Hnd.
      induction (map_to_list (position_index d)) as [|[[g f'] row] l IH]; cbn; [constructor|].
      cbn in Hnd. apply NoDup_cons in Hnd as [Hn Hnd]. specialize (IH Hnd).
      destruct (g0 (g, f', row)) as [x|] eqn:E; [|done]. cbn. apply NoDup_cons. split; [|done].
      unfold g0 in E. cbn [fst snd] in E. case_bool_decide as B1; [|done]. case_bool_decide; [done|]. injection E as <-. cbn.
      intros Hin. apply elem_of_list_fmap in Hin as ([g1 n1] & E1 & Hin). cbn in E1. subst g1.
      apply elem_of_list_fmap in Hin as ([[g1 n1'] n2] & E1 & Hin). cbn in E1. injection E1 as <- <-.
      apply elem_of_list_omap in Hin as ([[g2 f2] row2] & Hin & E). unfold g0 in E. cbn [fst snd] in E.
      case_bool_decide as B2; [|done]. case_bool_decide; [done|]. injection E as -> _ _. destruct B1 as [-> _], B2 as [-> _].
      apply Hn. apply elem_of_list_fmap. by exists (g, first, row2). }
    destruct st as [[m tq] tw]. cbn [fst snd] in *. unfold add_counts.
    assert (forall g, occurs_in g (L ++ [first]) <-> occurs_in g L \/ P first g ≠ ∅) as Hocc.
    { intros g. unfold occurs_in. split.
      - intros (x & [Hx|Hx]%elem_of_app & Hne); [left; eauto|]. apply elem_of_list_singleton in Hx as ->. by right.
      - intros [(x & Hx & Hne)|Hne]; [exists x|exists first]; (split; [set_solver|done]). }
    assert (forall g, g ∉ counts.*1.*1 <-> g ∈ fs \/ P first g = ∅) as Hnot.
    { intros g. split.
      - intros Hn. destruct (decide (g ∈ fs)); [by left|right]. destruct (decide (P first g = ∅)) as [|Hne]; [done|]. exfalso.
        apply Hn. apply elem_of_list_fmap. exists (g, size (win first ∩ P first g)). split; [done|].
        apply elem_of_list_fmap. eexists (_, _). split; [|by apply Hin]. done.
      - intros Hor Hg. apply elem_of_list_fmap in Hg as ([g1 n1] & -> & Hg).
        apply elem_of_list_fmap in Hg as ([[g2 n2] n3] & E & Hg). injection E as -> ->. apply Hin in Hg. naive_solver. }
    split; cbn [fst snd].
    - rewrite sum_list_with_app. cbn. rewrite T1. lia.
    - rewrite sum_list_with_app. cbn. rewrite T2. lia.
    - intros g Hg Ho. unfold near_sum, total_sum. rewrite !sum_list_with_app. cbn [sum_list_with].
      fold (near_sum g L) (total_sum g L). rewrite !Nat.add_0_r.
      destruct (foldl_add_count counts Hnd m g) as [F1 F2].
      destruct (decide (P first g = ∅)) as [E|Hne].
      + rewrite F2 by (apply Hnot; by right). rewrite E, intersection_empty_r_L, size_empty, !Nat.add_0_r.
        apply T3; [done|]. apply Hocc in Ho as [?|?]; done.
      + rewrite (F1 (size (win first ∩ P first g)) (size (P first g))) by (apply Hin; done).
        destruct (m !! g) as [[a b]|] eqn:Em; cbn.
        * destruct (decide (a = near_sum g L /\ b = total_sum g L)) as [[-> ->]|Hn]; [done|]. exfalso.
          assert (~ occurs_in g L) as Hno by (intros Ho'; specialize (T3 g Hg Ho'); naive_solver).
          rewrite (T4 g) in Em by (by right). done.
        * assert (~ occurs_in g L) as Hno by (intros Ho'; specialize (T3 g Hg Ho'); naive_solver).
          by destruct (not_occurs g L Hno) as [-> ->].
    - intros g Hor. destruct (foldl_add_count counts Hnd m g) as [_ F2].
      rewrite Hocc in Hor. rewrite F2.
      + apply T4. naive_solver.
      + apply Hnot. destruct Hor as [?|Hn]; [by left|right]. destruct (decide (P first g = ∅)); [done|]. naive_solver.
  Qed.

  Lemma counts_all rs L' : Forall2 (fun first r => count_partition d F fs w first = Ok r) L' rs ->
    (forall first pm, position_doc_map d !! (F, first) = Some pm ->
       expand_positions_window (Q first) (pm_boundaries pm) w = Ok (win first)) ->
    forall L st, tallied L st -> tallied (L ++ L') (foldl add_counts st rs).
  Proof.
    intros HF Hw. induction HF as [|first r L' rs Hr HF IH]; intros L st HT; cbn; [by rewrite app_nil_r|].
    rewrite cons_middle, app_assoc. apply IH. destruct r as [[counts q] wn]. apply count_step; auto.
  Qed.

  Lemma tallied_perm L L' st : L ≡ₚ L' -> tallied L st -> tallied L' st.
  Proof.
    intros Hp [T1 T2 T3 T4].
    assert (forall f : N -> nat, sum_list_with f L = sum_list_with f L') as Hs.
    { intros f. clear -Hp. induction Hp; cbn; lia. }
    assert (forall g, occurs_in g L <-> occurs_in g L') as Ho by (intros g; unfold occurs_in; by setoid_rewrite Hp).
    split.
    - by rewrite T1, Hs.
    - by rewrite T2, Hs.
    - intros g Hg Hoc. rewrite T3; [|done|by apply Ho]. unfold near_sum, total_sum. by rewrite !Hs.
    - intros g Hor. apply T4. by rewrite Ho.
  Qed.

  Lemma tallied_empty : tallied [] (∅, 0, 0).
  Proof.
    split; [done|done| |].
    - intros g _ (x & Hx & _). by apply elem_of_nil in Hx.
    - intros g _. exact (lookup_empty g).
  Qed.
End counts.

(** ** Counting tokens *)
Section token_count.
  Context (c : corpus) (d : db) (F : string).
  Hypothesis Hen : encodes c d.

  Definition position_token (first p : N) : N * nat :=
    match position_doc_map d !! (F, first) with
    | Some pm => match locate (pm_doc_ids pm) (pm_boundaries pm) p with
                 | Ok (s, _, doc) => (doc, N.to_nat (p - s))
                 | Err _ => (0%N, 0)
                 end
    | None => (0%N, 0)
    end.

  Lemma position_token_eq first pm doc j s vs : position_doc_map d !! (F, first) = Some pm ->
    starts_at pm doc s -> doc_sequence c F doc vs -> j < length vs ->
    position_token first (s + N.of_nat j) = (doc, j).
  Proof.
    intros Hpm Hs Hseq Hj. unfold position_token. rewrite Hpm.
    pose proof (starts_at_span c d F first pm Hen Hpm doc s vs Hs Hseq (s + N.of_nat j) ltac:(lia)) as B.
    pose proof (en_partitions c d Hen F first pm Hpm) as [_ _ [Hsz _] _ _].
    destruct (locate_ok (pm_doc_ids pm) (pm_boundaries pm) {[(s + N.of_nat j)%N]} (s + N.of_nat j)) as (s' & e & doc' & i & -> & B' & E1 & E2); [|done|set_solver|].
    { intros p Hp. apply elem_of_singleton in Hp as ->. destruct B as (B1 & B2 & B3 & _). split; [exists s|eexists]; (split; [done|lia]). }
    destruct (brackets_unique _ _ _ _ _ _ B B') as [-> _].
    destruct Hs as (i' & H1 & H2). pose proof (bm_list_inj _ _ _ _ E2 H2) as ->. rewrite E1 in H1. injection H1 as ->.
    f_equal. lia.
  Qed.

  Lemma sum_tokens (S : N -> gset N) (R : N -> nat -> Prop) L : NoDup L ->
    (forall first, first ∈ L -> exists pm, position_doc_map d !! (F, first) = Some pm) ->
    (forall first p pm, first ∈ L -> position_doc_map d !! (F, first) = Some pm ->
       p ∈ S first <-> exists doc j s vs, starts_at pm doc s /\ doc_sequence c F doc vs /\ j < length vs /\
         R doc j /\ p = (s + N.of_nat j)%N) ->
    exists X : gset (N * nat), size X = sum_list_with (fun first => size (S first)) L /\
      forall doc j, (doc, j) ∈ X <-> (exists first pm, first ∈ L /\ position_doc_map d !! (F, first) = Some pm /\ doc ∈ pm_doc_ids pm) /\
        (exists vs, doc_sequence c F doc vs /\ j < length vs) /\ R doc j.
  Proof.
    intros Hnd Hpart HS. induction L as [|first L IH].
    - exists ∅. split; [done|]. intros doc j. split; [by intros ?%not_elem_of_empty|].
      intros ((? & ? & ?%elem_of_nil & _) & _). done.
    - apply NoDup_cons in Hnd as [Hn Hnd].
      destruct IH as (X & HX & HXin); [done|intros; apply Hpart; by right|intros; apply HS; [by right|done]|].
      destruct (Hpart first) as [pm Hpm]; [by left|].
      assert (forall p, p ∈ S first <-> exists doc j s vs, starts_at pm doc s /\ doc_sequence c F doc vs /\ j < length vs /\
         R doc j /\ p = (s + N.of_nat j)%N) as HSf by (intros p; apply HS; [by left|done]).
      set (Y := list_to_set (position_token first <$> elements (S first)) : gset (N * nat)).
      assert (forall doc j, (doc, j) ∈ Y <-> doc ∈ pm_doc_ids pm /\ (exists vs, doc_sequence c F doc vs /\ j < length vs) /\ R doc j) as HY.
      { intros doc j. unfold Y. rewrite elem_of_list_to_set, elem_of_list_fmap. split.
        - intros (p & E & Hp). apply elem_of_elements, HSf in Hp as (doc' & j' & s & vs & H1 & H2 & H3 & H4 & ->).
          rewrite (position_token_eq first pm doc' j' s vs Hpm H1 H2 H3) in E. injection E as -> ->.
          split_and!; [by eapply starts_at_in|eauto|done].
        - intros (Hd & (vs & Hseq & Hj) & HR). destruct (starts_at_exists c d F first pm Hen Hpm doc Hd) as [s Hs].
          exists (s + N.of_nat j)%N. rewrite (position_token_eq first pm doc j s vs Hpm Hs Hseq Hj). split; [done|].
          apply elem_of_elements, HSf. eauto 10. }
      exists (Y ∪ X). split.
      + rewrite size_union.
        * cbn. f_equal; [|done]. unfold Y. rewrite size_list_to_set; [by rewrite fmap_length|].
          apply NoDup_fmap_2_strong; [|apply NoDup_elements]. intros p q Hp Hq E.
          apply elem_of_elements, HSf in Hp as (doc & j & s & vs & H1 & H2 & H3 & H4 & ->).
          apply elem_of_elements, HSf in Hq as (doc' & j' & s' & vs' & H1' & H2' & H3' & H4' & ->).
          rewrite (position_token_eq first pm doc j s vs), (position_token_eq first pm doc' j' s' vs') in E by done.
          injection E as -> ->. by rewrite (starts_at_fun pm _ _ _ H1 H1').
        * intros [doc j] H1 H2. apply HY in H1 as (Hd & (vs & Hseq & _) & _).
          apply HXin in H2 as ((first' & pm' & Hin & Hpm' & Hd') & _).
          destruct (en_covered c d Hen F doc vs Hseq) as (f0 & _ & Hu).
          pose proof (Hu first ltac:(by exists pm)). pose proof (Hu first' ltac:(by exists pm')). congruence.
      + intros doc j. rewrite elem_of_union, HY, HXin. split.
        * intros [(H1 & H2 & H3)|((f' & pm' & H1 & H1' & H1'') & H2)].
          -- split; [|done]. exists first, pm. split_and!; [by left|done|done].
          -- split; [|done]. exists f', pm'. split_and!; [by right|done|done].
        * intros ((f' & pm' & [->|H1]%elem_of_cons & H1' & H1'') & H2).
          -- left. rewrite Hpm in H1'. injection H1' as <-. done.
          -- right. split; [|done]. eauto.
  Qed.
End token_count.

(** ** The windows in terms of tokens *)
Section windows.
  Context (c : corpus) (d : db) (F : string) (fs : gset N) (w : N).
  Hypothesis Hen : encodes c d.
  Hypothesis Hfs : forall f, f ∈ fs -> exists v, lookup_feature d f = Ok (F, v).
  Notation cl := (ById <$> elements fs).

  Lemma query_positions first pm p : position_doc_map d !! (F, first) = Some pm ->
    p ∈ union_position_query d first fs <->
    exists doc j s, starts_at pm doc s /\ clause_at c d cl F doc j /\ p = (s + N.of_nat j)%N.
  Proof.
    intros Hpm.
    assert (rtraverse (resolve_ref d) cl = Ok (pair F <$> elements fs)) as Hr.
    { assert (forall f, f ∈ elements fs -> exists v, lookup_feature d f = Ok (F, v)) as H
        by (intros f Hf; apply Hfs; by apply elem_of_elements).
      induction (elements fs) as [|f l IH]; [done|]. cbn [fmap list_fmap rtraverse].
      destruct (H f) as [v Hv]; [by left|]. cbn [resolve_ref]. rewrite Hv. cbn [rmap rbind].
      rewrite IH by (intros; apply H; by right). done. }
    rewrite <- (clause_positions c d F first pm Hen Hpm cl _ p Hr).
    assert (clause_in_field F (pair F <$> elements fs) = fs) as ->; [|done].
    unfold clause_in_field. apply set_eq. intros f. rewrite elem_of_list_to_set, elem_of_list_fmap. split.
    - intros ([G g] & -> & Hg). apply elem_of_list_filter in Hg as [_ Hg].
      apply elem_of_list_fmap in Hg as (h & [= -> ->] & Hh). by apply elem_of_elements in Hh.
    - intros Hf. exists (F, f). split; [done|]. apply elem_of_list_filter. split; [done|].
      apply elem_of_list_fmap. exists f. split; [done|]. by apply elem_of_elements.
  Qed.

  Lemma query_delimited first pm : position_doc_map d !! (F, first) = Some pm ->
    delimited (pm_boundaries pm) (union_position_query d first fs).
  Proof.
    intros Hpm. apply (tokens_delimited c d F first pm Hen Hpm). intros p Hp.
    apply (query_positions first pm p Hpm) in Hp as (doc & j & s & H1 & (x & v & _ & _ & Ht) & ->). eauto 10.
  Qed.

  Lemma window_token first pm W doc j s vs : position_doc_map d !! (F, first) = Some pm ->
    expand_positions_window (union_position_query d first fs) (pm_boundaries pm) w = Ok W ->
    starts_at pm doc s -> doc_sequence c F doc vs -> j < length vs ->
    (s + N.of_nat j)%N ∈ W <->
    clause_near c d cl F w doc (N.of_nat j) \/ (j = 0 /\ clause_before c d cl F w doc).
  Proof.
    intros Hpm HW Hs Hseq Hj.
    destruct (expand_positions_window_spec _ _ w (query_delimited first pm Hpm)) as (W' & HW' & Hin).
    rewrite HW in HW'. injection HW' as <-. rewrite Hin. split.
    - intros (p & Hp & Hw & Hor). apply (query_positions first pm p Hpm) in Hp as (doc' & j' & s' & H1 & Hat & ->).
      pose proof Hat as (x & v & _ & _ & vs' & Hseq' & Hj'). apply lookup_lt_Some in Hj'.
      destruct Hor as [Hsm|Hnext].
      + left. apply (same_document_tokens c d F first pm Hen Hpm doc' j' s' vs' doc j s vs) in Hsm as ->; [|done..].
        pose proof (starts_at_fun pm _ _ _ H1 Hs) as ->. exists j'. split; [done|]. unfold within in *. lia.
      + right. eapply before_leak; eauto.
    - intros [(j' & Hat & Hw)|(-> & doc' & vs' & j' & (first' & pm' & Hpm' & Hd1 & Hd2) & Hlt & Hseq' & Hno & Hat & Hl)].
      + pose proof Hat as (x & v & _ & _ & vs' & Hseq' & Hj'). apply lookup_lt_Some in Hj'.
        exists (s + N.of_nat j')%N. split; [apply (query_positions first pm _ Hpm); eauto 10|].
        split; [unfold within in *; lia|]. left.
        apply (same_document_tokens c d F first pm Hen Hpm doc j' s vs' doc j s vs); done.
      + assert (first' = first) as ->.
        { destruct (en_covered c d Hen F doc vs Hseq) as (f0 & _ & Hu).
          pose proof (Hu first ltac:(exists pm; split; [done|by eapply starts_at_in])).
          pose proof (Hu first' ltac:(exists pm'; done)). congruence. }
        rewrite Hpm in Hpm'. injection Hpm' as <-.
        destruct (starts_at_exists c d F first pm Hen Hpm doc' Hd1) as [s' Hs'].
        pose proof Hat as (x & v & _ & _ & vs'' & Hseq'' & Hj').
        rewrite (doc_sequence_unique _ _ _ _ _ (en_dicts c d Hen) Hseq'' Hseq') in Hj'. apply lookup_lt_Some in Hj'.
        destruct (starts_at_span c d F first pm Hen Hpm doc' s' vs' Hs' Hseq' (s' + N.of_nat j') ltac:(lia)) as (B1 & B2 & B3 & B4).
        assert (s = s' + N.of_nat (length vs'))%N as Es.
        { pose proof Hs as (i & E1 & E2). pose proof Hs' as (i' & E1' & E2').
          assert (i' < i) as Hii by (by apply (bm_list_lt _ i' i doc' doc E1' E1)).
          assert (i = S i') as ->.
          { destruct (decide (i = S i')) as [|Hne]; [done|]. exfalso.
            pose proof (lookup_lt_Some _ _ _ E1). destruct (lookup_lt_is_Some_2 (bm_list (pm_doc_ids pm)) (S i')) as [dk Hk]; [lia|].
            assert (dk ∈ pm_doc_ids pm) as Hdk by (apply elem_of_bm_list; by eapply elem_of_list_lookup_2).
            apply (pl_docs _ _ _ _ _ (en_partitions c d Hen F first pm Hpm)) in Hdk as [_ [vk Hvk]].
            apply (Hno dk vk Hvk). split; [apply (bm_list_lt _ i' (S i') doc' dk E1' Hk); lia|].
            apply (bm_list_lt _ (S i') i dk doc Hk E1). lia. }
          destruct (pl_sequence _ _ _ _ _ (en_partitions c d Hen F first pm Hpm) i' doc' vs' E1' Hseq') as (st & sp & X1 & X2 & -> & _).
          congruence. }
        exists (s' + N.of_nat j')%N. split; [apply (query_positions first pm _ Hpm); eauto 10|].
        split; [unfold within; lia|]. right. split_and!.
        * replace (s + N.of_nat 0)%N with s by lia. by rewrite Es.
        * lia.
        * intros b Hb. specialize (B4 b Hb). lia.
  Qed.
End windows.

(** ** count_collocations *)
Section collocations.
  Context (c : corpus) (d : db) (F : string) (fs : gset N) (w : N) (arrival : list nat).
  Hypothesis Hen : encodes c d.
  Hypothesis Hfs : forall f, f ∈ fs -> exists v, lookup_feature d f = Ok (F, v).
  Hypothesis Hall : all_done arrival (length (field_partitions d F)).
  Notation cl := (ById <$> elements fs).

  Definition window_of (first : N) : gset N :=
    match position_doc_map d !! (F, first) with
    | Some pm => match expand_positions_window (union_position_query d first fs) (pm_boundaries pm) w with
                 | Ok W => W | Err _ => ∅ end
    | None => ∅
    end.

  Lemma window_of_ok first pm : position_doc_map d !! (F, first) = Some pm ->
    expand_positions_window (union_position_query d first fs) (pm_boundaries pm) w = Ok (window_of first).
  Proof.
    intros Hpm. unfold window_of. rewrite Hpm.
    destruct (expand_positions_window_spec _ _ w (query_delimited c d F fs Hen Hfs first pm Hpm)) as (W & -> & _). done.
  Qed.

  Lemma collocations_tallied : exists st, count_collocations arrival d F fs w = Ok st /\
    tallied d fs window_of (field_partitions d F) st.
  Proof.
    unfold count_collocations.
    match goal with |- context [rtraverse ?f arrival] => destruct (rtraverse_total f arrival) as [rs Hrs] end.
    { intros i Hi. unfold all_done in Hall. rewrite Hall in Hi. apply elem_of_seq in Hi as [_ Hi]. cbn in Hi.
      destruct (lookup_lt_is_Some_2 _ _ Hi) as [first Hx]. rewrite Hx.
      apply elem_of_list_lookup_2, field_partitions_in in Hx as [pm Hpm].
      unfold count_partition, partition_header. rewrite Hpm. cbn [rbind]. rewrite (window_of_ok first pm Hpm). by eexists. }
    rewrite Hrs. cbn [rbind]. eexists. split; [reflexivity|].
    destruct (arrival_perm _ _ _ _ _ Hall Hrs) as (L' & HL & HF).
    eapply tallied_perm; [exact HL|]. apply (counts_all d F fs w window_of rs L' HF window_of_ok [] (∅, 0, 0)).
    apply tallied_empty.
  Qed.

  Lemma partitions_exist first : first ∈ field_partitions d F -> exists pm, position_doc_map d !! (F, first) = Some pm.
  Proof. intros H. by apply field_partitions_in. Qed.

  Lemma token_in_partition doc vs : doc_sequence c F doc vs ->
    exists first pm, first ∈ field_partitions d F /\ position_doc_map d !! (F, first) = Some pm /\ doc ∈ pm_doc_ids pm.
  Proof.
    intros Hseq. destruct (en_covered c d Hen F doc vs Hseq) as (first & (pm & Hpm & Hd) & _).
    exists first, pm. split_and!; [apply field_partitions_in; by eexists|done|done].
  Qed.

  Lemma query_count : exists X : gset (N * nat),
    size X = sum_list_with (fun first => size (union_position_query d first fs)) (field_partitions d F) /\
    forall doc j, (doc, j) ∈ X <-> clause_at c d cl F doc j.
  Proof.
    destruct (sum_tokens c d F Hen (fun first => union_position_query d first fs) (fun doc j => clause_at c d cl F doc j)
      (field_partitions d F) (field_partitions_NoDup d F) partitions_exist) as (X & HX & Hin).
    - intros first p pm _ Hpm. rewrite (query_positions c d F fs Hen Hfs first pm p Hpm). split.
      + intros (doc & j & s & H1 & H2 & ->). pose proof H2 as (x & v & _ & _ & vs & Hseq & Hj). apply lookup_lt_Some in Hj. eauto 12.
      + intros (doc & j & s & vs & H1 & _ & _ & H2 & ->). eauto 10.
    - exists X. split; [done|]. intros doc j. rewrite Hin. split; [by intros (_ & _ & ?)|].
      intros H. pose proof H as (x & v & _ & _ & vs & Hseq & Hj). apply lookup_lt_Some in Hj.
      split_and!; [by eapply token_in_partition|eauto|done].
  Qed.

  Lemma feature_count g v : lookup_feature d g = Ok (F, v) ->
    (exists X : gset (N * nat), size X = total_sum d g (field_partitions d F) /\
       forall doc j, (doc, j) ∈ X <-> token c F doc j v) /\
    (exists X : gset (N * nat), size X = near_sum d window_of g (field_partitions d F) /\
       forall doc j, (doc, j) ∈ X <-> token c F doc j v /\
         (clause_near c d cl F w doc (N.of_nat j) \/ (j = 0 /\ clause_before c d cl F w doc))) /\
    (occurs_in d g (field_partitions d F) <-> exists doc j, token c F doc j v).
  Proof.
    intros Hg. split_and!.
    - destruct (sum_tokens c d F Hen (fun first => partition_positions d first g) (fun doc j => token c F doc j v)
        (field_partitions d F) (field_partitions_NoDup d F) partitions_exist) as (X & HX & Hin).
      + intros first p pm _ Hpm. rewrite (positions_tokens c d F first pm Hen Hpm g v p Hg). split.
        * intros (doc & j & s & H1 & (vs & Hseq & Hj) & ->). exists doc, j, s, vs.
          split_and!; [done|done|by eapply lookup_lt_Some|by exists vs|done].
        * intros (doc & j & s & vs & H1 & _ & _ & H2 & ->). eauto 10.
      + exists X. split; [done|]. intros doc j. rewrite Hin. split; [by intros (_ & _ & ?)|].
        intros (vs & Hseq & Hj). split_and!; [by eapply token_in_partition| |by exists vs].
        exists vs. split; [done|by eapply lookup_lt_Some].
    - destruct (sum_tokens c d F Hen (fun first => window_of first ∩ partition_positions d first g)
        (fun doc j => token c F doc j v /\
         (clause_near c d cl F w doc (N.of_nat j) \/ (j = 0 /\ clause_before c d cl F w doc)))
        (field_partitions d F) (field_partitions_NoDup d F) partitions_exist) as (X & HX & Hin).
      + intros first p pm _ Hpm. rewrite elem_of_intersection, (positions_tokens c d F first pm Hen Hpm g v p Hg). split.
        * intros (Hw & doc & j & s & H1 & (vs & Hseq & Hj) & ->). pose proof (lookup_lt_Some _ _ _ Hj) as Hl.
          exists doc, j, s, vs. split_and!; [done|done|done|by exists vs| |done].
          by apply (window_token c d F fs w Hen Hfs first pm _ doc j s vs Hpm (window_of_ok first pm Hpm)).
        * intros (doc & j & s & vs & H1 & Hseq & Hl & [H2 H3] & ->). split; [|eauto 10].
          by apply (window_token c d F fs w Hen Hfs first pm _ doc j s vs Hpm (window_of_ok first pm Hpm)).
      + exists X. split; [done|]. intros doc j. rewrite Hin. split; [by intros (_ & _ & ?)|].
        intros [Ht Hn]. pose proof Ht as (vs & Hseq & Hj). split_and!; [by eapply token_in_partition| |done|done].
        exists vs. split; [done|by eapply lookup_lt_Some].
    - unfold occurs_in. split.
      + intros (first & Hf & Hne). apply set_choose_L in Hne as [p Hp]. apply partitions_exist in Hf as [pm Hpm].
        apply (positions_tokens c d F first pm Hen Hpm g v p Hg) in Hp as (doc & j & s & _ & Ht & _). eauto.
      + intros (doc & j & Ht). pose proof Ht as (vs & Hseq & Hj).
        destruct (token_in_partition doc vs Hseq) as (first & pm & Hin & Hpm & Hd). exists first. split; [done|].
        destruct (starts_at_exists c d F first pm Hen Hpm doc Hd) as [s Hs]. intros Hem.
        assert ((s + N.of_nat j)%N ∈ partition_positions d first g) as Hp
          by (apply (positions_tokens c d F first pm Hen Hpm g v _ Hg); eauto 10).
        rewrite Hem in Hp. by apply not_elem_of_empty in Hp.
  Qed.

  (** The positions of a window are tokens, or the end of the partition. *)
  Lemma window_end first pm : position_doc_map d !! (F, first) = Some pm ->
    exists e, (forall doc j s vs, starts_at pm doc s -> doc_sequence c F doc vs -> j < length vs -> (s + N.of_nat j)%N ≠ e) /\
      (e ∈ window_of first <-> clause_at_end c d cl F w first) /\
      forall p, p ∈ window_of first -> p ≠ e ->
        exists doc j s vs, starts_at pm doc s /\ doc_sequence c F doc vs /\ j < length vs /\ p = (s + N.of_nat j)%N.
  Proof.
    intros Hpm. pose proof (en_partitions c d Hen F first pm Hpm) as [Hdocs _ [Hsz _] Hseqs _].
    destruct (expand_positions_window_spec _ _ w (query_delimited c d F fs Hen Hfs first pm Hpm)) as (W & HW & Hin).
    rewrite (window_of_ok first pm Hpm) in HW. injection HW as <-.
    set (docs := pm_doc_ids pm) in *. set (bd := pm_boundaries pm) in *.
    destruct (lookup_lt_is_Some_2 (bm_list bd) (size docs)) as [e He]; [rewrite length_bm_list; lia|].
    assert (forall b, b ∈ bd -> (b <= e)%N) as Hmax.
    { intros b Hb. apply elem_of_bm_list, elem_of_list_lookup in Hb as [i Hi].
      destruct (decide (i = size docs)) as [->|Hne]; [rewrite He in Hi; injection Hi as ->; lia|].
      pose proof (lookup_lt_Some _ _ _ Hi) as Hl. rewrite length_bm_list in Hl.
      apply N.lt_le_incl, (bm_list_lt _ i (size docs) b e Hi He). lia. }
    assert (e ∈ bd) as Hebd by (apply elem_of_bm_list; by eapply elem_of_list_lookup_2).
    exists e. split; [|split].
    - intros doc j s vs Hs Hseq Hj.
      destruct (starts_at_span c d F first pm Hen Hpm doc s vs Hs Hseq (s + N.of_nat j) ltac:(lia)) as (_ & B & ? & _).
      fold bd in B. specialize (Hmax _ B). lia.
    - rewrite Hin. split.
      + intros (q & Hq & Hw & Hor). apply (query_positions c d F fs Hen Hfs first pm q Hpm) in Hq as (doc & j & s & Hs & Hat & ->).
        pose proof Hat as (x & v & _ & _ & vs & Hseq & Hj). apply lookup_lt_Some in Hj.
        destruct (starts_at_span c d F first pm Hen Hpm doc s vs Hs Hseq (s + N.of_nat j) ltac:(lia)) as (B1 & B2 & B3 & B4).
        fold bd in B1, B2, B4. destruct Hor as [Hsm|(_ & Hlt & Hn)].
        { pose proof (proj2 (Hsm e Hebd) ltac:(lia)). specialize (Hmax _ B2). lia. }
        assert (e = s + N.of_nat (length vs))%N as Ee.
        { specialize (Hmax _ B2). destruct (Hn _ B2) as [?|?]; lia. }
        exists pm, doc, vs, j. split_and!; [done|by eapply starts_at_in| |done|done|].
        * intros doc' Hd'. apply elem_of_bm_list, elem_of_list_lookup in Hd' as [i' Hi'].
          destruct Hs as (i & E1 & E2). destruct (Hseqs i doc vs E1 Hseq) as (st & sp & X1 & X2 & -> & _).
          fold bd docs in X1, E2, X2, E1. rewrite E2 in X1. injection X1 as <-. rewrite <- Ee in X2. pose proof (bm_list_inj _ _ _ _ X2 He) as Hi.
          apply N.le_ngt. intros Hlt'. apply (bm_list_lt _ i i' doc doc' E1 Hi') in Hlt'.
          apply lookup_lt_Some in Hi'. rewrite length_bm_list in Hi'. fold docs in Hi'. lia.
        * unfold within in Hw. lia.
      + intros (pm' & doc & vs & j & Hpm' & Hd & Hlast & Hseq & Hat & Hle). rewrite Hpm in Hpm'. injection Hpm' as <-.
        destruct (starts_at_exists c d F first pm Hen Hpm doc Hd) as [s Hs].
        pose proof Hat as (x & v & _ & _ & vs' & Hseq' & Hj).
        rewrite (doc_sequence_unique _ _ _ _ _ (en_dicts c d Hen) Hseq' Hseq) in Hj. apply lookup_lt_Some in Hj.
        destruct (starts_at_span c d F first pm Hen Hpm doc s vs Hs Hseq (s + N.of_nat j) ltac:(lia)) as (B1 & B2 & B3 & B4).
        fold bd in B1, B2, B4.
        assert (e = s + N.of_nat (length vs))%N as Ee.
        { pose proof Hs as (i & E1 & E2). destruct (Hseqs i doc vs E1 Hseq) as (st & sp & X1 & X2 & -> & _).
          fold bd docs in X1, E2, X2, E1. rewrite E2 in X1. injection X1 as <-.
          assert (S i = size docs) as Hi.
          { pose proof (lookup_lt_Some _ _ _ E1) as Hl. rewrite length_bm_list in Hl.
            destruct (decide (S i = size docs)) as [|Hne]; [done|]. exfalso.
            destruct (lookup_lt_is_Some_2 (bm_list docs) (S i)) as [dk Hk]; [rewrite length_bm_list; lia|].
            specialize (Hlast dk ltac:(apply elem_of_bm_list; by eapply elem_of_list_lookup_2)).
            pose proof (proj2 (bm_list_lt _ i (S i) doc dk E1 Hk) ltac:(lia)). lia. }
          rewrite Hi in X2. congruence. }
        exists (s + N.of_nat j)%N. split; [apply (query_positions c d F fs Hen Hfs first pm _ Hpm); eauto 10|].
        split; [unfold within; lia|]. right. split_and!; [done|lia|]. intros b Hb. specialize (B4 b Hb). lia.
    - intros p Hp Hne. apply Hin in Hp as (q & Hq & Hw & Hor).
      apply (query_positions c d F fs Hen Hfs first pm q Hpm) in Hq as (doc & j & s & Hs & Hat & ->).
      pose proof Hat as (x & v & _ & _ & vs & Hseq & Hj). apply lookup_lt_Some in Hj.
      destruct (starts_at_span c d F first pm Hen Hpm doc s vs Hs Hseq (s + N.of_nat j) ltac:(lia)) as (B1 & B2 & B3 & B4).
      fold bd in B1, B2, B4. destruct Hor as [Hsm|(Hpb & Hlt & Hn)].
      + exists doc, (N.to_nat (p - s)), s, vs. pose proof (proj1 (Hsm _ B1)) as H1. pose proof (proj2 (Hsm _ B2)) as H2.
        split_and!; [done|done|lia|lia].
      + assert (p = s + N.of_nat (length vs))%N as Ep.
        { destruct (B4 p Hpb) as [?|?]; [lia|]. destruct (Hn _ B2) as [?|?]; lia. }
        pose proof Hs as (i & E1 & E2). destruct (Hseqs i doc vs E1 Hseq) as (st & sp & X1 & X2 & -> & _).
        fold bd docs in X1, E2, X2, E1. rewrite E2 in X1. injection X1 as <-. rewrite <- Ep in X2.
        pose proof (lookup_lt_Some _ _ _ X2) as Hl. rewrite length_bm_list in Hl.
        destruct (lookup_lt_is_Some_2 (bm_list docs) (S i)) as [dk Hk].
        { rewrite length_bm_list. destruct (decide (S i = size docs)) as [Ei|]; [|lia]. rewrite Ei, He in X2. congruence. }
        assert (dk ∈ docs) as Hdk by (apply elem_of_bm_list; by eapply elem_of_list_lookup_2).
        apply Hdocs in Hdk as [_ [vk Hvk]]. exists dk, 0, p, vk. split_and!; [by exists (S i)|done| |lia].
        destruct Hvk as (? & ? & _ & _ & Hne'). destruct vk; [done|cbn; lia].
  Qed.

  Lemma window_count : exists (X : gset (N * nat)) (E : gset N),
    sum_list_with (fun first => size (window_of first)) (field_partitions d F) = size X + size E /\
    (forall doc j, (doc, j) ∈ X <-> (exists v, token c F doc j v) /\
       (clause_near c d cl F w doc (N.of_nat j) \/ (j = 0 /\ clause_before c d cl F w doc))) /\
    (forall first, first ∈ E <-> clause_at_end c d cl F w first).
  Proof.
    assert (forall L, (forall first, first ∈ L -> first ∈ field_partitions d F) -> NoDup L -> exists (S : N -> gset N) (E : gset N),
      sum_list_with (fun first => size (window_of first)) L = sum_list_with (fun first => size (S first)) L + size E /\
      (forall first, first ∈ E <-> first ∈ L /\ clause_at_end c d cl F w first) /\
      (forall first p pm, first ∈ L -> position_doc_map d !! (F, first) = Some pm -> p ∈ S first <->
         p ∈ window_of first /\ exists doc j s vs, starts_at pm doc s /\ doc_sequence c F doc vs /\ j < length vs /\ p = (s + N.of_nat j)%N)) as Hsplit.
    { induction L as [|first L IH]; intros Hsub Hnd.
      - exists (fun _ => ∅), ∅. split; [done|]. split.
        + intros first. split; [by intros ?%not_elem_of_empty|by intros [?%elem_of_nil _]].
        + by intros first p pm ?%elem_of_nil.
      - apply NoDup_cons in Hnd as [Hn Hnd].
        destruct IH as (S & E & H1 & H2 & H3); [intros; apply Hsub; by right|done|].
        destruct (partitions_exist first) as [pm Hpm]; [apply Hsub; by left|].
        destruct (window_end first pm Hpm) as (e & He1 & He2 & He3).
        exists (fun f => if decide (f = first) then window_of first ∖ {[e]} else S f).
        exists (if decide (e ∈ window_of first) then {[first]} ∪ E else E).
        assert (sum_list_with (fun f => size (if decide (f = first) then window_of first ∖ {[e]} else S f)) L =
          sum_list_with (fun f => size (S f)) L) as Hsum.
        { clear -Hn. induction L as [|x L IH]; [done|]. cbn. apply not_elem_of_cons in Hn as [Hx Hn].
          rewrite IH by done. rewrite decide_False by congruence. done. }
        split_and!.
        + cbn. rewrite Hsum, H1. rewrite (decide_True (P := first = first)) by done.
          destruct (decide (e ∈ window_of first)) as [Hy|Hno].
          * assert (({[first]} : gset N) ## E) as Hdj by (intros x ->%elem_of_singleton Hx; by apply H2 in Hx as [? _]).
            rewrite (size_union _ _ Hdj), size_singleton.
            assert (({[e]} : gset N) ⊆ window_of first) as Hsb by (intros x ->%elem_of_singleton; done).
            rewrite (size_difference _ _ Hsb), size_singleton.
            assert (size (window_of first) ≠ 0) by (intros Hz%size_empty_inv; apply Hz in Hy; by apply not_elem_of_empty in Hy). lia.
          * replace (window_of first ∖ {[e]}) with (window_of first); [lia|]. apply set_eq. intros x.
            rewrite elem_of_difference, elem_of_singleton. split; [|tauto]. intros Hx. split; [done|]. by intros ->.
        + intros f. destruct (decide (e ∈ window_of first)) as [Hy|Hno].
          * rewrite elem_of_union, elem_of_singleton, H2, elem_of_cons. split.
            -- intros [->|[? ?]]; [split; [by left|by apply He2]|split; [by right|done]].
            -- intros [[->|?] ?]; [by left|by right].
          * rewrite H2, elem_of_cons. split; [intros [? ?]; split; [by right|done]|].
            intros [[->|?] ?]; [exfalso; apply Hno; by apply He2|done].
        + intros f p pm' Hf Hpm'. destruct (decide (f = first)) as [->|Hne].
          * rewrite Hpm in Hpm'. injection Hpm' as <-. rewrite elem_of_difference, elem_of_singleton. split.
            -- intros [Hp Hpe]. split; [done|]. by apply He3.
            -- intros (Hp & doc & j & s & vs & Hs & Hseq & Hj & ->). split; [done|]. by eapply He1.
          * apply H3; [|done]. apply elem_of_cons in Hf as [?|?]; done. }
    destruct (Hsplit (field_partitions d F) (fun _ H => H) (field_partitions_NoDup d F)) as (S & E & H1 & H2 & H3).
    destruct (sum_tokens c d F Hen S
        (fun doc j => clause_near c d cl F w doc (N.of_nat j) \/ (j = 0 /\ clause_before c d cl F w doc))
        (field_partitions d F) (field_partitions_NoDup d F) partitions_exist) as (X & HX & Hin).
    - intros first p pm Hf Hpm. rewrite (H3 first p pm Hf Hpm). split.
      + intros (Hp & doc & j & s & vs & Hs & Hseq & Hj & ->). exists doc, j, s, vs. split_and!; [done|done|done| |done].
        by apply (window_token c d F fs w Hen Hfs first pm _ doc j s vs Hpm (window_of_ok first pm Hpm)).
      + intros (doc & j & s & vs & Hs & Hseq & Hj & Hn & ->). split; [|eauto 10].
        by apply (window_token c d F fs w Hen Hfs first pm _ doc j s vs Hpm (window_of_ok first pm Hpm)).
    - exists X, E. split; [by rewrite H1, HX|]. split.
      + intros doc j. rewrite Hin. split.
        * intros (_ & (vs & Hseq & Hj) & Hn). split; [|done]. apply lookup_lt_is_Some_2 in Hj as [v Hv]. by exists v, vs.
        * intros ((v & vs & Hseq & Hj) & Hn). split_and!; [by eapply token_in_partition| |done].
          exists vs. split; [done|by eapply lookup_lt_Some].
      + intros first. rewrite H2. split; [by intros [_ ?]|]. intros Hc. split; [|done].
        apply field_partitions_in. destruct Hc as (pm & _ & _ & _ & Hpm & _). eauto.
  Qed.
End collocations.
