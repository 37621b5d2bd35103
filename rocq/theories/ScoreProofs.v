(** ScoreProofs.v: contributions and proposed moves. *)
From Verif Require Export Refine SpecRefine BaseProofs.

(** ** Contributions *)
Lemma covered_elem docs fs x : x ∈ covered docs fs <-> exists f, f ∈ fs /\ x ∈ docs f.
Proof.
  unfold covered. rewrite elem_of_union_list. split.
  - intros (X & HX & Hx). apply elem_of_list_fmap in HX as (f & -> & Hf).
    exists f. by apply elem_of_elements in Hf.
  - intros (f & Hf & Hx). exists (docs f). split; [|done].
    apply elem_of_list_fmap. exists f. by rewrite elem_of_elements.
Qed.

Lemma sum_perm {A} (h : A -> nat) l1 l2 : l1 ≡ₚ l2 -> sum_list_with h l1 = sum_list_with h l2.
Proof. induction 1; simpl; lia. Qed.

Lemma total_hits_list docs (l : list N) fs : NoDup l -> (forall x, x ∈ l <-> x ∈ fs) ->
  total_hits docs fs = sum_list_with (fun f => size (docs f)) l.
Proof.
  intros Hn Hl. unfold total_hits. apply sum_perm. apply NoDup_Permutation; [apply NoDup_elements|done|].
  intros x. by rewrite elem_of_elements, Hl.
Qed.

Lemma total_hits_add docs f fs : f ∉ fs -> total_hits docs ({[f]} ∪ fs) = size (docs f) + total_hits docs fs.
Proof.
  intros Hf. rewrite (total_hits_list docs (f :: elements fs)); [done| |].
  - constructor; [by rewrite elem_of_elements|apply NoDup_elements].
  - intros x. rewrite elem_of_cons, elem_of_elements. set_solver.
Qed.

Lemma total_hits_del docs f fs : f ∈ fs -> total_hits docs fs = size (docs f) + total_hits docs (fs ∖ {[f]}).
Proof.
  intros Hf. rewrite <- total_hits_add by set_solver. f_equal. apply set_eq. intros x.
  destruct (decide (x = f)); set_solver.
Qed.

Lemma cover_spec docs l : NoDup l ->
  (forall x, x ∈ (cover docs l).1.1 <-> exists f, f ∈ l /\ x ∈ docs f) /\
  (forall x, x ∈ (cover docs l).1.2 <-> exists f f', f ∈ l /\ f' ∈ l /\ f ≠ f' /\ x ∈ docs f /\ x ∈ docs f') /\
  (cover docs l).2 = sum_list_with (fun f => size (docs f)) l.
Proof.
  unfold cover. induction l as [|f l IH] using rev_ind.
  - intros _. split_and!; [set_solver|set_solver|done].
  - intros Hn. apply NoDup_app in Hn as (Hn & Hx & _).
    destruct (IH Hn) as (H1 & H2 & H3). rewrite foldl_app.
    destruct (foldl _ _ l) as [[u t] h]. cbn [fst snd] in *. cbn [foldl fst snd]. split_and!.
    + intros x. rewrite elem_of_union, H1. split.
      * intros [(f' & Hf & Hd)|Hd]; [|]; eexists; (split; [|done]); set_solver.
      * intros (f' & Hf & Hd). apply elem_of_app in Hf as [Hf|Hf]; [by left; eauto|].
        apply elem_of_list_singleton in Hf as ->. by right.
    + intros x. rewrite elem_of_union, elem_of_intersection, H1, H2. split.
      * intros [(a & b & Ha & Hb & Hab & ? & ?)|[(a & Ha & ?) ?]].
        -- exists a, b. rewrite !elem_of_app. split_and!; auto.
        -- exists a, f. rewrite !elem_of_app. split_and!; [by left|right; set_solver|set_solver|done|done].
      * intros (a & b & Ha & Hb & Hab & ? & ?).
        rewrite elem_of_app, elem_of_list_singleton in Ha, Hb.
        destruct Ha as [Ha| ->], Hb as [Hb| ->]; [|right|right|done]; eauto 10.
    + rewrite sum_list_with_app. simpl. lia.
Qed.

Lemma size_diff (X Y : gset N) : size (X ∖ Y) = size X - size (X ∩ Y).
Proof.
  assert (size X = size (X ∖ Y) + size (X ∩ Y)); [|lia].
  rewrite <- size_union by set_solver. f_equal. apply set_eq. intros x.
  destruct (decide (x ∈ Y)); set_solver.
Qed.

Lemma size_0 (X : gset N) : size X = 0 <-> X = ∅.
Proof. split; [|intros ->; done]. intros H. apply size_empty_inv in H. set_solver. Qed.

Lemma measure_docs_spec docs group add o rem added :
  group ≠ ∅ -> measure_docs docs group add = (o, rem, added) ->
  o = objective docs group /\
  rem.*1 = bm_list group /\ added.*1 = bm_list (add ∖ group) /\
  (forall f delta, (f, delta) ∈ rem -> member_delta docs group f delta) /\
  (forall f delta, (f, delta) ∈ added -> outside_delta docs group f delta).
Proof.
  intros Hg. unfold measure_docs.
  destruct (size group =? 0) eqn:En.
  { apply Nat.eqb_eq in En. by apply size_0 in En. }
  apply Nat.eqb_neq in En.
  destruct (cover_spec docs (bm_list group) (NoDup_bm_list _)) as (HU & HT & HH).
  destruct (cover docs (bm_list group)) as [[u t] h]. cbn [fst snd] in HU, HT, HH.
  assert (u = covered docs group) as Hu.
  { apply set_eq. intros x. rewrite HU, covered_elem. by setoid_rewrite elem_of_bm_list. }
  assert (h = total_hits docs group) as Hh.
  { rewrite HH. symmetry. apply total_hits_list; [apply NoDup_bm_list|]. apply elem_of_bm_list. }
  assert (objective_value h (size u) (size group) = objective docs group) as Ho.
  { unfold objective_value, objective. by rewrite Hu, Hh. }
  intros Heq. injection Heq as <- <- <-. split; [done|].
  split. { rewrite <- list_fmap_compose. apply list_fmap_id. }
  split. { rewrite <- list_fmap_compose. apply list_fmap_id. }
  split.
  - intros f delta Hin. apply elem_of_list_fmap in Hin as (f' & [= -> ->] & Hf).
    rename f' into f. apply (proj1 (elem_of_bm_list _ _)) in Hf.
    set (others := group ∖ {[f]}). set (co := covered docs others).
    assert (docs f ∩ (u ∖ t) = docs f ∖ co) as Honce.
    { apply set_eq. intros x. rewrite elem_of_intersection, !elem_of_difference, HU, HT.
      unfold co. rewrite covered_elem. setoid_rewrite elem_of_bm_list. split.
      - intros (Hx & _ & Hno). split; [done|]. intros (f' & Hf' & Hx'). apply Hno.
        exists f, f'. unfold others in Hf'. set_solver.
      - intros (Hx & Hno). split; [done|]. split; [by eauto|].
        intros (a & b & Ha & Hb & Hab & Hxa & Hxb). apply Hno.
        destruct (decide (a = f)) as [->|Haf]; [exists b|exists a]; unfold others; set_solver. }
    assert (covered docs group = docs f ∪ co) as Hcov.
    { apply set_eq. intros x. unfold co, others. rewrite elem_of_union, !covered_elem. split.
      - intros (f' & Hf' & Hx). destruct (decide (f' = f)) as [->|]; [by left|right].
        exists f'. set_solver.
      - intros [Hx|(f' & Hf' & Hx)]; [by exists f|exists f'; set_solver]. }
    assert (size (covered docs group) = size (docs f ∖ co) + size co) as Hsz.
    { rewrite Hcov. rewrite <- size_union by set_solver. f_equal. apply set_eq. intros x.
      destruct (decide (x ∈ co)); set_solver. }
    assert (size (docs f ∖ co) = size (docs f) - size (docs f ∩ co)) as Hd by apply size_diff.
    assert (size (docs f ∩ co) <= size (docs f)) as Hle.
    { apply subseteq_size. set_solver. }
    rewrite Honce, Hu, Hsz. replace (size (docs f ∖ co) + size co - size (docs f ∖ co)) with (size co) by lia.
    pose proof (total_hits_del docs f group Hf) as Hth. fold others in Hth.
    assert (size others = size group - 1) as Hso.
    { unfold others. rewrite size_difference by set_solver. by rewrite size_singleton. }
    unfold member_delta. fold others. fold co. split_and!.
    + intros Hsh. assert (size (docs f ∩ co) <> 0) as Hsh' by (by rewrite size_0).
      assert (size co <> 0) as Hco. { rewrite size_0. set_solver. }
      rewrite (proj2 (Nat.eqb_neq _ _) Hco). rewrite (proj2 (Nat.ltb_lt _ _)) by lia. simpl.
      f_equal; [by rewrite <- Hsz, <- Hu|].
      unfold objective_value, objective. fold co.
      replace (h - size (docs f)) with (total_hits docs others) by lia.
      by rewrite Hso.
    + intros Hsh Hco. rewrite <- size_0 in Hsh, Hco. rewrite (proj2 (Nat.eqb_neq _ _) Hco).
      rewrite (proj2 (Nat.ltb_ge _ _)) by lia. done.
    + intros Hco. rewrite <- size_0 in Hco. by rewrite Hco.
  - intros f delta Hin. apply elem_of_list_fmap in Hin as (f' & [= -> ->] & Hf).
    rename f' into f. apply (proj1 (elem_of_bm_list _ _)) in Hf.
    rewrite Ho, Hu. unfold outside_delta. split.
    + intros Hi. rewrite bool_decide_true by done. f_equal.
      unfold objective_value, objective.
      assert (f ∉ group) as Hng by set_solver.
      rewrite total_hits_add by done. rewrite <- Hh. rewrite (Nat.add_comm (size (docs f)) h).
      rewrite (size_union {[f]} group) by set_solver. rewrite size_singleton.
      replace (covered docs ({[f]} ∪ group)) with (docs f ∪ covered docs group).
      2:{ apply set_eq. intros x. rewrite elem_of_union, !covered_elem. set_solver. }
      by rewrite (Nat.add_comm (size group) 1).
    + intros Hi. by rewrite bool_decide_false by (by intros ?).
Qed.

(** ** Orders *)
Lemma Qcle_total (a b : Qc) : (a <= b)%Qc \/ (b <= a)%Qc.
Proof. destruct (Qclt_le_dec a b); [left|right]; [by apply Qclt_le_weak|done]. Qed.

(** What is needed of [key_leb]. *)
Record leb_order {K} (leb : K -> K -> bool) : Prop := Order {
  o_total : forall a b, leb a b = true \/ leb b a = true;
  o_trans : forall a b c, leb a b = true -> leb b c = true -> leb a c = true;
  o_anti : forall a b, leb a b = true -> leb b a = true -> a = b }.

Lemma order_Z : leb_order Z.leb.
Proof. split; intros; rewrite ?Z.leb_le in *; lia. Qed.

Lemma order_zlist : leb_order zlist_leb.
Proof.
  split.
  - induction a as [|x a IH]; intros [|y b]; simpl; auto.
    destruct (Z.eqb_spec x y) as [->|Hn].
    + rewrite Z.eqb_refl. apply IH.
    + rewrite (proj2 (Z.eqb_neq y x)) by done. rewrite !Z.ltb_lt. lia.
  - induction a as [|x a IH]; intros [|y b] [|z c]; simpl; try done.
    destruct (Z.eqb_spec x y) as [->|Hn], (Z.eqb_spec y z) as [->|Hn'].
    + apply IH.
    + done.
    + by rewrite (proj2 (Z.eqb_neq x z)).
    + rewrite !Z.ltb_lt. intros. rewrite (proj2 (Z.eqb_neq x z)) by lia. rewrite Z.ltb_lt. lia.
  - induction a as [|x a IH]; intros [|y b]; simpl; try done.
    destruct (Z.eqb_spec x y) as [->|Hn].
    + rewrite Z.eqb_refl. intros. f_equal. by apply IH.
    + rewrite (proj2 (Z.eqb_neq y x)) by done. rewrite !Z.ltb_lt. lia.
Qed.

Lemma zlist_leb_spec a b : zlist_leb a b = true <-> tuple_le a b.
Proof.
  revert b. induction a as [|x a IH]; intros b.
  - split; [|by destruct b]. intros _. left. by exists b.
  - destruct b as [|y b]; simpl.
    + split; [done|]. intros [[r ?]|(p & x' & y' & a' & b' & H1 & H2 & ?)]; [done|]. by destruct p.
    + destruct (Z.eqb_spec x y) as [->|Hn].
      * rewrite IH. split.
        -- intros [[r ->]|(p & x' & y' & a' & b' & -> & -> & ?)].
           ++ left. by exists r.
           ++ right. by exists (y :: p), x', y', a', b'.
        -- intros [[r [= ->]]|(p & x' & y' & a' & b' & H1 & H2 & ?)].
           ++ left. by exists r.
           ++ destruct p as [|z p]; simpl in *.
              ** injection H1 as -> ->. injection H2 as -> ->. lia.
              ** injection H1 as -> ->. injection H2 as ->. right. by exists p, x', y', a', b'.
      * rewrite Z.ltb_lt. split.
        -- intros. right. by exists [], x, y, a, b.
        -- intros [[r [= -> ->]]|(p & x' & y' & a' & b' & H1 & H2 & ?)]; [done|].
           destruct p as [|z p]; simpl in *.
           ++ injection H1 as -> ->. by injection H2 as -> ->.
           ++ injection H1 as -> ->. by injection H2 as -> ->.
Qed.

Section heaps.
  Context {K : Type} (key_leb : K -> K -> bool) (Hk : leb_order key_leb).
  Notation leb := (cand_leb key_leb).
  Definition cand_le (a b : Qc * K) : Prop := leb a b = true.

  Lemma order_cand : leb_order leb.
  Proof.
    unfold cand_leb. split.
    - intros [x k] [y l]; simpl. destruct (decide (x = y)) as [->|Hn].
      + rewrite decide_True by done. apply Hk.
      + rewrite decide_False by done. rewrite !bool_decide_eq_true. apply Qcle_total.
    - intros [x k] [y l] [z m]; simpl.
      destruct (decide (x = y)) as [->|Hn], (decide (y = z)) as [->|Hn'].
      + apply Hk.
      + done.
      + by rewrite decide_False.
      + rewrite !bool_decide_eq_true. intros H1 H2. rewrite decide_False.
        2:{ intros ->. apply Hn. by apply Qcle_antisym. }
        rewrite bool_decide_eq_true. by eapply Qcle_trans.
    - intros [x k] [y l]; simpl. destruct (decide (x = y)) as [->|Hn].
      + rewrite decide_True by done. intros. f_equal. by apply Hk.
      + rewrite decide_False by done. rewrite !bool_decide_eq_true. intros.
        destruct Hn. by apply Qcle_antisym.
  Qed.

  Lemma heap_insert_perm x h : heap_insert key_leb x h ≡ₚ x :: h.
  Proof.
    induction h as [|y h IH]; simpl; [done|]. destruct (leb x y); [done|].
    rewrite IH. apply Permutation_swap.
  Qed.

  Lemma heap_insert_sorted x h : StronglySorted cand_le h -> StronglySorted cand_le (heap_insert key_leb x h).
  Proof.
    destruct order_cand as [Ht Htr _]. induction 1 as [|y h Hs IH Hf]; simpl.
    - repeat constructor.
    - destruct (leb x y) eqn:E.
      + constructor; [by constructor|]. constructor; [done|].
        eapply Forall_impl; [exact Hf|]. intros z Hz. by eapply Htr.
      + constructor; [done|]. rewrite heap_insert_perm. constructor; [|done].
        unfold cand_le. by destruct (Ht x y) as [?|?]; [congruence|].
  Qed.

  (** The heap [h] after the candidates [seen]. *)
  Definition heap_ok (k : nat) (seen h : list (Qc * K)) : Prop :=
    length h = min k (length seen) /\ StronglySorted cand_le h /\
    exists rest, h ++ rest ≡ₚ seen /\ forall x y, x ∈ rest -> y ∈ h -> cand_le x y.

  Lemma heap_ok_nil k : heap_ok k [] [].
  Proof. split_and!; [simpl; lia|constructor|]. exists []. split; [done|]. set_solver. Qed.

  Lemma heap_offer_ok k seen h x :
    heap_ok k seen h -> heap_ok k (x :: seen) (heap_offer key_leb k h x).
  Proof.
    destruct order_cand as [Ht Htr _].
    intros (Hl & Hs & rest & Hp & Hr). unfold heap_offer.
    pose proof (heap_insert_sorted x h Hs) as Hs'. pose proof (heap_insert_perm x h) as Hp'.
    destruct (length h <? k) eqn:E.
    - apply Nat.ltb_lt in E. split_and!; [|done|].
      + rewrite Hp'. simpl. lia.
      + exists []. rewrite app_nil_r. split; [|set_solver].
        rewrite Hp'. f_equiv. assert (rest = []) as ->; [|by rewrite app_nil_r in Hp].
        apply nil_length_inv. apply Permutation_length in Hp. rewrite app_length in Hp. lia.
    - apply Nat.ltb_ge in E.
      destruct (heap_insert key_leb x h) as [|m h'] eqn:Eh.
      { apply Permutation_length in Hp'. done. }
      simpl. inversion Hs' as [|? ? Hs'' Hf]; subst. split_and!; [|done|].
      + apply Permutation_length in Hp'. simpl in *. lia.
      + exists (m :: rest). split.
        * rewrite <- Hp. rewrite <- Permutation_middle.
          change (x :: h ++ rest) with ((x :: h) ++ rest). rewrite <- Hp'. done.
        * intros a b Ha Hb. apply elem_of_cons in Ha as [->|Ha].
          -- rewrite Forall_forall in Hf. by apply Hf.
          -- assert (b ∈ x :: h) as Hb'. { rewrite <- Hp'. by right. }
             apply elem_of_cons in Hb' as [->|Hb']; [|by apply Hr].
             (* b = x: the dropped m is below x, and rest is below m or m = x *)
             rewrite Forall_forall in Hf.
             assert (m ∈ x :: h) as Hm. { rewrite <- Hp'. by left. }
             apply elem_of_cons in Hm as [->|Hm].
             ++ (* m = x: x is in h' too, or h' = h *)
                assert (h' ≡ₚ h) as Hh. { by apply Permutation_cons_inv in Hp'. }
                apply Hr; [done|]. by rewrite <- Hh.
             ++ apply (Htr a m x); [by apply Hr|by apply Hf].
  Qed.

  (** Every candidate scored for feature [f], in order of arrival. *)
  Definition offers (f : N) (deltas : list (N * Qc)) (key : K) : list (Qc * K) :=
    (fun fd : N * Qc => (fd.2, key)) <$> filter (fun fd : N * Qc => fd.1 = f) deltas.
  Definition candidates (f : N) (results : list (K * list (N * Qc))) : list (Qc * K) :=
    concat ((fun r => offers f r.2 r.1) <$> results).

  Definition best_ok (k : nat) (f : N) (seen : list (Qc * K)) (best : gmap N (list (Qc * K))) : Prop :=
    match best !! f with
    | None => seen = []
    | Some h => seen <> [] /\ exists seen', seen' ≡ₚ seen /\ heap_ok k seen' h
    end.

  Lemma best_ok_step k f seen best g delta key :
    best_ok k f seen best ->
    best_ok k f (seen ++ offers f [(g, delta)] key)
      (<[g := heap_offer key_leb k (default [] (best !! g)) (delta, key)]> best).
  Proof.
    intros H. unfold offers. cbn [filter list_filter]. unfold best_ok in *. cbn.
    destruct (decide (g = f)) as [->|Hn].
    - rewrite lookup_insert. cbn. split; [by destruct seen|].
      destruct (best !! f) as [h|] eqn:E; cbn.
      + destruct H as (_ & seen' & Hp & Ho). exists ((delta, key) :: seen'). split.
        * rewrite Hp. apply Permutation_cons_append.
        * by apply heap_offer_ok.
      + subst. exists [(delta, key)]. split; [done|]. apply heap_offer_ok. apply heap_ok_nil.
    - rewrite lookup_insert_ne by done. cbn. by rewrite app_nil_r.
  Qed.

  Lemma offers_cons f fd deltas key : offers f (fd :: deltas) key = offers f [fd] key ++ offers f deltas key.
  Proof. unfold offers. cbn. by case_decide. Qed.

  Lemma add_result_ok k f seen best r :
    best_ok k f seen best -> best_ok k f (seen ++ offers f r.2 r.1) (add_result key_leb k best r).
  Proof.
    unfold add_result. destruct r as [key deltas]. cbn [fst snd]. revert seen best.
    induction deltas as [|[g delta] deltas IH]; intros seen best H.
    - cbn. by rewrite app_nil_r.
    - rewrite offers_cons, app_assoc. cbn [foldl]. apply IH. by apply best_ok_step.
  Qed.

  Lemma foldl_results_ok k f results seen best :
    best_ok k f seen best ->
    best_ok k f (seen ++ candidates f results) (foldl (add_result key_leb k) best results).
  Proof.
    revert seen best. induction results as [|r results IH]; intros seen best H.
    - cbn. by rewrite app_nil_r.
    - unfold candidates. cbn [fmap list_fmap concat foldl]. rewrite app_assoc. apply IH.
      by apply add_result_ok.
  Qed.

  Lemma StronglySorted_rev {A} (R : relation A) l :
    StronglySorted R l -> StronglySorted (fun x y => R y x) (rev l).
  Proof.
    induction 1 as [|x l Hs IH Hf]; simpl; [constructor|].
    clear Hs. revert IH. rewrite Forall_forall in Hf.
    assert (forall y, y ∈ rev l -> R x y) as Hr.
    { intros y Hy. apply Hf. by rewrite <- (Permutation_rev l) in Hy. }
    clear Hf. induction (rev l) as [|y l' IH']; simpl; intros Hs.
    - repeat constructor.
    - inversion Hs as [|? ? Hs' Hf]; subst. constructor.
      + apply IH'; [|done]. intros z Hz. apply Hr. by right.
      + apply Forall_app. split; [done|]. constructor; [|done]. apply Hr. by left.
  Qed.

  Lemma best_of_spec k results f :
    match best_of key_leb k results !! f with
    | None => candidates f results = []
    | Some l => candidates f results <> [] /\ k_greatest cand_le k (candidates f results) l
    end.
  Proof.
    unfold best_of. rewrite lookup_fmap.
    pose proof (foldl_results_ok k f results [] ∅) as H. cbn in H.
    specialize (H eq_refl). unfold best_ok in H.
    destruct (foldl (add_result key_leb k) ∅ results !! f) as [h|] eqn:E; cbn; [|done].
    destruct H as (Hne & seen & Hp & Hl & Hs & rest & Hpr & Hr). split; [done|].
    assert (rev h ≡ₚ h) as Hrev by (symmetry; apply Permutation_rev).
    split_and!.
    - rewrite Hrev, Hl. by rewrite Hp.
    - by apply StronglySorted_rev.
    - exists rest. split; [by rewrite Hrev, Hpr|]. intros x y Hx Hy. apply Hr; [done|].
      by rewrite <- Hrev.
  Qed.

  Lemma StronglySorted_app_le (l r : list (Qc * K)) :
    StronglySorted (fun x y => cand_le y x) l -> StronglySorted (fun x y => cand_le y x) r ->
    (forall x y, x ∈ r -> y ∈ l -> cand_le x y) -> StronglySorted (fun x y => cand_le y x) (l ++ r).
  Proof.
    induction 1 as [|x l Hs IH Hf]; simpl; [done|]. intros Hr Hle. constructor.
    - apply IH; [done|]. intros a b Ha Hb. apply Hle; [done|by right].
    - apply Forall_app. split; [done|]. apply Forall_forall. intros y Hy. apply Hle; [done|by left].
  Qed.

  Lemma k_greatest_unique k all1 all2 l1 l2 :
    all1 ≡ₚ all2 -> k_greatest cand_le k all1 l1 -> k_greatest cand_le k all2 l2 -> l1 = l2.
  Proof.
    destruct order_cand as [Ht Htr Ha].
    intros Hall (Hl1 & Hs1 & r1 & Hp1 & Hr1) (Hl2 & Hs2 & r2 & Hp2 & Hr2).
    set (ge := fun x y : Qc * K => cand_le y x).
    assert (Transitive ge). { intros a b c. unfold ge, cand_le. intros. by eapply Htr. }
    assert (Total ge). { intros a b. unfold ge, cand_le. destruct (Ht a b); auto. }
    assert (AntiSymm (=) ge). { intros a b. unfold ge, cand_le. intros. by apply Ha. }
    assert (RelDecision ge). { intros a b. unfold ge, cand_le. apply _. }
    assert (l1 ++ merge_sort ge r1 = l2 ++ merge_sort ge r2) as E.
    { apply (StronglySorted_unique ge).
      - apply StronglySorted_app_le; [done|by apply (StronglySorted_merge_sort ge)|].
        intros x y Hx. rewrite merge_sort_Permutation in Hx. by apply Hr1.
      - apply StronglySorted_app_le; [done|by apply (StronglySorted_merge_sort ge)|].
        intros x y Hx. rewrite merge_sort_Permutation in Hx. by apply Hr2.
      - rewrite !merge_sort_Permutation. by rewrite Hp1, Hp2. }
    apply app_inj_1 in E as [E _]; [done|]. rewrite Hl1, Hl2. by rewrite Hall.
  Qed.

  Lemma candidates_perm f r1 r2 : r1 ≡ₚ r2 -> candidates f r1 ≡ₚ candidates f r2.
  Proof.
    unfold candidates. induction 1; simpl.
    - done.
    - by f_equiv.
    - rewrite !app_assoc. f_equiv. apply Permutation_app_comm.
    - etrans; eassumption.
  Qed.

  Lemma best_of_perm k r1 r2 : r1 ≡ₚ r2 -> best_of key_leb k r1 = best_of key_leb k r2.
  Proof.
    intros Hp. apply map_eq. intros f. pose proof (best_of_spec k r1 f) as H1.
    pose proof (best_of_spec k r2 f) as H2. pose proof (candidates_perm f _ _ Hp) as Hc.
    destruct (best_of key_leb k r1 !! f) as [l1|], (best_of key_leb k r2 !! f) as [l2|].
    - f_equal. destruct H1 as [_ H1], H2 as [_ H2]. by eapply k_greatest_unique.
    - destruct H1 as [H1 _]. rewrite H2 in Hc. symmetry in Hc. by apply Permutation_nil in Hc.
    - destruct H2 as [H2 _]. rewrite H1 in Hc. by apply Permutation_nil in Hc.
    - done.
  Qed.

  Lemma elem_of_candidates f results delta key :
    (delta, key) ∈ candidates f results <-> exists deltas, (key, deltas) ∈ results /\ (f, delta) ∈ deltas.
  Proof.
    unfold candidates. rewrite elem_of_concat. split.
    - intros (l & Hx & Hl). apply elem_of_list_fmap in Hl as ([k ds] & -> & Hr).
      unfold offers in Hx. apply elem_of_list_fmap in Hx as ([g y] & [= -> ->] & Hg).
      apply elem_of_list_filter in Hg as [Hg1 Hg2]. cbn in *. subst. eauto.
    - intros (ds & Hr & Hd). eexists. split; [|apply elem_of_list_fmap; by exists (key, ds)].
      unfold offers. apply elem_of_list_fmap. exists (f, delta). split; [done|].
      by apply elem_of_list_filter.
  Qed.
End heaps.

Lemma omap_offers {K} f (deltas : list (N * Qc)) (key : K) :
  omap (fun s : N * Qc => if decide (s.1 = f) then Some (s.2, key) else None) deltas = offers f deltas key.
Proof.
  unfold offers. induction deltas as [|[g x] l IH]; [done|]. cbn [omap list_omap].
  rewrite filter_cons. cbn [fst snd]. destruct (decide (g = f)); cbn [fmap list_fmap]; [f_equal|]; apply IH.
Qed.

Lemma k_greatest_ext {A} (le1 le2 : relation A) k all best :
  (forall x y, le1 x y <-> le2 x y) -> k_greatest le1 k all best -> k_greatest le2 k all best.
Proof.
  intros He (H1 & H2 & rest & H3 & H4). split; [done|]. split.
  - clear -H2 He. induction H2 as [|x l _ IH Hf]; constructor; [done|]. eapply Forall_impl; [exact Hf|]. intros y ?. by apply He.
  - exists rest. split; [done|]. intros. apply He. by apply H4.
Qed.

Lemma best_moves {K} (key_leb : K -> K -> bool) top_k (results : list (K * list (N * Qc))) f :
  (forall a b, key_leb a b = true \/ key_leb b a = true) ->
  (forall a b c, key_leb a b = true -> key_leb b c = true -> key_leb a c = true) ->
  (forall a b, key_leb a b = true -> key_leb b a = true -> a = b) ->
  let better_or_equal (x y : Qc * K) := (y.1 < x.1)%Qc \/ (x.1 = y.1 /\ key_leb y.2 x.2 = true) in
  let all := concat ((fun r : K * list (N * Qc) =>
               omap (fun s : N * Qc => if decide (s.1 = f) then Some (s.2, r.1) else None) r.2) <$> results) in
  match best_of key_leb top_k results !! f with
  | None => all = []
  | Some best => all <> [] /\ k_greatest (fun x y => better_or_equal y x) top_k all best
  end.
Proof.
  intros H1 H2 H3 better all.
  assert (all = candidates f results) as ->.
  { unfold all, candidates. f_equal. apply list_fmap_ext. intros ? r _. apply omap_offers. }
  pose proof (best_of_spec key_leb (Order _ key_leb H1 H2 H3) top_k results f) as H.
  destruct (best_of key_leb top_k results !! f) as [best|]; [|done]. destruct H as [Hn H]. split; [done|].
  eapply k_greatest_ext; [|exact H]. intros [x kx] [y ky]. unfold cand_le, cand_leb, better. cbn [fst snd].
  destruct (decide (x = y)) as [->|Hne].
  - split; [by right|]. intros [Hlt|[_ ?]]; [|done]. by apply Qclt_not_eq in Hlt.
  - rewrite bool_decide_eq_true. split.
    + intros Hle. left. apply Qcle_lt_or_eq in Hle as [?|?]; done.
    + intros [Hlt|[? _]]; [by apply Qclt_le_weak|]. congruence.
Qed.
