(** UtilitiesProofs.v: lemmas about Utilities.v. *)
From Verif Require Import Base BaseProofs Utilities SpecUtilities SpecDatetime.
From Coq Require Import ZifyBool ZifyNat ZifyN.

(** ** compute_bitslice *)
Definition bit (b : bool) : N := if b then 1 else 0.
Notation ind d b := (bit (bool_decide (d ∈ b))).

Lemma binary_value_cons b r d : binary_value (b :: r) d = (ind d b + 2 * binary_value r d)%N.
Proof. simpl. unfold bit. by case_decide; case_bool_decide. Qed.

Lemma ind_eq d (b : bitmap) : (d ∈ b /\ ind d b = 1%N) \/ (d ∉ b /\ ind d b = 0%N).
Proof. unfold bit. case_bool_decide; auto. Qed.

Lemma ripple_length slices x : length (ripple slices x).1 = length slices.
Proof.
  revert x. induction slices as [|b r IH]; intros x; [done|].
  cbn [ripple]. case_bool_decide; [done|].
  specialize (IH (b ∩ x)). destruct (ripple r (b ∩ x)). simpl in *. lia.
Qed.

Lemma ripple_value slices x d :
  (binary_value (ripple slices x).1 d + 2 ^ N.of_nat (length slices) * ind d (ripple slices x).2
   = binary_value slices d + ind d x)%N.
Proof.
  revert x. induction slices as [|b r IH]; intros x.
  { cbn [ripple fst snd binary_value length]. rewrite N.pow_0_r. lia. }
  cbn [ripple].
  assert (ind d ((b ∖ x) ∪ (x ∖ b)) + 2 * ind d (b ∩ x) = ind d b + ind d x)%N as Hsum.
  { destruct (ind_eq d b) as [[? ->]|[? ->]], (ind_eq d x) as [[? ->]|[? ->]],
      (ind_eq d ((b ∖ x) ∪ (x ∖ b))) as [[? ->]|[? ->]], (ind_eq d (b ∩ x)) as [[? ->]|[? ->]];
      try done; exfalso; set_solver. }
  destruct (bool_decide (b ∩ x = ∅)) eqn:Hc;
    [apply bool_decide_eq_true in Hc | apply bool_decide_eq_false in Hc].
  - cbn [fst snd length]. rewrite !binary_value_cons. rewrite Hc in Hsum.
    destruct (ind_eq d ∅) as [[? ?]|[_ E0]]; [set_solver|]. rewrite E0 in *. lia.
  - specialize (IH (b ∩ x)). destruct (ripple r (b ∩ x)) as [r' c].
    cbn [fst snd length] in *. rewrite !binary_value_cons.
    rewrite Nat2N.inj_succ, N.pow_succ_r'. lia.
Qed.

Lemma binary_value_app l1 l2 d :
  (binary_value (l1 ++ l2) d
   = binary_value l1 d + 2 ^ N.of_nat (length l1) * binary_value l2 d)%N.
Proof.
  induction l1 as [|b l1 IH]; [cbn [app length binary_value]; rewrite N.pow_0_r; lia|].
  cbn [app length]. rewrite !binary_value_cons, IH, Nat2N.inj_succ, N.pow_succ_r'. lia.
Qed.

Lemma count_in_nil d : count_in [] d = 0%N.
Proof. done. Qed.
Lemma count_in_app l1 l2 d : (count_in (l1 ++ l2) d = count_in l1 d + count_in l2 d)%N.
Proof. unfold count_in. rewrite filter_app, app_length. lia. Qed.
Lemma count_in_singleton b d : count_in [b] d = ind d b.
Proof. unfold count_in, bit. rewrite filter_cons. case_decide; case_bool_decide; done. Qed.

Lemma count_in_pos sets d : (0 < count_in sets d)%N <-> exists b, b ∈ sets /\ d ∈ b.
Proof.
  induction sets as [|b sets IH].
  - rewrite count_in_nil. split; [lia|]. intros (b & Hb & _). by apply elem_of_nil in Hb.
  - change (b :: sets) with ([b] ++ sets). rewrite count_in_app, count_in_singleton.
    destruct (ind_eq d b) as [[Hb ->]|[Hb ->]].
    + split; [|lia]. intros _. exists b. set_solver.
    + rewrite N.add_0_l, IH. split; intros (b' & Hb' & Hd).
      * exists b'. set_solver.
      * exists b'. split; [|done]. apply elem_of_cons in Hb' as [->|?]; [done|done].
Qed.

Lemma binary_value_testbit layers d i :
  N.testbit (binary_value layers d) (N.of_nat i) = bool_decide (d ∈ default ∅ (layers !! i)).
Proof.
  revert i. induction layers as [|b r IH]; intros i.
  - rewrite lookup_nil. simpl. symmetry. by apply bool_decide_eq_false.
  - rewrite binary_value_cons. destruct i as [|i].
    + change (N.of_nat 0) with 0%N. cbn [lookup list_lookup default]. destruct (ind_eq d b) as [[Hb E]|[Hb E]]; rewrite E.
      * rewrite N.add_comm, N.testbit_odd_0. by rewrite bool_decide_true.
      * rewrite N.add_0_l, N.testbit_even_0. by rewrite bool_decide_false.
    + cbn [lookup list_lookup]. rewrite <- IH, Nat2N.inj_succ.
      destruct (ind_eq d b) as [[Hb E]|[Hb E]]; rewrite E.
      * rewrite N.add_comm, N.testbit_odd_succ; [done|lia].
      * rewrite N.add_0_l, N.testbit_even_succ; [done|lia].
Qed.

Lemma bitslice_step_spec m slices b d :
  (forall b, b ∈ slices -> b ⊆ m) ->
  binary_value (bitslice_step (m, slices) b).2 d = (binary_value slices d + ind d b)%N /\
  (bitslice_step (m, slices) b).1 = m ∪ b.
Proof.
  intros Hsub. unfold bitslice_step.
  pose proof (ripple_value slices b d) as Hr. pose proof (ripple_length slices b) as Hl.
  destruct (ripple slices b) as [s' c]. cbn [fst snd] in *. split; [|done].
  destruct (bool_decide (c = ∅)) eqn:Hc;
    [apply bool_decide_eq_true in Hc | apply bool_decide_eq_false in Hc].
  - subst c. destruct (ind_eq d ∅) as [[? ?]|[_ E0]]; [set_solver|]. rewrite E0 in Hr. lia.
  - rewrite binary_value_app, binary_value_cons, Hl. simpl (binary_value [] d). lia.
Qed.

Lemma ripple_sub slices x m : (forall b, b ∈ slices -> b ⊆ m) -> x ⊆ m ->
  (forall b, b ∈ (ripple slices x).1 -> b ⊆ m) /\ (ripple slices x).2 ⊆ m.
Proof.
  revert x. induction slices as [|b r IH]; intros x Hs Hx.
  - simpl. split; [|done]. intros b Hb. by apply elem_of_nil in Hb.
  - cbn [ripple].
    assert (b ⊆ m) as Hbm by (apply Hs; left).
    case_bool_decide as Hc.
    + cbn [fst snd]. split; [|set_solver]. intros b' [->|Hb']%elem_of_cons; [set_solver|].
      apply Hs. by right.
    + destruct (IH (b ∩ x)) as [H1 H2]; [intros; apply Hs; by right|set_solver|].
      destruct (ripple r (b ∩ x)) as [r' c]. cbn [fst snd] in *. split; [|done].
      intros b' [->|Hb']%elem_of_cons; [set_solver|]. by apply H1.
Qed.

Lemma compute_bitslice_spec bitmaps :
  let '(m, slices) := compute_bitslice bitmaps in
  (forall d, d ∈ m <-> exists b, b ∈ bitmaps /\ d ∈ b) /\
  (forall b, b ∈ slices -> b ⊆ m) /\
  forall d, binary_value slices d = count_in bitmaps d.
Proof.
  unfold compute_bitslice. induction bitmaps as [|b bs IH] using rev_ind.
  - simpl. split_and!.
    + intros d. split; [set_solver|]. intros (b & Hb & _). by apply elem_of_nil in Hb.
    + intros b Hb. apply elem_of_list_singleton in Hb. by subst.
    + intros d. case_decide as Hd; [by apply not_elem_of_empty in Hd|done].
  - rewrite foldl_app. cbn [foldl].
    destruct (foldl bitslice_step (∅, [∅]) bs) as [m slices]. destruct IH as (H1 & H2 & H3).
    pose proof (fun d => bitslice_step_spec m slices b d H2) as Hstep.
    destruct (ripple_sub slices b (m ∪ b)) as [Hs1 Hs2]; [|set_solver|].
    { intros b' Hb'. specialize (H2 _ Hb'). set_solver. }
    unfold bitslice_step in *. destruct (ripple slices b) as [s' c]. cbn [fst snd] in *.
    split_and!.
    + intros d. rewrite elem_of_union, H1. split.
      * intros [(b' & ? & ?)|?]; [exists b'|exists b]; set_solver.
      * intros (b' & [Hb'|Hb']%elem_of_app & Hd); [left; eauto|].
        apply elem_of_list_singleton in Hb'. subst. by right.
    + intros b' Hb'. case_bool_decide; [by apply Hs1|].
      apply elem_of_app in Hb' as [?|Hb']; [by apply Hs1|].
      apply elem_of_list_singleton in Hb'. by subst.
    + intros d. destruct (Hstep d) as [Hv _]. rewrite count_in_app, count_in_singleton, <- H3.
      exact Hv.
Qed.

(** ** bstm *)
Lemma binary_value_bound layers d : (binary_value layers d < 2 ^ N.of_nat (length layers))%N.
Proof.
  induction layers as [|b r IH]; [simpl; lia|].
  rewrite binary_value_cons. cbn [length]. rewrite Nat2N.inj_succ, N.pow_succ_r'.
  destruct (ind_eq d b) as [[_ ->]|[_ ->]]; lia.
Qed.

Definition msb_value (slices : list bitmap) (d : N) : N := binary_value (rev slices) d.
Lemma msb_value_cons b r d :
  msb_value (b :: r) d = (msb_value r d + 2 ^ N.of_nat (length r) * ind d b)%N.
Proof.
  unfold msb_value. cbn [rev]. rewrite binary_value_app, binary_value_cons, rev_length.
  cbn [binary_value]. lia.
Qed.
Lemma msb_value_bound r d : (msb_value r d < 2 ^ N.of_nat (length r))%N.
Proof. unfold msb_value. pose proof (binary_value_bound (rev r) d). by rewrite rev_length in *. Qed.

Lemma bstm_loop_spec slices e g k :
  e ## g -> size g < k ->
  let '(e', g') := bstm_loop slices e g k in
  g' ∪ e' = g ∪ filter (fun d => size (g ∪ filter (fun d' => (msb_value slices d < msb_value slices d')%N) e) < k) e.
Proof.
  revert e g. induction slices as [|b r IH]; intros e g Hdis Hg.
  { cbn [bstm_loop]. f_equal. apply set_eq. intros d. rewrite elem_of_filter.
    split; [|by intros [_ ?]]. intros Hd. split; [|done].
    eapply Nat.le_lt_trans; [apply subseteq_size|exact Hg].
    intros x. rewrite elem_of_union, elem_of_filter. unfold msb_value. simpl. intros [?|[? ?]]; [done|lia]. }
  cbn [bstm_loop].
  assert (forall d d', d ∈ b -> d' ∈ b ->
     (msb_value (b :: r) d < msb_value (b :: r) d' <-> msb_value r d < msb_value r d')%N) as Hbb.
  { intros d d' H1 H2. rewrite !msb_value_cons, !bool_decide_true by done. lia. }
  assert (forall d d', d ∉ b -> d' ∉ b ->
     (msb_value (b :: r) d < msb_value (b :: r) d' <-> msb_value r d < msb_value r d')%N) as Hnn.
  { intros d d' H1 H2. rewrite !msb_value_cons, !bool_decide_false by done. lia. }
  assert (forall d d', d ∉ b -> d' ∈ b -> (msb_value (b :: r) d < msb_value (b :: r) d')%N) as Hnb.
  { intros d d' H1 H2. rewrite !msb_value_cons.
    rewrite (bool_decide_false (d ∈ b)), (bool_decide_true (d' ∈ b)) by done.
    pose proof (msb_value_bound r d). unfold bit. lia. }
  destruct (Nat.ltb_spec k (size (g ∪ e ∩ b))) as [Hgt|Hle].
  - specialize (IH (e ∩ b) g ltac:(set_solver) Hg).
    destruct (bstm_loop r (e ∩ b) g k) as [e' g']. rewrite IH. f_equal.
    apply set_eq. intros d. rewrite !elem_of_filter, elem_of_intersection.
    split.
    + intros (Hs & He & Hb). split; [|done].
      eapply Nat.le_lt_trans; [apply subseteq_size|exact Hs].
      intros x. rewrite !elem_of_union, !elem_of_filter, elem_of_intersection.
      intros [?|[Hx Hxe]]; [by left|right].
      destruct (decide (x ∈ b)) as [Hxb|Hxb]; [by rewrite Hbb in Hx|].
      specialize (Hnb _ _ Hxb Hb). lia.
    + intros (Hs & He).
      destruct (decide (d ∈ b)) as [Hb|Hb].
      * split; [|done]. eapply Nat.le_lt_trans; [apply subseteq_size|exact Hs].
        intros x. rewrite !elem_of_union, !elem_of_filter, elem_of_intersection.
        intros [?|(Hx & Hxe & Hxb)]; [by left|right]. by rewrite Hbb.
      * exfalso. assert (size (g ∪ e ∩ b) <= k) as ?; [|lia].
        etransitivity; [apply subseteq_size|apply Nat.lt_le_incl, Hs].
        intros x. rewrite !elem_of_union, !elem_of_filter, elem_of_intersection.
        intros [?|[Hxe Hxb]]; [by left|right]. auto.
  - destruct (Nat.ltb_spec (size (g ∪ e ∩ b)) k) as [Hlt|Hge].
    + specialize (IH (e ∖ b) (g ∪ e ∩ b) ltac:(set_solver) Hlt).
      destruct (bstm_loop r (e ∖ b) (g ∪ e ∩ b) k) as [e' g']. rewrite IH.
      apply set_eq. intros d. rewrite !elem_of_union, !elem_of_filter, elem_of_intersection, elem_of_difference.
      assert (d ∉ b -> g ∪ e ∩ b ∪ filter (λ d', (msb_value r d < msb_value r d')%N) (e ∖ b)
        = g ∪ filter (λ d', (msb_value (b :: r) d < msb_value (b :: r) d')%N) e) as Heq.
      { intros Hb. apply set_eq. intros x.
        rewrite !elem_of_union, !elem_of_filter, elem_of_intersection, elem_of_difference.
        split.
        - intros [[?|[? ?]]|(? & ? & ?)]; [by left|right..]; split; auto. by apply Hnn.
        - intros [?|[Hx ?]]; [by left; left|].
          destruct (decide (x ∈ b)); [by left; right|]. right. rewrite Hnn in Hx; auto. }
      split.
      * intros [[?|[He Hb]]|(Hs & He & Hb)]; [by left|right..]; split; auto.
        -- eapply Nat.le_lt_trans; [apply subseteq_size|exact Hlt].
           intros x. rewrite !elem_of_union, !elem_of_filter, elem_of_intersection.
           intros [?|[Hx Hxe]]; [by left|right]. split; [done|].
           destruct (decide (x ∈ b)) as [|Hxb]; [done|]. specialize (Hnb _ _ Hxb Hb). lia.
        -- by rewrite <- Heq.
      * intros [?|[Hs He]]; [by left; left|].
        destruct (decide (d ∈ b)) as [Hb|Hb]; [by left; right|right].
        rewrite Heq by done. done.
    + assert (size (g ∪ e ∩ b) = k) as Hk by lia. f_equal.
      apply set_eq. intros d. rewrite elem_of_filter, elem_of_intersection. split.
      * intros [He Hb]. split; [|done]. rewrite <- Hk. apply subset_size.
        split.
        -- intros x. rewrite !elem_of_union, !elem_of_filter, elem_of_intersection.
           intros [?|[Hx Hxe]]; [by left|right]. split; [done|].
           destruct (decide (x ∈ b)) as [|Hxb]; [done|]. specialize (Hnb _ _ Hxb Hb). lia.
        -- intros Hsub. specialize (Hsub d ltac:(set_solver)).
           rewrite elem_of_union, elem_of_filter in Hsub. destruct Hsub as [?|[? _]]; [set_solver|lia].
      * intros [Hs He]. split; [done|].
        destruct (decide (d ∈ b)) as [|Hb]; [done|]. exfalso.
        assert (size (g ∪ e ∩ b) < k) as ?; [|lia].
        eapply Nat.le_lt_trans; [apply subseteq_size|exact Hs].
        intros x. rewrite !elem_of_union, !elem_of_filter, elem_of_intersection.
        intros [?|[Hxe Hxb]]; [by left|right]. auto.
Qed.

Lemma bstm_spec m slices k :
  0 < k -> bstm m slices k = top_ranked (binary_value slices) m k.
Proof.
  intros Hk. unfold bstm, top_ranked.
  destruct (Nat.leb_spec (size m) k) as [Hle|Hgt].
  - apply set_eq. intros d. rewrite elem_of_filter. split; [|by intros [_ ?]].
    intros Hd. split; [|done].
    eapply Nat.lt_le_trans; [apply subset_size|exact Hle]. split.
    + intros x. rewrite elem_of_filter. by intros [_ ?].
    + intros Hsub. specialize (Hsub d Hd). rewrite elem_of_filter in Hsub. lia.
  - pose proof (bstm_loop_spec (rev slices) m ∅ k ltac:(set_solver) ltac:(by rewrite size_empty)) as H.
    destruct (bstm_loop (rev slices) m ∅ k) as [e g]. rewrite H. rewrite union_empty_l_L.
    apply set_eq. intros d. rewrite !elem_of_filter. rewrite union_empty_l_L.
    unfold msb_value. by rewrite rev_involutive.
Qed.

(** ** weight_bitslice *)
Definition ksum (l : list (N * N)) (k : N) : N :=
  foldr (fun kv acc => (if (kv.1 =? k)%N then kv.2 else 0) + acc)%N 0%N l.

Lemma ksum_cons kv l k : ksum (kv :: l) k = ((if (kv.1 =? k)%N then kv.2 else 0) + ksum l k)%N.
Proof. done. Qed.
Lemma ksum_app l1 l2 k : ksum (l1 ++ l2) k = (ksum l1 k + ksum l2 k)%N.
Proof. induction l1 as [|kv l1 IH]; [done|]. rewrite <- app_comm_cons, !ksum_cons, IH. lia. Qed.
Lemma ksum_perm l1 l2 k : l1 ≡ₚ l2 -> ksum l1 k = ksum l2 k.
Proof. induction 1; rewrite ?ksum_cons; lia. Qed.

#[global] Instance pair_le_total : Total pair_le.
Proof. intros x y. unfold pair_le. lia. Qed.
#[global] Instance pair_le_trans : Transitive pair_le.
Proof. intros x y z. unfold pair_le. lia. Qed.

Lemma merge_all_perm ls : merge_all ls ≡ₚ concat ls.
Proof.
  induction ls as [|l ls IH]; [done|]. simpl. rewrite merge_Permutation. by rewrite IH.
Qed.

Lemma merge_all_sorted ls : Forall (Sorted pair_le) ls -> Sorted pair_le (merge_all ls).
Proof.
  induction 1 as [|l ls Hl _ IH]; [constructor|]. simpl. by apply (Sorted_list_merge pair_le).
Qed.

Lemma slice_gen_sorted i b : Sorted pair_le (slice_gen i b).
Proof.
  unfold slice_gen. pose proof (sorted_bm_list b) as H.
  apply StronglySorted_Sorted. induction H as [|x l Hs IH Hx]; [constructor|].
  cbn [fmap list_fmap]. constructor; [done|]. rewrite Forall_fmap.
  eapply Forall_impl; [exact Hx|]. intros y Hy. left. done.
Qed.

Lemma group_sum_spec l :
  StronglySorted pair_le l ->
  exists ks, group_sum l = (fun k => (k, ksum l k)) <$> ks /\ StronglySorted N.lt ks /\
             forall k, k ∈ ks <-> k ∈ fst <$> l.
Proof.
  induction 1 as [|[k v] l Hs IH Hx].
  { exists []. simpl. split_and!; [done|constructor|set_solver]. }
  destruct IH as (ks & Hg & Hks & Hin). cbn [group_sum]. rewrite Hg.
  rewrite Forall_forall in Hx.
  assert (forall j, j ∈ ks -> (k <= j)%N) as Hle.
  { intros j Hj. apply Hin, elem_of_list_fmap in Hj as ([j' v'] & -> & Hj).
    specialize (Hx _ Hj). unfold pair_le in Hx. simpl in *. lia. }
  destruct ks as [|j ks].
  - exists [k]. cbn [fmap list_fmap]. split_and!.
    + rewrite ksum_cons. cbn [fst snd]. rewrite N.eqb_refl.
      destruct l as [|[j' v'] l].
      * cbn [ksum foldr]. by rewrite N.add_0_r.
      * specialize (Hin j'). exfalso. assert (j' ∈ @nil N) as Hn; [|by apply elem_of_nil in Hn].
        apply Hin. cbn [fmap list_fmap fst]. left.
    + repeat constructor.
    + intros x. rewrite elem_of_list_singleton, elem_of_cons, <- Hin. set_solver.
  - cbn [fmap list_fmap].
    inversion Hks as [|? ? Hks' Hj]; subst. rewrite Forall_forall in Hj.
    destruct (N.eqb_spec k j) as [->|Hne].
    + exists (j :: ks). cbn [fmap list_fmap]. split_and!; [|done|].
      * f_equal.
        -- rewrite ksum_cons. cbn [fst snd]. by rewrite N.eqb_refl.
        -- apply list_fmap_ext. intros i y Hy%elem_of_list_lookup_2. f_equal.
           rewrite ksum_cons. cbn [fst snd].
           specialize (Hj y Hy). destruct (N.eqb_spec j y); lia.
      * intros x. rewrite (elem_of_cons (fst <$> l)), <- Hin. set_solver.
    + exists (k :: j :: ks). cbn [fmap list_fmap].
      assert (forall y, y ∈ j :: ks -> k <> y) as Hk.
      { intros y [->|Hy]%elem_of_cons; [done|]. specialize (Hj y Hy).
        assert (k <= j)%N by (apply Hle; left). lia. }
      assert (k ∉ fst <$> l) as Hkl by (rewrite <- Hin; intros Hc; by apply (Hk k)).
      assert (ksum l k = 0%N) as Hz.
      { clear -Hkl. induction l as [|[a b] l IH]; [done|]. rewrite ksum_cons. cbn [fst snd].
        cbn [fmap list_fmap] in Hkl. apply not_elem_of_cons in Hkl as [H1 H2].
        rewrite IH by done. cbn [fst] in H1. destruct (N.eqb_spec a k); [congruence|done]. }
      split_and!.
      * f_equal; [|f_equal].
        -- rewrite ksum_cons. cbn [fst snd]. rewrite N.eqb_refl, Hz. by rewrite N.add_0_r.
        -- f_equal. rewrite ksum_cons. cbn [fst snd].
           specialize (Hk j ltac:(left)). destruct (N.eqb_spec k j); [done|lia].
        -- apply list_fmap_ext. intros i y Hy%elem_of_list_lookup_2. f_equal.
           rewrite ksum_cons. cbn [fst snd].
           specialize (Hk y ltac:(by right)). destruct (N.eqb_spec k y); [done|lia].
      * constructor; [done|]. rewrite Forall_forall. intros y Hy.
        specialize (Hk y Hy). specialize (Hle y Hy). lia.
      * intros x. rewrite elem_of_cons, (elem_of_cons (fst <$> l)), <- Hin. done.
Qed.

Lemma ksum_slice_gen i b d : ksum (slice_gen i b) d = (2 ^ N.of_nat i * ind d b)%N.
Proof.
  unfold slice_gen.
  assert (forall l, NoDup l -> ksum ((fun d => (d, 2 ^ N.of_nat i)%N) <$> l) d
            = (2 ^ N.of_nat i * bit (bool_decide (d ∈ l)))%N) as Hgen.
  { induction 1 as [|x l Hx Hnd IH].
    { rewrite bool_decide_false by set_solver. unfold bit. cbn [fmap list_fmap ksum foldr]. lia. }
    cbn [fmap list_fmap]. rewrite ksum_cons, IH. cbn [fst snd].
    destruct (N.eqb_spec x d) as [->|Hne].
    - rewrite (bool_decide_false (d ∈ l)), (bool_decide_true (d ∈ d :: l)) by (done || left).
      unfold bit. lia.
    - rewrite (bool_decide_ext (d ∈ x :: l) (d ∈ l)); [lia|].
      rewrite elem_of_cons. split; [intros [->|?]; done|auto]. }
  rewrite (Hgen _ (NoDup_bm_list b)). do 2 f_equal. apply bool_decide_ext, elem_of_bm_list.
Qed.

Lemma ksum_imap n slices d :
  ksum (concat (imap (fun i => slice_gen (n + i)) slices)) d
  = (2 ^ N.of_nat n * binary_value slices d)%N.
Proof.
  revert n. induction slices as [|b r IH]; intros n.
  - cbn [binary_value]. rewrite N.mul_0_r. done.
  - cbn [imap concat]. rewrite ksum_app, ksum_slice_gen, binary_value_cons.
    rewrite (imap_ext _ (fun i => slice_gen (S n + i)) r).
    2: { intros i x _. unfold compose. by rewrite Nat.add_succ_r. }
    rewrite IH, Nat2N.inj_succ, N.pow_succ_r', Nat.add_0_r. lia.
Qed.

Lemma weight_bitslice_spec slices :
  weight_bitslice slices = (fun d => (d, binary_value slices d)) <$> bm_list (⋃ slices).
Proof.
  unfold weight_bitslice.
  pose proof (merge_all_perm (imap slice_gen slices)) as Hp.
  destruct (group_sum_spec (merge_all (imap slice_gen slices))) as (ks & Hg & Hs & Hin).
  { apply (Sorted_StronglySorted pair_le), merge_all_sorted.
    apply Forall_forall. intros l Hl.
    apply elem_of_lookup_imap_1 in Hl as (i & b & -> & _). apply slice_gen_sorted. }
  rewrite Hg. rewrite (bm_list_unique _ ks Hs).
  - apply list_fmap_ext. intros i k _. f_equal.
    rewrite (ksum_perm _ _ _ Hp).
    pose proof (ksum_imap 0 slices k) as H. rewrite N.pow_0_r, N.mul_1_l in H. exact H.
  - intros x. rewrite Hin, elem_of_union_list. rewrite elem_of_list_fmap.
    split.
    + intros ([k v] & -> & Hk). rewrite Hp in Hk.
      apply elem_of_concat in Hk as (l & Hk & Hl).
      apply elem_of_lookup_imap_1 in Hl as (i & b & -> & Hb).
      unfold slice_gen in Hk. apply elem_of_list_fmap in Hk as (d & [= -> ->] & Hd).
      exists b. rewrite elem_of_bm_list in Hd. split; [by eapply elem_of_list_lookup_2|done].
    + intros (b & Hb & Hx). apply elem_of_list_lookup in Hb as [i Hb].
      exists (x, (2 ^ N.of_nat i)%N). split; [done|]. rewrite Hp.
      apply elem_of_concat. exists (slice_gen i b). split.
      * unfold slice_gen. apply elem_of_list_fmap. exists x. by rewrite elem_of_bm_list.
      * by apply elem_of_lookup_imap_2.
Qed.

(** ** expand_positions_window *)
Definition brackets (bd : bitmap) (p s e : N) : Prop :=
  s ∈ bd /\ e ∈ bd /\ (s <= p < e)%N /\ forall y, y ∈ bd -> (y <= s)%N \/ (e <= y)%N.

Lemma brackets_unique bd p s e s' e' :
  brackets bd p s e -> brackets bd p s' e' -> s = s' /\ e = e'.
Proof.
  intros (Hs & He & Hp & H) (Hs' & He' & Hp' & H').
  pose proof (H s' Hs'). pose proof (H e' He'). pose proof (H' s Hs). pose proof (H' e He). lia.
Qed.

Lemma bracket_exists bd P p : delimited bd P -> p ∈ P ->
  exists s e, brackets bd p s e /\
    bm_nth bd (Z.of_nat (bm_rank bd p) - 1) = Ok s /\ bm_nth bd (Z.of_nat (bm_rank bd p)) = Ok e.
Proof.
  intros Hd Hp. destruct (Hd p Hp) as [(lo & Hlo & Hlop) (hi & Hhi & Hphi)].
  destruct (bm_rank_bracket bd p lo hi Hlo Hlop Hhi Hphi) as (s & e & ? & ? & ? & ? & ? & ?).
  exists s, e. unfold brackets. auto.
Qed.

Lemma expand_positions_window_raw P bd w :
  delimited bd P ->
  exists R, expand_positions_window P bd w = Ok R /\
    forall q, q ∈ R <-> exists p s e, p ∈ P /\ brackets bd p s e /\
                         (N.max s (p - w) <= q <= N.min e (p + w))%N.
Proof.
  intros Hdel. unfold expand_positions_window.
  case_bool_decide as HP.
  { exists ∅. split; [done|]. intros q. split; [set_solver|].
    intros (p & s & e & Hp & _). subst. by apply not_elem_of_empty in Hp. }
  pose (I := fun (dn : list N) (st : window_state) =>
    (forall q, q ∈ st.1 <-> q ∈ P \/ exists p s e, p ∈ dn /\ brackets bd p s e /\
                         (N.max s (p - w) <= q <= N.min e (p + w))%N) /\
    (match st.2 with
     | None => dn = []
     | Some (s, e) => exists p, last dn = Some p /\ brackets bd p s e
     end)).
  pose proof (sorted_bm_list P) as Hsort.
  destruct (rfold_ok I (window_step bd w) (bm_list P) (P, None)) as ([R o] & HR & HI & _).
  - split; [|done]. cbn [fst]. intros q. split; [by left|].
    intros [?|(p & s & e & Hp & _)]; [done|]. by apply elem_of_nil in Hp.
  - intros dn x rest [R o] Hl [HI Ho]. cbn [fst snd] in *.
    assert (x ∈ P) as HxP by (apply elem_of_bm_list; rewrite Hl; set_solver).
    destruct (bracket_exists bd P x Hdel HxP) as (s & e & Hb & H1 & H2).
    assert (exists st, window_step bd w (R, o) x = Ok st /\
       st = (bm_add_range R (N.max s (x - w)) (N.min e (x + w) + 1), Some (s, e))) as (st & Hst & ->).
    { eexists. split; [|reflexivity]. unfold window_step.
      destruct o as [[s0 e0]|].
      - destruct Ho as (p & Hlast & Hb0).
        destruct (N.leb_spec e0 x) as [Hle|Hgt].
        + rewrite H1. cbn [rbind]. rewrite H2. done.
        + assert (p < x)%N as Hpx.
          { apply last_Some in Hlast as [dn' ->]. rewrite Hl in Hsort.
            rewrite <- app_assoc in Hsort. clear -Hsort. induction dn' as [|a dn' IH].
            - cbn [app] in Hsort. inversion Hsort as [|? ? _ Hf]; subst.
              apply Forall_cons in Hf as [? _]. done.
            - apply IH. cbn [app] in Hsort. by inversion Hsort. }
          assert (brackets bd x s0 e0) as Hb1.
          { destruct Hb0 as (? & ? & ? & ?). unfold brackets. split_and!; try done; lia. }
          destruct (brackets_unique _ _ _ _ _ _ Hb Hb1) as [-> ->]. done.
      - rewrite H1. cbn [rbind]. rewrite H2. done. }
    eexists. split; [exact Hst|]. split; cbn [fst snd].
    + intros q. rewrite elem_of_bm_add_range, HI. split.
      * intros [[?|(p & s' & e' & Hp & Hr)]|Hr]; [by left|right..].
        -- exists p, s', e'. split; [set_solver|done].
        -- exists x, s, e. split; [set_solver|]. split; [done|lia].
      * intros [?|(p & s' & e' & Hp & Hb' & Hr)]; [by left; left|].
        apply elem_of_app in Hp as [Hp|Hp].
        -- left. right. eauto 10.
        -- apply elem_of_list_singleton in Hp as ->. right.
           destruct (brackets_unique _ _ _ _ _ _ Hb Hb') as [-> ->]. lia.
    + exists x. rewrite last_snoc. done.
  - exists R. rewrite HR. split; [done|]. intros q. cbn [fst] in HI. rewrite HI. split.
    + intros [Hq|(p & s & e & Hp & Hr)].
      * destruct (bracket_exists bd P q Hdel Hq) as (s & e & Hb & _).
        exists q, s, e. split_and!; [done|done| |]; destruct Hb as (_ & _ & ? & _); lia.
      * exists p, s, e. by rewrite elem_of_bm_list in Hp.
    + intros (p & s & e & Hp & Hr). right. exists p, s, e. by rewrite elem_of_bm_list.
Qed.

Lemma expand_positions_window_spec P bd w :
  delimited bd P ->
  exists R, expand_positions_window P bd w = Ok R /\
    forall q, q ∈ R <-> exists p, p ∈ P /\ within w p q /\
                         (same_document bd p q \/ next_document_start bd p q).
Proof.
  intros Hdel. destruct (expand_positions_window_raw P bd w Hdel) as (R & HR & HI).
  exists R. split; [done|]. intros q. rewrite HI. split.
  - intros (p & s & e & Hp & (Hs & He & Hpe & Hbd) & Hr). exists p. split; [done|].
    split; [unfold within; lia|].
    destruct (decide (q = e)) as [->|Hqe].
    + right. split_and!; [done|lia|]. intros b Hb. specialize (Hbd b Hb). lia.
    + left. intros b Hb. specialize (Hbd b Hb). lia.
  - intros (p & Hp & Hw & Hq). destruct (bracket_exists bd P p Hdel Hp) as (s & e & Hb & _).
    exists p, s, e. split_and!; [done|done| |]; destruct Hb as (Hs & He & Hpe & Hbd);
      unfold within in Hw.
    + destruct Hq as [Hq|(Hq & Hpq & _)]; [|lia]. specialize (Hq s Hs). lia.
    + destruct Hq as [Hq|(Hq & Hpq & Hn)].
      * pose proof (Hq e He). lia.
      * specialize (Hn e He). lia.
Qed.

(** ** round_datetime *)
Lemma round_datetime_bucket d g :
  same_bucket g (round_datetime d g) d.
Proof. destruct g; repeat split. Qed.

Lemma round_datetime_valid d g : valid_datetime d -> valid_datetime (round_datetime d g).
Proof. unfold valid_datetime. destruct g; simpl; lia. Qed.

Lemma round_datetime_least d d' g :
  valid_datetime d' -> same_bucket g d d' -> datetime_le (round_datetime d g) d'.
Proof.
  destruct d, d'. unfold valid_datetime, same_bucket, datetime_le.
  destruct g; simpl; intros; lia.
Qed.

Lemma round_datetime_same d d' g :
  same_bucket g d d' -> round_datetime d g = round_datetime d' g.
Proof.
  destruct d, d'. unfold same_bucket. destruct g; simpl; intros; destruct_and?; by subst.
Qed.

Lemma round_datetime_spec d g :
  valid_datetime d ->
  valid_datetime (round_datetime d g) /\
  same_bucket g (round_datetime d g) d /\
  (forall d', valid_datetime d' -> same_bucket g d d' -> datetime_le (round_datetime d g) d') /\
  (forall d', same_bucket g d d' <-> round_datetime d g = round_datetime d' g).
Proof.
  intros Hd. split_and!.
  - by apply round_datetime_valid.
  - apply round_datetime_bucket.
  - intros. by apply round_datetime_least.
  - intros d'. split; [apply round_datetime_same|].
    destruct d, d'. unfold round_datetime, same_bucket. destruct g; cbn; intros [=]; subst; auto.
Qed.

Lemma C05_example_proof :
  valid_datetime (DateTime 2021 11 17 21 34 5 77) /\
  round_datetime (DateTime 2021 11 17 21 34 5 77) Month = DateTime 2021 11 1 0 0 0 0.
Proof. split; [unfold valid_datetime; simpl; lia | reflexivity]. Qed.

(** ** Forms used by the property file *)
Lemma bitslice_counts bitmaps m layers :
  compute_bitslice bitmaps = (m, layers) ->
  (forall d, d ∈ m <-> exists b, b ∈ bitmaps /\ d ∈ b) /\
  (forall d i, d ∈ default ∅ (layers !! i) <-> N.testbit (count_in bitmaps d) (N.of_nat i) = true).
Proof.
  intros E. pose proof (compute_bitslice_spec bitmaps) as H. rewrite E in H.
  destruct H as (H1 & H2 & H3). split; [done|]. intros d i.
  rewrite <- H3, binary_value_testbit, bool_decide_eq_true. done.
Qed.

Lemma bstm_counts bitmaps k :
  0 < k ->
  let '(m, layers) := compute_bitslice bitmaps in
  bstm m layers k = top_ranked (count_in bitmaps) m k.
Proof.
  intros Hk. pose proof (compute_bitslice_spec bitmaps) as H.
  destruct (compute_bitslice bitmaps) as [m layers]. destruct H as (_ & _ & H3).
  rewrite bstm_spec by done. unfold top_ranked. apply set_eq. intros d.
  rewrite !elem_of_filter.
  assert (filter (fun d' => (binary_value layers d < binary_value layers d')%N) m
          = filter (fun d' => (count_in bitmaps d < count_in bitmaps d')%N) m) as ->; [|done].
  apply set_eq. intros x. by rewrite !elem_of_filter, !H3.
Qed.

(** At least [k] documents are ranked in the top [k]. *)
Lemma top_ranked_size w (m : bitmap) k : min k (size m) <= size (top_ranked w m k).
Proof.
  (* remove elements from the bottom: induction on the size of m *)
  remember (size m) as n eqn:Hn. revert m Hn. induction n as [|n IH]; intros m Hn; [lia|].
  destruct (decide (top_ranked w m k = m)) as [->|Hne]; [lia|].
  assert (exists d, d ∈ m /\ d ∉ top_ranked w m k) as (d & Hd & Hd').
  { destruct (set_choose_or_empty (m ∖ top_ranked w m k)) as [[d Hd]|Hno].
    - exists d. set_solver.
    - exfalso. apply Hne. apply set_eq. intros x. split.
      + unfold top_ranked. rewrite elem_of_filter. by intros [_ ?].
      + intros Hx. destruct (decide (x ∈ top_ranked w m k)); [done|]. set_solver. }
  assert (k <= size (filter (fun d' => (w d < w d')%N) m)) as Hk.
  { unfold top_ranked in Hd'. rewrite elem_of_filter in Hd'.
    destruct (decide (k <= size (filter (fun d' => (w d < w d')%N) m))); [done|]. exfalso.
    apply Hd'. split; [lia|done]. }
  set (m' := m ∖ {[d]}).
  assert (size m' = n) as Hm'.
  { unfold m'. rewrite size_difference by set_solver. rewrite size_singleton. lia. }
  specialize (IH m' (eq_sym Hm')).
  assert (k <= n) as Hkn.
  { rewrite <- Hm'. etransitivity; [exact Hk|]. apply subseteq_size. intros x.
    rewrite elem_of_filter. intros [? ?]. unfold m'. rewrite elem_of_difference, elem_of_singleton.
    split; [done|]. intros ->. lia. }
  assert (top_ranked w m' k ⊆ top_ranked w m k) as Hsub.
  { intros x. unfold top_ranked. rewrite !elem_of_filter. intros [Hx Hxm].
    assert (x ∈ m) as Hxm' by set_solver. split; [|done].
    destruct (decide (w x < w d)%N) as [Hlt|Hge].
    - exfalso. assert (k <= size (filter (λ d' : N, (w x < w d')%N) m')); [|lia].
      etransitivity; [exact Hk|]. apply subseteq_size. intros y. rewrite !elem_of_filter.
      intros [Hy Hym]. split; [lia|]. unfold m'. rewrite elem_of_difference, elem_of_singleton.
      split; [done|]. intros ->. lia.
    - assert (filter (λ d' : N, (w x < w d')%N) m ⊆ filter (λ d' : N, (w x < w d')%N) m') as H.
      { intros y. rewrite !elem_of_filter. intros [Hy Hym]. split; [done|].
        unfold m'. rewrite elem_of_difference, elem_of_singleton. split; [done|]. intros ->. lia. }
      apply subseteq_size in H. lia. }
  apply subseteq_size in Hsub. lia.
Qed.

Lemma bstm_any m layers k :
  0 < k ->
  bstm m layers k = top_ranked (binary_value layers) m k /\
  min k (size m) <= size (bstm m layers k).
Proof.
  intros Hk. rewrite bstm_spec by done. split; [done|]. apply top_ranked_size.
Qed.

Lemma binary_value_pos layers d :
  (0 < binary_value layers d)%N <-> d ∈ ⋃ layers.
Proof.
  induction layers as [|b r IH]; [simpl; set_solver by lia|].
  rewrite binary_value_cons. change (⋃ (b :: r)) with (b ∪ ⋃ r). rewrite elem_of_union, <- IH.
  destruct (ind_eq d b) as [[Hb ->]|[Hb ->]]; split; intros Hv; [by left|lia|right; lia|].
  destruct Hv; [done|lia].
Qed.

Lemma weight_bitslice_sound layers :
  StronglySorted N.lt (fst <$> weight_bitslice layers) /\
  forall d w, (d, w) ∈ weight_bitslice layers <-> w = binary_value layers d /\ (0 < w)%N.
Proof.
  rewrite weight_bitslice_spec. split.
  - rewrite <- list_fmap_compose. rewrite (list_fmap_ext _ id).
    + rewrite list_fmap_id. apply sorted_bm_list.
    + done.
  - intros d w. rewrite elem_of_list_fmap. split.
    + intros (x & [= -> ->] & Hx). rewrite elem_of_bm_list in Hx. split; [done|].
      by apply binary_value_pos.
    + intros [-> Hw]. exists d. split; [done|]. apply elem_of_bm_list. by apply binary_value_pos.
Qed.

Lemma weight_round_trip bitmaps d n :
  (d, n) ∈ weight_bitslice (compute_bitslice bitmaps).2 <->
  n = count_in bitmaps d /\ (0 < n)%N.
Proof.
  destruct (weight_bitslice_sound (compute_bitslice bitmaps).2) as [_ H]. rewrite H.
  pose proof (compute_bitslice_spec bitmaps) as Hc.
  destruct (compute_bitslice bitmaps) as [m layers]. destruct Hc as (_ & _ & H3).
  simpl. by rewrite H3.
Qed.

Lemma expand_positions_window_spec_flip P bd w :
  delimited bd P ->
  exists R, expand_positions_window P bd w = Ok R /\
    forall q, q ∈ R <-> exists p, p ∈ P /\ within w p q /\
                         (same_document bd p q \/ next_document_start bd p q).
Proof. exact (expand_positions_window_spec P bd w). Qed.

Lemma C04_delimited : delimited {[0; 4; 9]}%N {[2; 5]}%N.
Proof.
  intros p Hp. assert (p = 2%N \/ p = 5%N) as [->| ->] by set_solver.
  - split; [exists 0%N|exists 4%N]; split; (set_solver || lia).
  - split; [exists 4%N|exists 9%N]; split; (set_solver || lia).
Qed.

Lemma C04_example_proof : delimited {[0; 4; 9]}%N {[2; 5]}%N /\
  expand_positions_window {[2; 5]}%N {[0; 4; 9]}%N 1 = Ok {[1;2;3;4;5;6]}%N.
Proof. split; [exact C04_delimited | by_computation]. Qed.

(** Witness: one document holding positions 0..3 (next document starts at 4), the
    match at position 3, window 1: position 4 is returned. *)
Lemma window_leaks :
  ~ (forall (positions boundaries : gset N) (w : N) (R : gset N),
       delimited boundaries positions ->
       expand_positions_window positions boundaries w = Ok R ->
       forall q, q ∈ R -> exists p, p ∈ positions /\ within w p q /\ same_document boundaries p q).
Proof.
  intros H. specialize (H {[3]}%N {[0; 4; 9]}%N 1%N {[2;3;4]}%N).
  assert (delimited {[0; 4; 9]}%N {[3]}%N) as Hd.
  { intros p ->%elem_of_singleton. split; [exists 0%N|exists 4%N]; split; (set_solver || lia). }
  destruct (H Hd ltac:(by_computation) 4%N ltac:(set_solver))
    as (p & ->%elem_of_singleton & _ & Hs).
  specialize (Hs 4%N ltac:(set_solver)). lia.
Qed.
