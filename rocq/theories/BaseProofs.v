(** BaseProofs.v: lemmas about the vocabulary of Base.v. *)
From Verif Require Import Base.

Lemma bm_list_perm b : bm_list b ≡ₚ elements b.
Proof. apply merge_sort_Permutation. Qed.

Lemma elem_of_bm_list b x : x ∈ bm_list b <-> x ∈ b.
Proof. by rewrite bm_list_perm, elem_of_elements. Qed.

Lemma NoDup_bm_list b : NoDup (bm_list b).
Proof. rewrite bm_list_perm. apply NoDup_elements. Qed.

Lemma length_bm_list b : length (bm_list b) = size b.
Proof. by rewrite bm_list_perm. Qed.

#[global] Instance N_le_total : Total N.le.
Proof. intros x y. lia. Qed.

Lemma sorted_le_bm_list b : StronglySorted N.le (bm_list b).
Proof. apply (StronglySorted_merge_sort N.le). Qed.

Lemma StronglySorted_le_lt (l : list N) :
  StronglySorted N.le l -> NoDup l -> StronglySorted N.lt l.
Proof.
  induction 1 as [|x l Hs IH Hx]; intros Hnd; [constructor|].
  apply NoDup_cons in Hnd as [Hnx Hnd]. constructor; [auto|].
  rewrite Forall_forall in Hx |- *. intros y Hy.
  specialize (Hx y Hy). assert (x <> y) by (intros ->; auto). lia.
Qed.

Lemma sorted_bm_list b : StronglySorted N.lt (bm_list b).
Proof. apply StronglySorted_le_lt; [apply sorted_le_bm_list | apply NoDup_bm_list]. Qed.

Lemma bm_list_nil b : bm_list b = [] <-> b = ∅.
Proof.
  split; intros H.
  - apply size_empty_inv in H || idtac.
    assert (size b = 0) as Hs by (by rewrite <- length_bm_list, H).
    by apply leibniz_equiv, size_empty_inv.
  - subst. apply length_zero_iff_nil. by rewrite length_bm_list, size_empty.
Qed.

Lemma bm_list_unique b l :
  StronglySorted N.lt l -> (forall x, x ∈ l <-> x ∈ b) -> bm_list b = l.
Proof.
  intros Hs Hin.
  assert (Hle : forall l, StronglySorted N.lt l -> StronglySorted N.le l /\ NoDup l).
  { clear. induction 1 as [|x l Hs [IH1 IH2] Hx]; [split; constructor|].
    rewrite Forall_forall in Hx. split.
    - constructor; [done|]. rewrite Forall_forall. intros y Hy. specialize (Hx y Hy). lia.
    - constructor; [|done]. intros Hx'. specialize (Hx x Hx'). lia. }
  destruct (Hle _ Hs) as [Hsl Hnd].
  apply (StronglySorted_unique N.le); [apply sorted_le_bm_list|done|].
  apply NoDup_Permutation; [apply NoDup_bm_list|done|].
  intros x. by rewrite elem_of_bm_list, Hin.
Qed.

Lemma size_filter_bm_list (P : N -> Prop) `{!forall x, Decision (P x)} (b : bitmap) :
  size (filter P b) = length (filter P (bm_list b)).
Proof.
  assert (filter P b = list_to_set (filter P (bm_list b))) as ->.
  { apply set_eq. intros x. rewrite elem_of_list_to_set, elem_of_filter, elem_of_list_filter.
    by rewrite elem_of_bm_list. }
  apply size_list_to_set. apply NoDup_filter, NoDup_bm_list.
Qed.

Lemma sorted_filter_le_lookup (l : list N) (x : N) i y :
  StronglySorted N.lt l -> l !! i = Some y ->
  ((y <= x)%N <-> i < length (filter (fun z => (z <= x)%N) l)).
Proof.
  intros Hs. revert i y. induction Hs as [|a l Hs IH Ha]; intros i y Hi; [done|].
  rewrite filter_cons. destruct (decide (a <= x)%N) as [Hax|Hax].
  - destruct i as [|i]; simpl in Hi |- *.
    + injection Hi as ->. split; [lia|done].
    + rewrite (IH i y Hi). lia.
  - assert (filter (fun z => (z <= x)%N) l = []) as ->.
    { apply list_filter_nil_iff || idtac.
      destruct (filter (fun z => (z <= x)%N) l) as [|z zs] eqn:E; [done|].
      assert (z ∈ filter (fun z => (z <= x)%N) l) as Hz by (rewrite E; left).
      apply elem_of_list_filter in Hz as [Hz1 Hz2].
      rewrite Forall_forall in Ha. specialize (Ha z Hz2). lia. }
    simpl. split; [|lia]. intros Hy. exfalso.
    assert (a <= y)%N; [|lia].
    destruct i as [|i]; simpl in Hi; [injection Hi as ->; lia|].
    apply elem_of_list_lookup_2 in Hi. rewrite Forall_forall in Ha. specialize (Ha y Hi). lia.
Qed.

(** The i-th smallest member is at most x exactly when i < rank x. *)
Lemma bm_rank_lookup b x i y :
  bm_list b !! i = Some y -> ((y <= x)%N <-> i < bm_rank b x).
Proof.
  intros Hi. unfold bm_rank. rewrite size_filter_bm_list.
  apply sorted_filter_le_lookup; [apply sorted_bm_list|done].
Qed.

Lemma bm_rank_le_size b x : bm_rank b x <= size b.
Proof. unfold bm_rank. apply subseteq_size. set_solver. Qed.

(** If some member is <= p and some member is > p, the two subscripts around the
    rank of p give the greatest member <= p and the least member > p. *)
Lemma bm_rank_bracket b p lo hi :
  lo ∈ b -> (lo <= p)%N -> hi ∈ b -> (p < hi)%N ->
  exists s e, bm_nth b (Z.of_nat (bm_rank b p) - 1) = Ok s /\
              bm_nth b (Z.of_nat (bm_rank b p)) = Ok e /\
              s ∈ b /\ e ∈ b /\ (s <= p < e)%N /\
              (forall y, y ∈ b -> (y <= s)%N \/ (e <= y)%N).
Proof.
  intros Hlo Hlop Hhi Hphi.
  apply elem_of_bm_list, elem_of_list_lookup in Hlo as [i Hi].
  apply elem_of_bm_list, elem_of_list_lookup in Hhi as [j Hj].
  pose proof (proj1 (bm_rank_lookup b p i lo Hi) Hlop) as Hri.
  assert (bm_rank b p <= j) as Hrj.
  { destruct (decide (j < bm_rank b p)) as [Hc|]; [|lia].
    apply (bm_rank_lookup b p j hi Hj) in Hc. lia. }
  pose proof (lookup_lt_Some _ _ _ Hj) as Hlen.
  destruct (lookup_lt_is_Some_2 (bm_list b) (bm_rank b p - 1)) as [s Hs]; [lia|].
  destruct (lookup_lt_is_Some_2 (bm_list b) (bm_rank b p)) as [e He]; [lia|].
  exists s, e. unfold bm_nth, py_nth.
  assert (Z.of_nat (bm_rank b p) - 1 <? 0 = false)%Z as -> by lia.
  assert (Z.of_nat (bm_rank b p) <? 0 = false)%Z as -> by lia.
  assert (Z.of_nat (bm_rank b p) - 1 <? 0 = false)%Z as -> by lia.
  assert (Z.of_nat (bm_rank b p) <? 0 = false)%Z as -> by lia.
  replace (Z.to_nat (Z.of_nat (bm_rank b p) - 1)) with (bm_rank b p - 1) by lia.
  rewrite Nat2Z.id, Hs, He.
  split_and!; try done.
  - apply elem_of_bm_list. by eapply elem_of_list_lookup_2.
  - apply elem_of_bm_list. by eapply elem_of_list_lookup_2.
  - apply (bm_rank_lookup b p _ _ Hs). lia.
  - destruct (decide (e <= p)%N) as [Hc|]; [|lia].
    apply (bm_rank_lookup b p _ _ He) in Hc. lia.
  - intros y Hy. apply elem_of_bm_list, elem_of_list_lookup in Hy as [k Hk].
    assert (Hmono : forall k1 k2 y1 y2, bm_list b !! k1 = Some y1 -> bm_list b !! k2 = Some y2 ->
              k1 <= k2 -> (y1 <= y2)%N).
    { intros k1 k2 y1 y2 H1 H2 Hle.
      pose proof (proj1 (bm_rank_lookup b y2 k2 y2 H2) ltac:(lia)).
      apply (bm_rank_lookup b y2 k1 y1 H1). lia. }
    destruct (decide (k < bm_rank b p)).
    + left. eapply Hmono; [exact Hk|exact Hs|lia].
    + right. eapply Hmono; [exact He|exact Hk|lia].
Qed.

Lemma elem_of_bm_range a b x : x ∈ bm_range a b <-> (a <= x < b)%N.
Proof.
  unfold bm_range. rewrite elem_of_list_to_set, elem_of_list_fmap. split.
  - intros (i & -> & Hi). apply elem_of_seq in Hi. lia.
  - intros H. exists (N.to_nat (x - a)). rewrite elem_of_seq. lia.
Qed.

Lemma elem_of_bm_add_range b0 a b x :
  x ∈ bm_add_range b0 a b <-> x ∈ b0 \/ (a <= x < b)%N.
Proof. unfold bm_add_range. by rewrite elem_of_union, elem_of_bm_range. Qed.

(** ** Strided slices partition the list. *)
Lemma stride_cons_0 {A} n (x : A) l :
  stride 0 (S n) (x :: l) = x :: stride n (S n) l.
Proof. unfold stride. simpl. by rewrite Nat.sub_0_r. Qed.
Lemma stride_cons_S {A} i n (x : A) l :
  stride (S i) n (x :: l) = stride i n l.
Proof. done. Qed.

Lemma stride_partition {A} n (l : list A) :
  1 <= n -> concat ((fun i => stride i n l) <$> seq 0 n) ≡ₚ l.
Proof.
  intros Hn. destruct n as [|n]; [lia|]. clear Hn.
  induction l as [|x l IH].
  - generalize (seq 0 (S n)) as ks. intros ks.
    induction ks as [|k ks IHk]; [done|]. cbn [fmap list_fmap concat].
    unfold stride at 1. simpl. exact IHk.
  - assert ((fun i => stride i (S n) (x :: l)) <$> seq 0 (S n)
            = (x :: stride n (S n) l) :: ((fun i => stride i (S n) l) <$> seq 0 n)) as ->.
    { cbn [seq fmap list_fmap]. rewrite stride_cons_0. f_equal.
      rewrite <- fmap_S_seq, <- list_fmap_compose. done. }
    rewrite seq_S, fmap_app, concat_app in IH. cbn [fmap list_fmap concat] in IH |- *.
    rewrite app_nil_r, Nat.add_0_l in IH. cbn [app].
    apply Permutation_skip. rewrite <- IH at 2. apply Permutation_app_comm.
Qed.

Lemma stride_length_mono {A} n (l : list A) i j :
  i <= j -> j < n ->
  length (stride j n l) <= length (stride i n l) <= S (length (stride j n l)).
Proof.
  revert i j. induction l as [|x l IH]; intros i j Hij Hj.
  { unfold stride. destruct i, j; simpl; lia. }
  destruct n as [|n]; [lia|].
  destruct i as [|i], j as [|j]; rewrite ?stride_cons_0, ?stride_cons_S; simpl; try lia.
  - specialize (IH j n). lia.
  - apply IH; lia.
Qed.

Lemma stride_length_bal {A} n (l : list A) i j :
  i < n -> j < n -> length (stride i n l) <= S (length (stride j n l)).
Proof.
  intros Hi Hj. destruct (decide (i <= j)).
  - apply (stride_length_mono n l i j); lia.
  - pose proof (stride_length_mono n l j i). lia.
Qed.

(** ** Draws without replacement *)
Lemma remove_nth_perm {A} (l : list A) j x :
  l !! j = Some x -> l ≡ₚ x :: remove_nth j l.
Proof.
  intros H. unfold remove_nth. rewrite <- (take_drop_middle _ _ _ H) at 1.
  symmetry. apply Permutation_middle.
Qed.

Lemma rand_below_lt n g : n <> 0 -> (rand_below n g).1 < n.
Proof. intros Hn. unfold rand_below. simpl. by apply Nat.mod_upper_bound. Qed.

Lemma pick_spec {A} k (l : list A) g :
  (pick k l g).1 ⊆+ l /\ length (pick k l g).1 = Nat.min k (length l).
Proof.
  revert l g. induction k as [|k IH]; intros l g.
  - simpl. split; [apply submseteq_nil_l|done].
  - destruct l as [|a l].
    + simpl. split; [apply submseteq_nil_l|done].
    + cbn [pick]. destruct (rand_below (length (a :: l)) g) as [j g1] eqn:Ej.
      assert (j < length (a :: l)) as Hj.
      { pose proof (rand_below_lt (length (a :: l)) g ltac:(simpl; lia)). by rewrite Ej in *. }
      destruct (lookup_lt_is_Some_2 _ _ Hj) as [x Hx]. rewrite Hx.
      destruct (IH (remove_nth j (a :: l)) g1) as [IH1 IH2].
      pose proof (remove_nth_perm _ _ _ Hx) as Hp.
      assert (length (remove_nth j (a :: l)) = length l) as Hl.
      { apply Permutation_length in Hp. simpl in Hp. lia. }
      destruct (pick k (remove_nth j (a :: l)) g1) as [r g2]. simpl in *.
      split.
      * rewrite Hp. by apply submseteq_skip.
      * rewrite IH2, Hl. lia.
Qed.

Lemma py_shuffle_perm {A} (l : list A) g : (py_shuffle l g).1 ≡ₚ l.
Proof.
  unfold py_shuffle. destruct (pick_spec (length l) l g) as [H1 H2].
  apply submseteq_Permutation_length_eq; [|done]. lia.
Qed.

Lemma py_choice_elem {A} (l : list A) g x : (py_choice l g).1 = Ok x -> x ∈ l.
Proof.
  unfold py_choice. destruct l as [|a l]; [done|].
  destruct (rand_below (length (a :: l)) g) as [j g1]. cbn [fst].
  destruct ((a :: l) !! j) as [y|] eqn:E; [|done].
  intros [= ->]. by eapply elem_of_list_lookup_2.
Qed.

Lemma py_choice_ok {A} (l : list A) g : l <> [] -> exists x, (py_choice l g).1 = Ok x /\ x ∈ l.
Proof.
  intros Hl. destruct (py_choice l g) as [r g'] eqn:E.
  assert (r = (py_choice l g).1) as Hr by (by rewrite E).
  destruct r as [x|e].
  - exists x. split; [done|]. eapply py_choice_elem. by rewrite <- Hr.
  - exfalso. unfold py_choice in Hr. destruct l as [|a l]; [done|].
    destruct (rand_below (length (a :: l)) g) as [j g1] eqn:Ej. cbn [fst] in Hr.
    pose proof (rand_below_lt (length (a :: l)) g ltac:(simpl; lia)) as Hj.
    rewrite Ej in Hj. simpl fst in Hj.
    destruct (lookup_lt_is_Some_2 _ _ Hj) as [x Hx]. rewrite Hx in Hr. done.
Qed.

(** ** rfold / rtraverse *)
Lemma rfold_app {A S} (f : S -> A -> res S) l1 l2 s :
  rfold f (l1 ++ l2) s = rbind (rfold f l1 s) (rfold f l2).
Proof.
  revert s. induction l1 as [|x l1 IH]; intros s; [done|].
  simpl. destruct (f s x); simpl; auto.
Qed.

(** Invariant rule for loops that succeed. *)
Lemma rfold_ind {A S} (P : list A -> S -> Prop) (f : S -> A -> res S) l s s' :
  P [] s ->
  (forall done x s1 s2, P done s1 -> f s1 x = Ok s2 -> (exists rest, l = done ++ x :: rest) ->
     P (done ++ [x]) s2) ->
  rfold f l s = Ok s' -> P l s'.
Proof.
  intros H0 Hstep.
  assert (forall done rest s1, l = done ++ rest -> P done s1 -> rfold f rest s1 = Ok s' -> P l s')
    as Hgen; [|by apply (Hgen [] l)].
  intros dn rest. revert dn. induction rest as [|x rest IH]; intros dn s1 Hl HP Hf; simpl in *.
  - injection Hf as ->. by rewrite Hl, app_nil_r.
  - destruct (f s1 x) as [s2|] eqn:E; simpl in Hf; [|done].
    apply (IH (dn ++ [x]) s2); [by rewrite Hl, <- app_assoc| |done].
    eapply Hstep; eauto.
Qed.

(** Invariant rule proving that a loop succeeds. *)
Lemma rfold_ok {A S} (P : list A -> S -> Prop) (f : S -> A -> res S) l s :
  P [] s ->
  (forall done x rest s1, l = done ++ x :: rest -> P done s1 ->
     exists s2, f s1 x = Ok s2 /\ P (done ++ [x]) s2) ->
  exists s', rfold f l s = Ok s' /\ P l s'.
Proof.
  intros H0 Hstep.
  assert (forall rest done s1, l = done ++ rest -> P done s1 ->
     exists s', rfold f rest s1 = Ok s' /\ P l s') as Hgen; [|by apply (Hgen l [])].
  induction rest as [|x rest IH]; intros dn s1 Hl HP.
  - exists s1. rewrite app_nil_r in Hl. by subst.
  - destruct (Hstep dn x rest s1 Hl HP) as (s2 & Hf & HP2).
    simpl. rewrite Hf. simpl. apply (IH (dn ++ [x])); [by rewrite Hl, <- app_assoc|done].
Qed.

Lemma rtraverse_ok_iff {A B} (f : A -> res B) l ys :
  rtraverse f l = Ok ys <-> Forall2 (fun x y => f x = Ok y) l ys.
Proof.
  revert ys. induction l as [|x l IH]; intros ys; simpl.
  - split; [intros [= <-]; constructor | inversion 1; done].
  - destruct (f x) as [y|e] eqn:E; simpl.
    + destruct (rtraverse f l) as [ys'|e'] eqn:E'; simpl.
      * split.
        -- intros [= <-]. constructor; [done|]. by apply IH.
        -- inversion 1; subst. f_equal. f_equal; [congruence|].
           assert (Ok ys' = Ok l') as [=]; [by apply IH|done].
      * split; [done|]. inversion 1; subst.
        assert (@Err (list B) e' = Ok l') as [=]. by apply IH.
    + split; [done|]. inversion 1; congruence.
Qed.

Lemma elem_of_concat {A} (x : A) (ls : list (list A)) :
  x ∈ concat ls <-> exists l, x ∈ l /\ l ∈ ls.
Proof.
  induction ls as [|l ls IH]; simpl.
  - split; [intros H; by apply elem_of_nil in H | intros (l & _ & H); by apply elem_of_nil in H].
  - rewrite elem_of_app, IH. split.
    + intros [?|(l' & ? & ?)]; [exists l|exists l']; rewrite elem_of_cons; auto.
    + intros (l' & ? & [->|?]%elem_of_cons); eauto.
Qed.
