(** RefineTotal.v: when refinement does not raise. *)
From Verif Require Export RefineCalls.

Lemma measure_features d probe group cand :
  let '(o, rem, add) := measure d probe group cand in
  (group = ∅ -> rem ++ add = []) /\
  (group ≠ ∅ -> (rem ++ add).*1 = bm_list group ++ bm_list (cand ∖ group)).
Proof.
  unfold measure. set (docs := fun f => _).
  destruct (measure_docs docs group cand) as [[o rem] add] eqn:E. split.
  - intros ->. unfold measure_docs in E. rewrite size_empty in E. cbn in E. by injection E as <- <- <-.
  - intros Hg. destruct (measure_docs_spec _ _ _ _ _ _ Hg E) as (_ & H1 & H2 & _).
    by rewrite fmap_app, H1, H2.
Qed.

Section score.
  Context {K : Type} (leb : K -> K -> bool) (Hk : leb_order leb).

  Definition result_of (d : db) (probe : option bitmap) (job : K * gset N * gset N) : K * list (N * Qc) :=
    let '(k, group, check) := job in
    let '(_, rem, add) := measure d probe group (check ∖ group) in (k, rem ++ add).

  Lemma score_best d probe top_k jobs :
    (score_jobs leb d probe top_k jobs).2 = best_of leb top_k (result_of d probe <$> jobs).
  Proof.
    unfold score_jobs. cbn [snd]. rewrite <- list_fmap_compose.
    rewrite (best_of_perm leb Hk top_k (result_of d probe <$> jobs) (result_of d probe <$> merge_sort (job_le leb) jobs)).
    - f_equal. apply list_fmap_ext. intros i [[k group] check] _. unfold compose, result_of.
      by destruct (measure d probe group (check ∖ group)) as [[o rem] add].
    - by rewrite merge_sort_Permutation.
  Qed.

  Lemma score_objectives d probe top_k jobs :
    (score_jobs leb d probe top_k jobs).1.*1 ≡ₚ (fun j : K * gset N * gset N => j.1.1) <$> jobs.
  Proof.
    unfold score_jobs. cbn [fst]. rewrite <- !list_fmap_compose.
    rewrite <- (merge_sort_Permutation (job_le leb) jobs) at 2.
    match goal with |- ?x <$> _ ≡ₚ ?y <$> _ => assert (forall j, x j = y j) as Hxy end.
    { intros [[k group] check]. unfold compose. by destruct (measure d probe group (check ∖ group)) as [[o rem] add]. }
    erewrite list_fmap_ext; [done|]. intros. apply Hxy.
  Qed.

  Lemma score_candidates d probe jobs f k :
    (exists delta, (delta, k) ∈ candidates f (result_of d probe <$> jobs)) <->
    (exists group check, (k, group, check) ∈ jobs /\ group ≠ ∅ /\ (f ∈ group \/ f ∈ check)).
  Proof.
    setoid_rewrite elem_of_candidates. split.
    - intros (delta & deltas & Hin & Hf).
      apply elem_of_list_fmap in Hin as ([[k' group] check] & Heq & Hjob). unfold result_of in Heq.
      pose proof (measure_features d probe group (check ∖ group)) as Hm.
      destruct (measure d probe group (check ∖ group)) as [[o rem] add]. injection Heq as -> ->.
      destruct Hm as [Hm1 Hm2]. exists group, check. split; [done|].
      destruct (decide (group = ∅)) as [Hg|Hg].
      + rewrite (Hm1 Hg) in Hf. by apply elem_of_nil in Hf.
      + split; [done|]. apply (elem_of_list_fmap_1 fst) in Hf. rewrite (Hm2 Hg) in Hf. cbn in Hf.
        apply elem_of_app in Hf as [Hf|Hf]; apply (proj1 (elem_of_bm_list _ _)) in Hf; [by left|right; set_solver].
    - intros (group & check & Hjob & Hg & Hf).
      pose proof (measure_features d probe group (check ∖ group)) as Hm.
      assert (result_of d probe (k, group, check) ∈ result_of d probe <$> jobs) as Hin by (by apply elem_of_list_fmap_1).
      unfold result_of at 1 in Hin.
      destruct (measure d probe group (check ∖ group)) as [[o rem] add]. destruct Hm as [_ Hm].
      assert (f ∈ (rem ++ add).*1) as Hin2.
      { rewrite (Hm Hg). apply elem_of_app. rewrite !elem_of_bm_list. destruct (decide (f ∈ group)); [by left|].
        right. set_solver. }
      apply elem_of_list_fmap in Hin2 as ([f' delta] & -> & Hd). cbn. exists delta, (rem ++ add). done.
  Qed.

  (** At most one candidate per job. *)
  Lemma candidates_length d probe jobs f :
    length (candidates f (result_of d probe <$> jobs)) <= length jobs.
  Proof.
    unfold candidates. induction jobs as [|job jobs IH]; [done|].
    cbn [fmap list_fmap concat length]. rewrite app_length.
    enough (length (offers f (result_of d probe job).2 (result_of d probe job).1) <= 1) by lia.
    clear IH. unfold offers. rewrite fmap_length. destruct job as [[k group] check]. unfold result_of.
    pose proof (measure_features d probe group (check ∖ group)) as Hm.
    destruct (measure d probe group (check ∖ group)) as [[o rem] add]. cbn [snd]. destruct Hm as [Hm1 Hm2].
    destruct (decide (group = ∅)) as [Hg|Hg]; [rewrite (Hm1 Hg); cbn; lia|].
    assert (NoDup (rem ++ add).*1) as Hn.
    { rewrite (Hm2 Hg). apply NoDup_app. split; [apply NoDup_bm_list|]. split; [|apply NoDup_bm_list].
      intros x Hx Hx'. apply (proj1 (elem_of_bm_list _ _)) in Hx. apply (proj1 (elem_of_bm_list _ _)) in Hx'.
      set_solver. }
    clear -Hn. induction (rem ++ add) as [|[x delta] l IH]; [cbn; lia|].
    cbn in Hn. inversion Hn as [|? ? Hx Hn']; subst. rewrite filter_cons. cbn.
    case_decide as Hf; [|by apply IH]. subst x. cbn.
    enough (filter (fun fd : N * Qc => fd.1 = f) l = []) as -> by done.
    destruct (filter _ l) as [|[y dy] r] eqn:E; [done|]. exfalso. apply Hx.
    assert ((y, dy) ∈ filter (fun fd : N * Qc => fd.1 = f) l) as Hy by (rewrite E; left).
    apply elem_of_list_filter in Hy as [Hy1 Hy2]. cbn in Hy1. subst y. apply elem_of_list_fmap. by exists (f, dy).
  Qed.

  Lemma best_nonempty d probe top_k jobs f k group check :
    1 <= top_k -> (k, group, check) ∈ jobs -> group ≠ ∅ -> (f ∈ group \/ f ∈ check) ->
    exists x l, (score_jobs leb d probe top_k jobs).2 !! f = Some (x :: l).
  Proof.
    intros Hk1 Hjob Hg Hf. rewrite score_best.
    assert (exists delta, (delta, k) ∈ candidates f (result_of d probe <$> jobs)) as [delta Hd].
    { apply score_candidates. eauto. }
    pose proof (best_of_spec leb Hk top_k (result_of d probe <$> jobs) f) as Hb.
    destruct (best_of leb top_k _ !! f) as [[|x l]|]; [|by eauto|].
    - destruct Hb as [Hne (Hl & _)]. cbn in Hl. destruct (candidates _ _); [done|]. cbn in Hl. lia.
    - rewrite Hb in Hd. by apply elem_of_nil in Hd.
  Qed.

  Lemma best_key d probe top_k jobs f l delta k :
    (score_jobs leb d probe top_k jobs).2 !! f = Some l -> (delta, k) ∈ l ->
    exists group check, (k, group, check) ∈ jobs /\ group ≠ ∅ /\ (f ∈ group \/ f ∈ check).
  Proof.
    rewrite score_best. intros Hl Hin.
    pose proof (best_of_spec leb Hk top_k (result_of d probe <$> jobs) f) as Hb. rewrite Hl in Hb.
    destruct Hb as [_ (_ & _ & rest & Hp & _)]. apply (score_candidates d probe). exists delta.
    rewrite <- Hp. apply elem_of_app. by left.
  Qed.

  (** With room for all candidates every one is kept. *)
  Lemma best_complete d probe top_k jobs f k group check :
    length jobs <= top_k -> (k, group, check) ∈ jobs -> group ≠ ∅ -> (f ∈ group \/ f ∈ check) ->
    exists l delta, (score_jobs leb d probe top_k jobs).2 !! f = Some l /\ (delta, k) ∈ l.
  Proof.
    intros Hk1 Hjob Hg Hf. rewrite score_best.
    assert (exists delta, (delta, k) ∈ candidates f (result_of d probe <$> jobs)) as [delta Hd].
    { apply score_candidates. eauto. }
    pose proof (best_of_spec leb Hk top_k (result_of d probe <$> jobs) f) as Hb.
    pose proof (candidates_length d probe jobs f) as Hlen.
    destruct (best_of leb top_k _ !! f) as [l|].
    - destruct Hb as [Hne (Hl & _ & rest & Hp & _)]. exists l, delta. split; [done|].
      assert (rest = []) as ->.
      { apply nil_length_inv. apply Permutation_length in Hp. rewrite app_length in Hp. lia. }
      rewrite app_nil_r in Hp. by rewrite Hp.
    - rewrite Hb in Hd. by apply elem_of_nil in Hd.
  Qed.
End score.

(** ** The clusters tested *)
Definition add_checks (f : N) (checks : clustering) (cs : list Z) : clustering :=
  foldl (fun checks c => <[c := {[f]} ∪ default ∅ (checks !! c)]> checks) checks cs.

Lemma add_checks_spec f checks cs c x :
  (exists s, add_checks f checks cs !! c = Some s /\ x ∈ s) <->
  ((exists s, checks !! c = Some s /\ x ∈ s) \/ (x = f /\ c ∈ cs)).
Proof.
  revert checks. induction cs as [|c0 cs IH]; intros checks; cbn [add_checks foldl].
  - split; [by left|]. intros [?|[_ ?%elem_of_nil]]; done.
  - unfold add_checks in IH. rewrite IH. destruct (decide (c = c0)) as [->|Hc].
    + rewrite lookup_insert. split.
      * intros [(s & [= <-] & Hx)|[-> Hin]].
        -- apply elem_of_union in Hx as [Hx%elem_of_singleton|Hx]; [right; split; [done|left]|left].
           destruct (checks !! c0) as [s|]; cbn in Hx; [eauto|set_solver].
        -- right. split; [done|by right].
      * intros [(s & Hs & Hx)|[-> Hin]].
        -- left. eexists. split; [done|]. rewrite Hs. cbn. set_solver.
        -- left. eexists. split; [done|]. set_solver.
    + rewrite lookup_insert_ne by done. rewrite elem_of_cons. split; intros [?|[-> ?]]; [by left|right; auto|by left|].
      right. destruct H as [?|?]; done.
Qed.

Lemma add_checks_dom f checks cs : dom (add_checks f checks cs) = dom checks ∪ list_to_set cs.
Proof.
  revert checks. induction cs as [|c0 cs IH]; intros checks; cbn [add_checks foldl]; [cbn; set_solver|].
  unfold add_checks in IH. rewrite IH, dom_insert_L. cbn. set_solver.
Qed.

Definition group_jobs (cf : clustering) (movable : gset N) (order : list Z) (batches : nat) :=
  (fun g => (g, ⋃ ((fun c => default ∅ (cf !! c)) <$> g), movable)) <$>
    ((fun i => z_list (list_to_set (stride i batches order))) <$> seq 0 batches).

Lemma group_checks_spec d probe cf movable order batches top_k c f : batches <> 0 ->
  ((exists s, group_checks d probe cf movable order batches top_k !! c = Some s /\ f ∈ s) <->
   f ∈ movable /\ exists l delta g,
      (score_jobs zlist_leb d probe top_k (group_jobs cf movable order batches)).2 !! f = Some l /\
      (delta, g) ∈ l /\ c ∈ g) /\
  (c ∈ dom (group_checks d probe cf movable order batches top_k) ->
     exists s f, group_checks d probe cf movable order batches top_k !! c = Some s /\ f ∈ s).
Proof.
  intros Hb. unfold group_checks. rewrite (proj2 (Nat.eqb_neq batches 0) Hb).
  fold (group_jobs cf movable order batches).
  set (best := (score_jobs zlist_leb d probe top_k (group_jobs cf movable order batches)).2).
  set (P := fun (r : clustering) (m : gmap N (list (Qc * list Z))) =>
    (forall c f, (exists s, r !! c = Some s /\ f ∈ s) <->
       f ∈ movable /\ exists l delta g, m !! f = Some l /\ (delta, g) ∈ l /\ c ∈ g) /\
    (forall c, c ∈ dom r -> exists s f, r !! c = Some s /\ f ∈ s)).
  match goal with |- context [map_fold ?h ?e best] => cut (P (map_fold h e best) best) end.
  { intros [H1 H2]. split; [apply H1|apply H2]. }
  apply (map_fold_ind P).
  - split; [|by intros c0; rewrite dom_empty_L; intros ?%elem_of_empty]. intros c0 f0. rewrite lookup_empty. split.
    + by intros (? & ? & _).
    + intros (_ & l & delta & g & H & _). by rewrite lookup_empty in H.
  - intros f1 found m r Hf1 [IH1 IH2].
    assert (forall c0 f0, (exists l delta g, <[f1:=found]> m !! f0 = Some l /\ (delta, g) ∈ l /\ c0 ∈ g) <->
      (exists l delta g, m !! f0 = Some l /\ (delta, g) ∈ l /\ c0 ∈ g) \/
      (f0 = f1 /\ c0 ∈ concat ((fun x : Qc * list Z => x.2) <$> found))) as Hins.
    { intros c0 f0. destruct (decide (f0 = f1)) as [->|Hne].
      - rewrite lookup_insert. split.
        + intros (l & delta & g & [= <-] & Hin & Hc). right. split; [done|]. apply elem_of_concat.
          exists g. split; [done|]. apply elem_of_list_fmap. by exists (delta, g).
        + intros [(l & delta & g & H & _)|[_ Hc]]; [congruence|].
          apply elem_of_concat in Hc as (g & Hc & Hg). apply elem_of_list_fmap in Hg as ([delta g'] & -> & Hin).
          by exists found, delta, g'.
      - rewrite lookup_insert_ne by done. split; [by left|]. intros [?|[? _]]; done. }
    case_bool_decide as Hm1.
    + fold (add_checks f1 r (concat ((fun x : Qc * list Z => x.2) <$> found))). split.
      * intros c0 f0. rewrite add_checks_spec, Hins, (IH1 c0 f0). split.
        -- intros [[? ?]|[-> ?]]; [auto|]. auto.
        -- intros [? [?|[-> ?]]]; auto.
      * intros c0. rewrite add_checks_dom. intros [Hc|Hc]%elem_of_union.
        -- destruct (IH2 c0 Hc) as (s & f0 & Hs & Hf0).
           destruct (proj2 (add_checks_spec f1 r (concat ((fun x : Qc * list Z => x.2) <$> found)) c0 f0)) as (s' & ? & ?); eauto.
        -- apply elem_of_list_to_set in Hc.
           destruct (proj2 (add_checks_spec f1 r (concat ((fun x : Qc * list Z => x.2) <$> found)) c0 f1)) as (s' & ? & ?); eauto.
    + split; [|done]. intros c0 f0. rewrite Hins, (IH1 c0 f0). split.
      * intros [? ?]. auto.
      * intros [? [?|[-> ?]]]; [auto|done].
Qed.

(** Every feature to move is checked against some cluster with a feature. *)
Definition checks_ok (cf : clustering) (movable : gset N) (checks : clustering) : Prop :=
  dom checks ⊆ dom cf /\
  forall f, f ∈ movable -> exists c s t, checks !! c = Some s /\ f ∈ s /\ cf !! c = Some t /\ t ≠ ∅.

Lemma dense_checks_ok cf movable order : order ≡ₚ z_list (dom cf) ->
  movable ⊆ features_in cf ->
  checks_ok cf movable (list_to_map ((fun c => (c, movable)) <$> order)) /\
  dom (list_to_map ((fun c => (c, movable)) <$> order) : clustering) = dom cf.
Proof.
  intros Hp Hm. set (checks := list_to_map _ : clustering).
  assert (forall c, checks !! c = if decide (c ∈ dom cf) then Some movable else None) as Hl.
  { intros c. unfold checks. case_decide as Hc.
    - apply elem_of_list_to_map_1.
      + rewrite <- list_fmap_compose. cbn. rewrite list_fmap_id, Hp. apply NoDup_z_list.
      + apply elem_of_list_fmap. exists c. split; [done|]. by rewrite Hp, elem_of_z_list.
    - apply not_elem_of_list_to_map_1. rewrite <- list_fmap_compose. cbn. rewrite list_fmap_id, Hp.
      by rewrite elem_of_z_list. }
  assert (dom checks = dom cf) as Hd.
  { apply set_eq. intros c. rewrite elem_of_dom, Hl. case_decide; [by split; eauto|]. split; [by intros []|done]. }
  split; [|done]. split; [by rewrite Hd|]. intros f Hf.
  pose proof (Hm f Hf) as (c & t & Ht & Hft)%elem_of_features_in.
  exists c, movable, t. rewrite Hl, decide_True by (by apply elem_of_dom_2 in Ht). set_solver.
Qed.

Lemma elem_of_group cf movable order batches i c : i < batches -> c ∈ stride i batches order ->
  exists g fs, (g, fs, movable) ∈ group_jobs cf movable order batches /\ c ∈ g /\
    (forall t, cf !! c = Some t -> t ⊆ fs).
Proof.
  intros Hi Hc. set (g := z_list (list_to_set (stride i batches order))).
  exists g, (⋃ ((fun c => default ∅ (cf !! c)) <$> g)). split_and!.
  - unfold group_jobs. apply elem_of_list_fmap. exists g. split; [done|].
    apply elem_of_list_fmap. exists i. split; [done|]. apply elem_of_seq. lia.
  - unfold g. by rewrite elem_of_z_list, elem_of_list_to_set.
  - intros t Ht x Hx. apply elem_of_union_list. exists t. split; [|done]. apply elem_of_list_fmap.
    exists c. rewrite Ht. split; [done|]. unfold g. by rewrite elem_of_z_list, elem_of_list_to_set.
Qed.

Lemma stride_cover {A} (order : list A) batches c : batches <> 0 -> c ∈ order ->
  exists i, i < batches /\ c ∈ stride i batches order.
Proof.
  intros Hb Hc. rewrite <- (stride_partition batches order) in Hc by lia.
  apply elem_of_concat in Hc as (l & Hc & Hl). apply elem_of_list_fmap in Hl as (i & -> & Hi).
  apply elem_of_seq in Hi. exists i. split; [lia|done].
Qed.

Lemma stride_sub {A} (order : list A) batches i c : i < batches -> c ∈ stride i batches order -> c ∈ order.
Proof.
  intros Hi Hc. rewrite <- (stride_partition batches order) by lia. apply elem_of_concat.
  exists (stride i batches order). split; [done|]. apply elem_of_list_fmap. exists i.
  split; [done|]. apply elem_of_seq. lia.
Qed.

Lemma group_job_inv cf movable order batches g fs check :
  (g, fs, check) ∈ group_jobs cf movable order batches ->
  exists i, i < batches /\ (forall c, c ∈ g <-> c ∈ stride i batches order) /\ check = movable /\
    (forall x, x ∈ fs -> exists c t, c ∈ g /\ cf !! c = Some t /\ x ∈ t).
Proof.
  unfold group_jobs. intros Hin. apply elem_of_list_fmap in Hin as (g' & [= -> -> ->] & Hg).
  apply elem_of_list_fmap in Hg as (i & -> & Hi). apply elem_of_seq in Hi. exists i. split; [lia|]. split.
  { intros c. by rewrite elem_of_z_list, elem_of_list_to_set. }
  split; [done|]. intros x Hx. apply elem_of_union_list in Hx as (t & Ht & Hx).
  apply elem_of_list_fmap in Ht as (c & -> & Hc). exists c. destruct (cf !! c) as [t|]; cbn in Hx; [|set_solver].
  eauto.
Qed.

Lemma group_checks_ok d probe cf movable order batches top_k : order ≡ₚ z_list (dom cf) ->
  movable ⊆ features_in cf -> batches <> 0 -> 1 <= top_k ->
  checks_ok cf movable (group_checks d probe cf movable order batches top_k) /\
  (batches <= top_k -> movable ≠ ∅ -> (forall c t, cf !! c = Some t -> t ≠ ∅) ->
     dom (group_checks d probe cf movable order batches top_k) = dom cf).
Proof.
  intros Hp Hm Hb Hk.
  assert (forall c, c ∈ order <-> c ∈ dom cf) as Hord. { intros c. by rewrite Hp, elem_of_z_list. }
  assert (dom (group_checks d probe cf movable order batches top_k) ⊆ dom cf) as Hsub.
  { intros c Hc. destruct (group_checks_spec d probe cf movable order batches top_k c 0%N Hb) as [_ H].
    destruct (H Hc) as (s & f & Hs & Hf). clear H.
    destruct (group_checks_spec d probe cf movable order batches top_k c f Hb) as [H _].
    destruct (proj1 H (ex_intro _ s (conj Hs Hf))) as (_ & l & delta & g & Hl & Hin & Hcg).
    destruct (best_key zlist_leb order_zlist _ _ _ _ _ _ _ _ Hl Hin) as (fs & check & Hjob & _).
    apply group_job_inv in Hjob as (i & Hi & Hg & _). apply Hord. apply (stride_sub order batches i); [done|].
    by apply Hg. }
  split.
  - split; [done|]. intros f Hf. pose proof (Hm f Hf) as (c0 & t0 & Ht0 & Hft0)%elem_of_features_in.
    destruct (stride_cover order batches c0 Hb) as (i & Hi & Hc0). { apply Hord. by apply elem_of_dom_2 in Ht0. }
    destruct (elem_of_group cf movable order batches i c0 Hi Hc0) as (g0 & fs0 & Hjob0 & Hcg0 & Hsub0).
    destruct (best_nonempty zlist_leb order_zlist d probe top_k (group_jobs cf movable order batches) f g0 fs0 movable Hk Hjob0)
      as ([delta g] & l & Hl); [specialize (Hsub0 _ Ht0); set_solver|by right|].
    destruct (best_key zlist_leb order_zlist _ _ _ _ _ _ delta g Hl) as (fs & check & Hjob & Hne & _); [left|].
    apply group_job_inv in Hjob as (i' & Hi' & Hg & _ & Hfs).
    apply set_choose_L in Hne as [x Hx]. destruct (Hfs x Hx) as (c & t & Hcg & Ht & Hxt).
    destruct (group_checks_spec d probe cf movable order batches top_k c f Hb) as [H _].
    destruct (proj2 H) as (s & Hs & Hfs').
    { split; [done|]. exists ((delta, g) :: l), delta, g. split; [done|]. split; [left|done]. }
    exists c, s, t. split_and!; [done|done|done|]. set_solver.
  - intros Hbk Hne Hall. apply set_eq. intros c. split; [apply Hsub|]. intros Hc.
    apply set_choose_L in Hne as [f Hf].
    destruct (stride_cover order batches c Hb) as (i & Hi & Hci). { by apply Hord. }
    destruct (elem_of_group cf movable order batches i c Hi Hci) as (g & fs & Hjob & Hcg & Hsubg).
    apply elem_of_dom in Hc as [t Ht].
    destruct (best_complete zlist_leb order_zlist d probe top_k (group_jobs cf movable order batches) f g fs movable)
      as (l & delta & Hl & Hin); [|done| |by right|].
    + unfold group_jobs. by rewrite !fmap_length, seq_length.
    + specialize (Hsubg _ Ht). specialize (Hall _ _ Ht). apply set_choose_L in Hall as [y Hy]. set_solver.
    + destruct (group_checks_spec d probe cf movable order batches top_k c f Hb) as [H _].
      destruct (proj2 H) as (s & Hs & _).
      { split; [done|]. exists l, delta, g. done. }
      by apply elem_of_dom_2 in Hs.
Qed.

(** Every cluster gets an objective. *)
Definition all_tested (batches top_k : nat) (cf : clustering) : Prop :=
  batches = 0 \/ (batches <= top_k /\ forall c t, cf !! c = Some t -> t ≠ ∅).

Lemma find_best_moves_ok d probe cf movable batches top_k g :
  movable ≠ ∅ -> movable ⊆ features_in cf -> (batches = 0 \/ 1 <= top_k) ->
  exists objectives best g1,
    find_best_moves d probe cf movable batches top_k g = Ok (objectives, best, g1) /\
    (forall f, f ∈ movable -> exists delta to l, best !! f = Some ((delta, to) :: l) /\ to ∈ dom cf) /\
    (all_tested batches top_k cf -> dom objectives = dom cf).
Proof.
  intros Hne Hm Hk. unfold find_best_moves.
  pose proof (py_shuffle_perm (z_list (dom cf)) g) as Hp.
  destruct (py_shuffle (z_list (dom cf)) g) as [order g1]. cbn [fst] in Hp.
  cbv zeta. rewrite (bool_decide_eq_false_2 (movable = ∅) Hne).
  set (b := effective_batches batches (length order)).
  set (checks := group_checks d probe cf movable order b top_k).
  assert (checks_ok cf movable checks /\ (all_tested batches top_k cf -> dom checks = dom cf)) as [[Hd Hc] Ht].
  { unfold checks. destruct (decide (b = 0)) as [->|Hb].
    - cbn [group_checks Nat.eqb]. destruct (dense_checks_ok cf movable order Hp Hm). auto.
    - assert (batches <> 0 /\ b = batches) as [Hb0 Hbb].
      { unfold b, effective_batches in *. destruct (_ <? _); lia. }
      destruct Hk as [?|Hk]; [done|].
      destruct (group_checks_ok d probe cf movable order b top_k Hp Hm Hb Hk) as [H1 H2]. split; [done|].
      intros [?|[H3 H4]]; [done|]. apply H2; [lia|done|done]. }
  rewrite bool_decide_true by done.
  set (jobs := (fun kv : Z * gset N => (kv.1, default ∅ (cf !! kv.1), kv.2)) <$> map_to_list checks).
  destruct (score_jobs Z.leb d probe 1 jobs) as [objectives best] eqn:Es.
  eexists _, _, _. split; [reflexivity|]. split.
  - intros f Hf. destruct (Hc f Hf) as (c & s & t & Hs & Hfs & Ht' & Htne).
    assert ((c, t, s) ∈ jobs) as Hjob.
    { apply elem_of_list_fmap. exists (c, s). cbn. rewrite Ht'. split; [done|]. by apply elem_of_map_to_list. }
    destruct (best_nonempty Z.leb order_Z d probe 1 jobs f c t s) as ([delta to] & l & Hl); [lia|done|done|by right|].
    rewrite Es in Hl. cbn in Hl. exists delta, to, l. split; [done|].
    destruct (best_key Z.leb order_Z d probe 1 jobs f ((delta, to) :: l) delta to) as (gr & ch & Hj & _); [by rewrite Es|left|].
    apply elem_of_list_fmap in Hj as ([c' s'] & [= -> _ _] & Hj). apply elem_of_map_to_list in Hj.
    apply Hd. by apply elem_of_dom_2 in Hj.
  - intros Hall. rewrite <- (Ht Hall). apply set_eq. intros c. rewrite dom_list_to_map_L, elem_of_list_to_set.
    pose proof (score_objectives Z.leb d probe 1 jobs) as Ho. rewrite Es in Ho. cbn [fst] in Ho.
    rewrite Ho. unfold jobs. rewrite <- list_fmap_compose, elem_of_dom. split.
    + intros ([c' s] & -> & H)%elem_of_list_fmap. apply elem_of_map_to_list in H. by eexists.
    + intros [s Hs]. apply elem_of_list_fmap. exists (c, s). split; [done|]. by apply elem_of_map_to_list.
Qed.

(** ** The pass returns *)
Lemma consider_ok m dissolve possible best movable p g f delta to l :
  cl_ok (p_cf p) (p_fc p) -> f ∈ movable -> f ∈ dom (p_fc p) ->
  (forall x, x ∈ possible <-> x ∈ dom (p_cf p) /\ x ∉ dissolve) ->
  (dissolve = ∅ \/ possible <> []) ->
  best !! f = Some ((delta, to) :: l) -> to ∈ dom (p_cf p) ->
  exists p' g', consider m dissolve possible best (p, g) f = Ok (p', g') /\
    pass_step m dissolve movable p p' /\
    (forall c, p_fc p' !! f = Some c -> c ∉ dissolve).
Proof.
  intros Hok Hm [from Hf]%elem_of_dom Hposs Hdis Hbest Hto.
  cut (exists p' g', consider m dissolve possible best (p, g) f = Ok (p', g') /\
        (forall c, p_fc p' !! f = Some c -> c ∉ dissolve)).
  { intros (p' & g' & Hr & Hd). exists p', g'. split_and!; [done| |done].
    eapply consider_step; [done|done| |done]. intros x Hx. by apply Hposs in Hx as [_ ?]. }
  assert (forall to', from ≠ to' -> to' ∈ dom (p_cf p) -> to' ∉ dissolve ->
     (from ∈ dissolve \/ exists s, p_cf p !! from = Some s /\ size s <> m) ->
     forall g2 : rng, exists p' g', rbind (move f from to' (S (p_possible p)) p) (fun p' => Ok (p', g2)) = Ok (p', g') /\
        (forall c, p_fc p' !! f = Some c -> c ∉ dissolve)) as Hmove.
  { intros to' Hne Hd Hnd Hc g2.
    destruct (move_pass_step m dissolve movable f from to' (S (p_possible p)) p Hok Hf Hne Hd Hm Hnd Hc)
      as (p' & -> & _ & Hfc). cbn [rbind]. exists p', g2. split; [done|].
    intros c. rewrite Hfc, lookup_insert. by intros [= <-]. }
  unfold consider. rewrite Hbest, Hf. destruct (rand_coin g) as [accept g1].
  case_bool_decide as Hfd.
  - case_bool_decide as Htd.
    + destruct Hdis as [->|Hpne]; [set_solver|].
      destruct (py_choice_ok possible g1 Hpne) as (to' & Hc & Hin).
      destruct (py_choice possible g1) as [r g2]. cbn in Hc. subst r. cbn [rbind].
      apply Hposs in Hin as [Hin Hnd]. apply Hmove; [by intros ->|done|done|by left].
    + apply Hmove; [by intros ->|done|done|by left].
  - case_bool_decide as Htd. { exists p, g1. split; [done|]. intros c. rewrite Hf. by intros [= <-]. }
    case_bool_decide as Heq. { exists p, g1. split; [done|]. intros c. rewrite Hf. by intros [= <-]. }
    destruct (proj1 (Hok f from) Hf) as (s & Hs & _). rewrite (proj2 (py_get_ok _ _ _) Hs). cbn [rbind].
    destruct (size s =? m) eqn:Esz. { exists p, g1. split; [done|]. intros c. rewrite Hf. by intros [= <-]. }
    apply Nat.eqb_neq in Esz. destruct accept.
    + apply Hmove; [done|done|done|]. right. eauto.
    + eexists _, g1. split; [reflexivity|]. cbn [p_fc]. intros c. rewrite Hf. by intros [= <-].
Qed.

Lemma consider_fold_ok m dissolve possible best movable fs p g :
  cl_ok (p_cf p) (p_fc p) -> (forall f, f ∈ fs -> f ∈ movable) -> movable ⊆ dom (p_fc p) ->
  (forall x, x ∈ possible <-> x ∈ dom (p_cf p) /\ x ∉ dissolve) ->
  (dissolve = ∅ \/ possible <> []) ->
  (forall f, f ∈ movable -> exists delta to l, best !! f = Some ((delta, to) :: l) /\ to ∈ dom (p_cf p)) ->
  exists p' g', rfold (consider m dissolve possible best) fs (p, g) = Ok (p', g') /\
    pass_step m dissolve movable p p' /\
    (forall f c, f ∈ fs -> p_fc p' !! f = Some c -> c ∉ dissolve).
Proof.
  revert p g. induction fs as [|f fs IH]; intros p g Hok Hfs Hm Hposs Hdis Hbest.
  - exists p, g. split; [done|]. split; [by apply pass_step_refl|]. by intros f c ?%elem_of_nil.
  - destruct (Hbest f ltac:(apply Hfs; left)) as (delta & to & l & Hb & Hto).
    destruct (consider_ok m dissolve possible best movable p g f delta to l Hok) as (p1 & g1 & H1 & S1 & D1);
      [apply Hfs; left|apply Hm, Hfs; left|done|done|done|done|].
    pose proof (ps_ev _ _ _ _ _ S1) as [E1 E2 E3 E4].
    destruct (IH p1 g1) as (p2 & g2 & H2 & S2 & D2).
    + done.
    + intros x Hx. apply Hfs. by right.
    + by rewrite E3.
    + by rewrite E1.
    + done.
    + by rewrite E1.
    + exists p2, g2. cbn [rfold]. rewrite H1. cbn [rbind]. split; [done|]. split; [by eapply pass_step_trans|].
      intros x c [->|Hx]%elem_of_cons Hc; [|by eapply D2].
      intros Hcd. apply (D1 c); [|done]. by eapply (ps_dissolve _ _ _ _ _ S2).
Qed.

Lemma drop_dissolved_ok dissolve cf : (forall c, c ∈ dissolve -> cf !! c = Some ∅) ->
  exists cf', drop_dissolved dissolve cf = Ok cf'.
Proof.
  intros H. unfold drop_dissolved.
  assert (forall l cf0, NoDup l -> (forall c, c ∈ l -> cf0 !! c = Some ∅) ->
    exists cf', rfold (fun (cf : clustering) c => rbind (py_get cf c) (fun s =>
      if bool_decide (s = ∅) then Ok (delete c cf) else Err ValueError)) l cf0 = Ok cf') as Hgen.
  { clear. induction l as [|x l IH]; intros cf0 Hn Hl; [by eexists|].
    cbn [rfold]. rewrite (proj2 (py_get_ok _ _ _) (Hl x ltac:(left))). cbn [rbind].
    rewrite bool_decide_true by done. cbn [rbind]. inversion Hn as [|? ? Hx Hn']; subst. apply IH; [done|].
    intros c Hc. rewrite lookup_delete_ne by (by intros ->). apply Hl. by right. }
  apply Hgen; [apply NoDup_z_list|]. intros c Hc. apply H. by apply elem_of_z_list.
Qed.

Lemma size_list_to_set_le (l : list Z) : size (list_to_set l : gset Z) <= length l.
Proof.
  induction l as [|x l IH]; [done|]. cbn.
  assert (size ({[x]} ∪ list_to_set l : gset Z) <= size ({[x]} : gset Z) + size (list_to_set l : gset Z)) as H.
  { rewrite size_union_alt. pose proof (subseteq_size (list_to_set l ∖ {[x]} : gset Z) (list_to_set l) ltac:(set_solver)). lia. }
  rewrite size_singleton in H. lia.
Qed.

Lemma lowest_ok objectives cs n : (forall c, c ∈ cs -> c ∈ dom objectives) ->
  exists s, lowest objectives cs n = Ok s /\ (forall c, c ∈ s -> c ∈ cs) /\ size s <= n.
Proof.
  intros H. unfold lowest.
  assert (exists l, rtraverse (fun c => rmap (fun o => (c, o)) (py_get objectives c)) cs = Ok l /\ l.*1 = cs) as (l & -> & Hl).
  { induction cs as [|c cs IH]; [by exists []|].
    destruct (py_get_dom objectives c (H c ltac:(left))) as (o & Ho & _).
    destruct IH as (l & E & Hl). { intros x Hx. apply H. by right. }
    exists ((c, o) :: l). cbn [rtraverse]. rewrite Ho. cbn [rmap rbind]. rewrite E. cbn. by rewrite Hl. }
  cbn [rbind]. eexists. split; [reflexivity|]. split.
  - intros c Hc. apply elem_of_list_to_set in Hc. rewrite <- Hl.
    assert (c ∈ (merge_sort objective_le l).*1) as Hc'.
    { rewrite <- (take_drop n (merge_sort objective_le l).*1). apply elem_of_app. by left. }
    by rewrite merge_sort_Permutation in Hc'.
  - etrans; [apply size_list_to_set_le|]. rewrite take_length. lia.
Qed.

(** ** The loop returns *)
Record loop_ready (a : refine_args) (batches : nat) (frozen : gset Z) (movable : gset N)
    (cf : clustering) (fc : gmap N Z) (order : list N) (td : nat) : Prop := LoopReady {
  ry_ok : cl_ok cf fc;
  ry_movable : movable ⊆ dom fc;
  ry_some : movable ≠ ∅;
  ry_order : order ≡ₚ elements movable;
  ry_frozen : forall c s f, cf !! c = Some s -> c ∉ frozen -> f ∈ s -> f ∈ movable;
  ry_topk : batches = 0 \/ 1 <= r_top_k a;
  ry_td : td = 0 \/ (all_tested batches (r_top_k a) cf /\ (batches = 0 \/ r_min_features a = 1) /\ td < size cf) }.

Lemma refine_loop_ok d a batches frozen movable per n cf fc order td g :
  loop_ready a batches frozen movable cf fc order td ->
  exists cf' g', refine_loop d a batches frozen movable per n cf fc order td g = Ok (cf', g').
Proof.
  revert cf fc order td g. induction n as [|n IH]; intros cf fc order td g R; [by eexists _, _|].
  cbn [refine_loop]. destruct R as [Hok Hmov Hsome Hord Hfroz Htopk Htd].
  pose proof (cl_ok_features cf fc Hok) as Hfeat.
  destruct (find_best_moves_ok d (r_probe a) cf movable batches (r_top_k a) g Hsome) as (objectives & best & g1 & -> & Hbest & Hobj);
    [by rewrite <- Hfeat|done|]. cbn [rbind].
  set (nd := min td per).
  assert (exists dissolve, (if td =? 0 then Ok ∅ else lowest objectives (z_list (dom cf ∖ frozen)) nd) = Ok dissolve /\
    (forall c, c ∈ dissolve -> c ∈ dom cf /\ c ∉ frozen) /\ size dissolve <= nd) as (dissolve & -> & Hdis & Hdsz).
  { destruct (td =? 0) eqn:E; [exists ∅; split; [done|]; split; [set_solver|rewrite size_empty; lia]|].
    apply Nat.eqb_neq in E. destruct Htd as [?|(Hall & _ & _)]; [done|].
    destruct (lowest_ok objectives (z_list (dom cf ∖ frozen)) nd) as (s & Hs & Hin & Hsz).
    { intros c. rewrite elem_of_z_list, (Hobj Hall). set_solver. }
    exists s. split; [done|]. split; [|done]. intros c Hc. apply Hin, elem_of_z_list in Hc. set_solver. }
  cbn [rbind].
  pose proof (py_shuffle_perm order g1) as Hp. destruct (py_shuffle order g1) as [order' g2]. cbn [fst] in Hp.
  rewrite Hord in Hp.
  assert (dissolve = ∅ \/ z_list (dom cf ∖ dissolve) <> []) as Hposs.
  { destruct (decide (td = 0)) as [->|Htd0].
    - left. unfold nd in Hdsz. apply leibniz_equiv, size_empty_inv. lia.
    - right. destruct Htd as [?|(_ & _ & Hlt)]; [done|]. intros Hnil.
      assert (dom cf ⊆ dissolve) as Hsub.
      { intros c Hc. destruct (decide (c ∈ dissolve)) as [|Hn]; [done|].
        assert (c ∈ z_list (dom cf ∖ dissolve)) as Hx by (rewrite elem_of_z_list; set_solver).
        rewrite Hnil in Hx. by apply elem_of_nil in Hx. }
      apply subseteq_size in Hsub. rewrite size_dom in Hsub. unfold nd in Hdsz. lia. }
  destruct (consider_fold_ok (r_min_features a) dissolve (z_list (dom cf ∖ dissolve)) best movable order' (Pass cf fc 0) g2)
    as (p & g3 & -> & [[E1 E2 E3 E4] Hmin Hdd] & Hout); cbn [p_cf p_fc] in *; [done| |done| |done|done|].
  { intros f Hf. rewrite Hp in Hf. by apply elem_of_elements in Hf. }
  { intros x. rewrite elem_of_z_list. set_solver. }
  cbn [rbind].
  assert (forall c s f, p_cf p !! c = Some s -> c ∉ frozen -> f ∈ s -> f ∈ movable) as Hfroz'.
  { intros c s f Hs Hc Hf. destruct (decide (f ∈ movable)) as [|Hn]; [done|].
    assert (p_fc p !! f = Some c) as Hfc by (apply E2; eauto). rewrite E4 in Hfc by done.
    apply Hok in Hfc as (s' & Hs' & Hf'). by eapply Hfroz. }
  destruct (drop_dissolved_ok dissolve (p_cf p)) as [cf' Hdrop].
  { intros c Hc. destruct (Hdis c Hc) as [Hcd Hcf]. rewrite <- E1 in Hcd. apply elem_of_dom in Hcd as [s Hs].
    rewrite Hs. f_equal. apply set_eq. intros f. split; [|set_solver]. intros Hf. exfalso.
    assert (f ∈ movable) as Hfm by (by eapply Hfroz').
    eapply (Hout f c); [|apply E2; eauto|done]. rewrite Hp. by apply elem_of_elements. }
  rewrite Hdrop. cbn [rbind]. destruct (drop_dissolved_spec _ _ _ Hdrop) as [Hempty Hlook].
  assert (dom cf' = dom cf ∖ dissolve) as Hdom'.
  { apply set_eq. intros c. rewrite elem_of_difference, <- E1, !elem_of_dom, Hlook. case_decide; [|tauto].
    split; [by intros []|]. intros [_ ?]. done. }
  assert (exists cf2 g4, refine_loop d a batches frozen movable per n cf' (p_fc p) order' (td - nd) g3 = Ok (cf2, g4)) as Hcont.
  { apply IH. split.
    - intros f c. rewrite (E2 f c), Hlook. destruct (decide (c ∈ dissolve)) as [Hc|Hc]; [|reflexivity].
      split; [|by intros (? & ? & _)]. intros (s & Hs & Hf). rewrite (Hempty c Hc) in Hs. injection Hs as <-. set_solver.
    - by rewrite E3.
    - done.
    - done.
    - intros c s f. rewrite Hlook. case_decide; [done|]. apply Hfroz'.
    - done.
    - destruct (decide (td - nd = 0)) as [|Hnz]; [by left|]. right.
      destruct Htd as [->|(Hall & Hmin1 & Hlt)]; [lia|]. split_and!.
      + destruct Hall as [?|[Hb Hne]]; [by left|]. destruct (decide (batches = 0)) as [|Hb0]; [by left|].
        right. split; [done|]. destruct Hmin1 as [?|Hm1]; [done|].
        intros c t Ht. rewrite Hlook in Ht. case_decide as Hc; [done|].
        assert (c ∈ dom cf) as [s Hs]%elem_of_dom. { rewrite <- E1. by apply elem_of_dom_2 in Ht. }
        specialize (Hmin c s t Hc Hs Ht). rewrite Hm1 in Hmin. intros ->. rewrite size_empty in Hmin.
        assert (size s <> 0) as Hsz. { rewrite size_0. by apply (Hne c). } lia.
      + done.
      + rewrite <- size_dom, Hdom'. rewrite size_difference by (intros c Hc; by apply Hdis).
        rewrite size_dom. unfold nd in *. lia. }
  case_bool_decide.
  - rewrite (proj2 (Nat.eqb_neq (size movable) 0)) by (by rewrite size_0).
    destruct (small_share _ _ _); [by eexists _, _|]. done.
  - done.
Qed.

(** A feature that may be moved. *)
Lemma refine_feature_groups_ok d a batches cf pinned target g :
  disjoint_clusters cf -> (batches = 0 \/ 1 <= r_top_k a) ->
  (size cf <= 1 /\ aim cf target = Z.of_nat (size cf) \/ features_in cf ∖ pinned ≠ ∅) ->
  ((Z.of_nat (size cf) <= aim cf target)%Z \/
   ((1 <= aim cf target)%Z /\ all_tested batches (r_top_k a) cf /\ (batches = 0 \/ r_min_features a = 1))) ->
  exists cf2 new g2, refine_feature_groups d a batches cf pinned target g = Ok (cf2, new, g2).
Proof.
  intros Hd Htopk Hmov Htgt. unfold refine_feature_groups. fold (aim cf target). fold (max_id (dom cf)).
  destruct (Z.of_nat (size cf) =? 0)%Z eqn:E0; [by eexists _, _, _|].
  destruct ((Z.of_nat (size cf) =? 1)%Z && (aim cf target =? 1)%Z) eqn:E1; [by eexists _, _, _|].
  destruct Hmov as [[Hs Ha]|Hmov].
  { exfalso. apply Z.eqb_neq in E0. apply andb_false_iff in E1. rewrite !Z.eqb_neq in E1. lia. }
  assert (cf ≠ ∅) as Hne. { intros ->. by rewrite map_size_empty in E0. }
  cbv zeta. set (new' := z_range (max_id (dom cf) + 1) (aim cf target - Z.of_nat (size cf))).
  assert (forall x, x ∈ new' -> x ∉ dom cf) as Hfresh.
  { intros x Hx Hin. apply max_id_ge in Hin. unfold new' in Hx. apply elem_of_z_range in Hx. lia. }
  pose proof (feature_map_ok cf Hd) as Hok.
  destruct (split_all_spec pinned new' cf (feature_map cf) g ltac:(by left) Hok (NoDup_z_range _ _) Hfresh)
    as (cf1 & fc1 & g1 & Esp & [S1 S2 S3 S4]). rewrite Esp. cbn [rbind].
  assert (Z.of_nat (size cf1) = Z.of_nat (size cf) + Z.of_nat (length new'))%Z as Hsz.
  { rewrite <- !size_dom, S2. rewrite size_union.
    - rewrite size_list_to_set by apply NoDup_z_range. lia.
    - intros x Hx Hx'. apply elem_of_list_to_set in Hx'. by apply (Hfresh x). }
  unfold new' in Hsz at 1. rewrite length_z_range in Hsz.
  match goal with |- context [refine_loop ?d0 ?a0 ?b0 ?fr ?mv ?per ?n ?c ?f ?o ?t ?g0] =>
    destruct (refine_loop_ok d0 a0 b0 fr mv per n c f o t g0) as (cf2 & g2 & ->) end.
  2:{ cbn [rbind]. by eexists _, _, _. }
  split.
  - done.
  - rewrite S3, (cl_ok_features _ _ Hok). set_solver.
  - done.
  - done.
  - intros c s f Hs Hc Hf. apply elem_of_difference. assert (fc1 !! f = Some c) as Hfc by (apply S1; eauto).
    split.
    + rewrite <- (cl_ok_features _ _ Hok), <- S3. by apply elem_of_dom_2 in Hfc.
    + intros Hpin. apply Hc. rewrite S4 in Hfc by done. apply Hok in Hfc as (s0 & Hs0 & Hf0).
      apply elem_of_dom. exists s0. apply map_filter_lookup_Some. split; [done|]. cbn. set_solver.
  - done.
  - destruct Htgt as [Hge|(H1 & H2 & H3)]; [left; lia|].
    destruct (decide (Z.of_nat (size cf) <= aim cf target)%Z); [left; lia|]. right.
    assert (new' = []) as Hnil. { apply nil_length_inv. unfold new'. rewrite length_z_range. lia. }
    rewrite Hnil in Esp. cbn in Esp. injection Esp as <- _ _. split_and!; [done|done|lia].
Qed.
