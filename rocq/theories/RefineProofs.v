(** RefineProofs.v: the clustering during refinement. *)
From Verif Require Export ScoreProofs ClusterProofs.

(** [fc] is the inverse of [cf]: every feature is in exactly one cluster. *)
Definition cl_ok (cf : clustering) (fc : gmap N Z) : Prop :=
  forall f c, fc !! f = Some c <-> exists s, cf !! c = Some s /\ f ∈ s.

Lemma py_get_ok {A} (m : gmap Z A) k x : py_get m k = Ok x <-> m !! k = Some x.
Proof. unfold py_get. destruct (m !! k); split; congruence. Qed.
Lemma py_get_dom {A} (m : gmap Z A) k : k ∈ dom m -> exists x, py_get m k = Ok x /\ m !! k = Some x.
Proof. intros [x Hx]%elem_of_dom. exists x. by rewrite py_get_ok. Qed.

Lemma elem_of_features_in cf f : f ∈ features_in cf <-> exists c s, cf !! c = Some s /\ f ∈ s.
Proof.
  unfold features_in. rewrite elem_of_union_list. split.
  - intros (s & Hs & Hf). apply elem_of_list_fmap in Hs as ([c s'] & -> & Hs).
    apply elem_of_map_to_list in Hs. eauto.
  - intros (c & s & Hc & Hf). exists s. split; [|done]. apply elem_of_list_fmap.
    exists (c, s). split; [done|]. by apply elem_of_map_to_list.
Qed.

(** ** One pass over the features *)
Record evolves (movable : gset N) (cf : clustering) (fc : gmap N Z)
    (cf' : clustering) (fc' : gmap N Z) : Prop := Evolves {
  ev_dom : dom cf' = dom cf;
  ev_ok : cl_ok cf' fc';
  ev_features : dom fc' = dom fc;
  ev_fixed : forall f, f ∉ movable -> fc' !! f = fc !! f }.

Lemma evolves_refl movable cf fc : cl_ok cf fc -> evolves movable cf fc cf fc.
Proof. by split. Qed.
Lemma evolves_trans movable cf1 fc1 cf2 fc2 cf3 fc3 :
  evolves movable cf1 fc1 cf2 fc2 -> evolves movable cf2 fc2 cf3 fc3 -> evolves movable cf1 fc1 cf3 fc3.
Proof.
  intros [H1 H2 H3 H4] [H1' H2' H3' H4']. split; [congruence|done|congruence|].
  intros f Hf. by rewrite H4', H4.
Qed.

(** Where the features of a cluster are after moving [f]. *)
Definition moved (f : N) (from to : Z) (cf cf' : clustering) : Prop :=
  forall c s, cf !! c = Some s -> exists s', cf' !! c = Some s' /\
    (forall x, x ∈ s' <-> if decide (x = f) then c = to else x ∈ s).

Lemma move_spec movable f from to n cf fc p0 :
  cl_ok cf fc -> fc !! f = Some from -> from ≠ to -> to ∈ dom cf -> f ∈ movable ->
  exists cf', move f from to n (Pass cf fc p0) = Ok (Pass cf' (<[f := to]> fc) n) /\
    evolves movable cf fc cf' (<[f := to]> fc) /\ moved f from to cf cf'.
Proof.
  intros Hok Hf Hne Hto Hm. destruct (proj1 (Hok f from) Hf) as (s & Hs & Hfs).
  apply elem_of_dom in Hto as [t Ht].
  unfold move. cbn [p_cf p_fc]. rewrite (proj2 (py_get_ok _ _ _) Hs). cbn [rbind].
  rewrite (proj2 (py_get_ok (<[from:=s ∖ {[f]}]> cf) to t)) by (by rewrite lookup_insert_ne).
  cbn [rbind]. eexists. split; [reflexivity|].
  assert (moved f from to cf (<[to:={[f]} ∪ t]> (<[from:=s ∖ {[f]}]> cf))) as Hmv.
  { intros c s0 Hc. destruct (decide (c = to)) as [->|Hct].
    - rewrite lookup_insert. eexists. split; [done|]. intros x. rewrite Ht in Hc. injection Hc as <-.
      case_decide; set_solver.
    - rewrite lookup_insert_ne by done. destruct (decide (c = from)) as [->|Hcf].
      + rewrite lookup_insert. eexists. split; [done|]. intros x. rewrite Hs in Hc. injection Hc as <-.
        case_decide; set_solver.
      + rewrite lookup_insert_ne by done. exists s0. split; [done|]. intros x. case_decide as Hx; [|done].
        subst x. split; [|done]. intros Hin. exfalso. apply Hcf.
        assert (fc !! f = Some c) by (apply Hok; eauto). congruence. }
  split; [|done]. split.
  - rewrite !dom_insert_L. apply set_eq. intros x. rewrite !elem_of_union, !elem_of_singleton.
    split; [intros [->|[->|?]]|auto]; [by apply elem_of_dom_2 in Ht|by apply elem_of_dom_2 in Hs|done].
  - intros x c. destruct (decide (x = f)) as [->|Hx].
    + rewrite lookup_insert. split.
      * intros [= <-]. rewrite lookup_insert. eexists. split; [done|]. set_solver.
      * intros (s0 & Hc & Hin). f_equal. destruct (decide (c = to)) as [->|Hct]; [done|].
        rewrite lookup_insert_ne in Hc by done. destruct (decide (c = from)) as [->|Hcf].
        -- rewrite lookup_insert in Hc. injection Hc as <-. set_solver.
        -- rewrite lookup_insert_ne in Hc by done. assert (fc !! f = Some c) by (apply Hok; eauto). congruence.
    + rewrite lookup_insert_ne by done. rewrite (Hok x c). split.
      * intros (s0 & Hc & Hin). destruct (Hmv c s0 Hc) as (s1 & Hc1 & H1). exists s1. split; [done|].
        apply H1. by rewrite decide_False.
      * intros (s1 & Hc1 & Hin). destruct (cf !! c) as [s0|] eqn:Hc.
        -- destruct (Hmv c s0 Hc) as (s2 & Hc2 & H2). assert (s2 = s1) as -> by congruence.
           exists s0. split; [done|]. specialize (proj1 (H2 x) Hin). by rewrite decide_False.
        -- rewrite lookup_insert_ne in Hc1 by (intros ->; congruence).
           rewrite lookup_insert_ne in Hc1 by (intros ->; congruence). congruence.
  - rewrite dom_insert_L. apply elem_of_dom_2 in Hf. set_solver.
  - intros x Hx. rewrite lookup_insert_ne; [done|]. by intros ->.
Qed.

(** What one step of the loop may do to [p]. [dissolve] only shrinks, a cluster
    outside it never falls to below the minimum. *)
Record pass_step (m : nat) (dissolve : gset Z) (movable : gset N) (p p' : pass) : Prop := PassStep {
  ps_ev : evolves movable (p_cf p) (p_fc p) (p_cf p') (p_fc p');
  ps_min : forall c s s', c ∉ dissolve -> p_cf p !! c = Some s -> p_cf p' !! c = Some s' ->
             m <= size s -> m <= size s';
  ps_dissolve : forall f c, c ∈ dissolve -> p_fc p' !! f = Some c -> p_fc p !! f = Some c }.

Lemma pass_step_refl m dissolve movable p : cl_ok (p_cf p) (p_fc p) -> pass_step m dissolve movable p p.
Proof.
  intros H. split; [by apply evolves_refl| |done]. intros c s s' _ H1 H2. congruence.
Qed.
Lemma pass_step_trans m dissolve movable p1 p2 p3 :
  pass_step m dissolve movable p1 p2 -> pass_step m dissolve movable p2 p3 -> pass_step m dissolve movable p1 p3.
Proof.
  intros [H1 H2 H3] [H1' H2' H3']. split; [by eapply evolves_trans| |by eauto].
  intros c s s3 Hc Hs Hs3 Hm. assert (c ∈ dom (p_cf p2)) as [s2 Hs2]%elem_of_dom.
  { rewrite (ev_dom _ _ _ _ _ H1). by apply elem_of_dom_2 in Hs. }
  eapply H2'; [done|done|done|]. by eapply H2.
Qed.

Lemma move_pass_step m dissolve movable f from to n p :
  cl_ok (p_cf p) (p_fc p) -> p_fc p !! f = Some from -> from ≠ to -> to ∈ dom (p_cf p) -> f ∈ movable ->
  to ∉ dissolve ->
  (from ∈ dissolve \/ exists s, p_cf p !! from = Some s /\ size s <> m) ->
  exists p', move f from to n p = Ok p' /\ pass_step m dissolve movable p p' /\
    p_fc p' = <[f := to]> (p_fc p).
Proof.
  intros Hok Hf Hne Hto Hm Hd Hfrom. destruct p as [cf fc p0]. cbn [p_cf p_fc] in *.
  destruct (move_spec movable f from to n cf fc p0 Hok Hf Hne Hto Hm) as (cf' & Hmv & Hev & Hmoved).
  exists (Pass cf' (<[f:=to]> fc) n). split; [done|]. split; [|done]. split; cbn [p_cf p_fc].
  - done.
  - intros c s s' Hc Hs Hs' Hsz. destruct (Hmoved c s Hs) as (s1 & Hs1 & H1).
    assert (s1 = s') as -> by congruence. destruct (decide (c = from)) as [->|Hcf].
    + destruct Hfrom as [?|(s2 & Hs2 & Hsz2)]; [done|]. assert (s2 = s) as -> by congruence.
      assert (f ∈ s) as Hfs. { destruct (proj1 (Hok f from) Hf) as (s3 & ? & ?). congruence. }
      assert (s' = s ∖ {[f]}) as ->.
      { apply set_eq. intros x. rewrite H1. case_decide; set_solver. }
      rewrite size_difference by set_solver. rewrite size_singleton. lia.
    + etrans; [exact Hsz|]. apply subseteq_size. intros x Hx. apply H1. case_decide as Hxf; [|done].
      subst x. exfalso. apply Hcf. assert (fc !! f = Some c) by (apply Hok; eauto). congruence.
  - intros x c Hc. destruct (decide (x = f)) as [->|Hx].
    + rewrite lookup_insert. intros [= <-]. done.
    + by rewrite lookup_insert_ne.
Qed.

Lemma consider_step m dissolve possible best movable p g f p' g' :
  cl_ok (p_cf p) (p_fc p) -> f ∈ movable ->
  (forall x, x ∈ possible -> x ∉ dissolve) ->
  consider m dissolve possible best (p, g) f = Ok (p', g') ->
  pass_step m dissolve movable p p'.
Proof.
  intros Hok Hm Hposs. unfold consider.
  destruct (best !! f) as [[|[delta to] l]|]; [done| |done].
  destruct (p_fc p !! f) as [from|] eqn:Hf; [|done].
  destruct (rand_coin g) as [accept g1].
  assert (forall to' n q, move f from to' n p = Ok q -> to' ∈ dom (p_cf p)) as Hdom.
  { intros to' n q. unfold move. destruct (py_get (p_cf p) from) as [s|] eqn:E; [|done]. cbn [rbind].
    destruct (py_get _ to') as [t|] eqn:E2; [|done]. intros _.
    apply (proj1 (py_get_ok _ _ _)) in E. apply (proj1 (py_get_ok _ _ _)) in E2.
    apply elem_of_dom_2 in E2. rewrite dom_insert_L in E2.
    apply elem_of_dom_2 in E. set_solver. }
  assert (forall to' n q, move f from to' n p = Ok q -> from ≠ to' -> to' ∉ dissolve ->
     (from ∈ dissolve \/ exists s, p_cf p !! from = Some s /\ size s <> m) ->
     pass_step m dissolve movable p q) as Hmove.
  { intros to' n q Hq Hne Hnd Hc.
    destruct (move_pass_step m dissolve movable f from to' n p Hok Hf Hne (Hdom _ _ _ Hq) Hm Hnd Hc)
      as (q' & Hq' & Hst & _). congruence. }
  case_bool_decide as Hfd.
  - case_bool_decide as Htd.
    + destruct (py_choice possible g1) as [r g2] eqn:Ec.
      destruct r as [to'|]; [|done]. cbn [rbind].
      destruct (move f from to' _ p) as [q|] eqn:Emv; [|done]. cbn [rbind]. intros [= <- <-].
      assert (to' ∉ dissolve) as Hto'.
      { apply Hposs. apply (py_choice_elem possible g1). by rewrite Ec. }
      eapply Hmove; [done| |done|by left]. by intros ->.
    + destruct (move f from to _ p) as [q|] eqn:Emv; [|done]. cbn [rbind]. intros [= <- <-].
      eapply Hmove; [done| |done|by left]. by intros ->.
  - case_bool_decide as Htd. { intros [= <- <-]. by apply pass_step_refl. }
    case_bool_decide as Heq. { intros [= <- <-]. by apply pass_step_refl. }
    destruct (py_get (p_cf p) from) as [s|] eqn:Eg; [|done]. cbn [rbind].
    apply (proj1 (py_get_ok _ _ _)) in Eg.
    destruct (size s =? m) eqn:Es. { intros [= <- <-]. by apply pass_step_refl. }
    apply Nat.eqb_neq in Es.
    destruct accept.
    + destruct (move f from to _ p) as [q|] eqn:Emv; [|done]. cbn [rbind]. intros [= <- <-].
      eapply Hmove; [done|done|done|]. right. eauto.
    + intros [= <- <-]. split; cbn [p_cf p_fc].
      * by apply evolves_refl.
      * intros c s0 s' _ H1 H2. congruence.
      * done.
Qed.

Lemma consider_fold m dissolve possible best movable fs p g p' g' :
  cl_ok (p_cf p) (p_fc p) -> (forall f, f ∈ fs -> f ∈ movable) ->
  (forall x, x ∈ possible -> x ∉ dissolve) ->
  rfold (consider m dissolve possible best) fs (p, g) = Ok (p', g') ->
  pass_step m dissolve movable p p'.
Proof.
  intros Hok Hfs Hposs. revert p g Hok. induction fs as [|f fs IH]; intros p g Hok H.
  - cbn in H. injection H as <- <-. by apply pass_step_refl.
  - cbn [rfold] in H. destruct (consider m dissolve possible best (p, g) f) as [[p1 g1]|] eqn:E; [|done].
    cbn [rbind] in H. assert (pass_step m dissolve movable p p1) as H1.
    { eapply consider_step; [done| |done|done]. apply Hfs. by left. }
    eapply pass_step_trans; [exact H1|].
    eapply IH; [|apply (ev_ok _ _ _ _ _ (ps_ev _ _ _ _ _ H1))|exact H]. intros x Hx. apply Hfs. by right.
Qed.

(** ** Dropping the dissolved clusters *)
Lemma drop_dissolved_spec dissolve cf cf' :
  drop_dissolved dissolve cf = Ok cf' ->
  (forall c, c ∈ dissolve -> cf !! c = Some ∅) /\
  (forall c, cf' !! c = if decide (c ∈ dissolve) then None else cf !! c).
Proof.
  unfold drop_dissolved. intros H.
  assert (forall l cf0, NoDup l -> rfold (fun cf c => rbind (py_get cf c) (fun s =>
      if bool_decide (s = ∅) then Ok (delete c cf) else Err ValueError)) l cf0 = Ok cf' ->
      (forall c, c ∈ l -> cf0 !! c = Some ∅) /\
      (forall c, cf' !! c = if decide (c ∈ l) then None else cf0 !! c)) as Hgen.
  { clear H. induction l as [|x l IH]; intros cf0 Hn.
    - cbn [rfold]. intros [= ->]. split; [by intros ? ?%elem_of_nil|]. intros c.
      rewrite decide_False; [done|]. apply not_elem_of_nil.
    - cbn [rfold]. destruct (py_get cf0 x) as [s|] eqn:E; [|done]. cbn [rbind].
      apply (proj1 (py_get_ok _ _ _)) in E. case_bool_decide as Hs; [|done]. subst s. cbn [rbind].
      inversion Hn as [|? ? Hx Hn']; subst. intros H. destruct (IH _ Hn' H) as [H1 H2]. split.
      + intros c [->|Hc]%elem_of_cons; [done|]. specialize (H1 c Hc).
        rewrite lookup_delete_ne in H1; [done|]. by intros ->.
      + intros c. rewrite H2. destruct (decide (c = x)) as [->|Hcx].
        * rewrite decide_False by done. rewrite (decide_True (P := x ∈ x :: l)) by left.
          apply lookup_delete.
        * rewrite lookup_delete_ne by done. destruct (decide (c ∈ l)) as [Hc|Hc].
          -- rewrite decide_True; [done|by right].
          -- rewrite decide_False; [done|]. intros [?|?]%elem_of_cons; done. }
  destruct (Hgen _ _ (NoDup_z_list dissolve) H) as [H1 H2]. split.
  - intros c Hc. apply H1. by apply elem_of_z_list.
  - intros c. rewrite H2. destruct (decide (c ∈ dissolve)) as [Hc|Hc].
    + by rewrite decide_True by (by apply elem_of_z_list).
    + rewrite decide_False; [done|]. by rewrite elem_of_z_list.
Qed.

(** ** The loop *)
Record loop_result (m : nat) (movable : gset N) (cf : clustering) (fc : gmap N Z) (cf' : clustering) : Prop := LoopResult {
  lr_fc : exists fc', cl_ok cf' fc' /\ dom fc' = dom fc /\ (forall f, f ∉ movable -> fc' !! f = fc !! f);
  lr_dom : dom cf' ⊆ dom cf;
  lr_min : forall c s s', cf !! c = Some s -> cf' !! c = Some s' -> m <= size s -> m <= size s' }.

Lemma refine_loop_spec d a b frozen movable per n cf fc order td g cf' g' :
  cl_ok cf fc -> (forall f, f ∈ order -> f ∈ movable) ->
  refine_loop d a b frozen movable per n cf fc order td g = Ok (cf', g') ->
  loop_result (r_min_features a) movable cf fc cf' /\ (td = 0 -> dom cf' = dom cf).
Proof.
  revert cf fc order td g. induction n as [|n IH]; intros cf fc order td g Hok Hord H.
  - cbn in H. injection H as <- <-. split; [|done]. split; [by exists fc|done|].
    intros c s s' H1 H2. congruence.
  - cbn [refine_loop] in H.
    destruct (find_best_moves _ _ _ _ _ _ _) as [[[objectives best] g1]|]; [|done]. cbn [rbind] in H.
    destruct (if td =? 0 then Ok ∅ else _) as [dissolve|] eqn:Ed; [|done]. cbn [rbind] in H.
    destruct (py_shuffle order g1) as [order' g2] eqn:Es.
    destruct (rfold _ order' _) as [[p g3]|] eqn:Ef; [|done]. cbn [rbind] in H.
    destruct (drop_dissolved dissolve (p_cf p)) as [cf1|] eqn:Edr; [|done]. cbn [rbind] in H.
    assert (forall f, f ∈ order' -> f ∈ movable) as Hord'.
    { intros f Hf. apply Hord. pose proof (py_shuffle_perm order g1) as Hp. rewrite Es in Hp. cbn in Hp.
      by rewrite <- Hp. }
    assert (pass_step (r_min_features a) dissolve movable (Pass cf fc 0) p) as Hps.
    { eapply consider_fold; [| |  |exact Ef]; [done|done|].
      intros x. rewrite elem_of_z_list. set_solver. }
    destruct Hps as [[Hd1 Hok1 Hf1 Hfix1] Hmin1 Hdis1]. cbn [p_cf p_fc] in *.
    destruct (drop_dissolved_spec _ _ _ Edr) as [Hempty Hlook].
    assert (cl_ok cf1 (p_fc p)) as Hok2.
    { intros f c. rewrite (Hok1 f c), Hlook. destruct (decide (c ∈ dissolve)) as [Hc|Hc]; [|reflexivity].
      split; [|by intros (? & ? & _)]. intros (s & Hs & Hfs). rewrite (Hempty c Hc) in Hs.
      injection Hs as <-. set_solver. }
    assert (dom cf1 ⊆ dom cf) as Hsub.
    { rewrite <- Hd1. intros c [s Hs]%elem_of_dom. rewrite Hlook in Hs.
      case_decide; [done|]. by apply elem_of_dom_2 in Hs. }
    assert (loop_result (r_min_features a) movable cf fc cf1) as Hr1.
    { split; [by exists (p_fc p)|done|]. intros c s s' Hs Hs' Hm. rewrite Hlook in Hs'.
      case_decide as Hc; [done|]. by eapply Hmin1. }
    assert (td = 0 -> dom cf1 = dom cf) as Hdom0.
    { intros ->. cbn in Ed. injection Ed as <-. rewrite <- Hd1. apply set_eq. intros c.
      rewrite !elem_of_dom, Hlook, decide_False by set_solver. done. }
    assert (forall r, r = refine_loop d a b frozen movable per n cf1 (p_fc p) order' (td - min td per) g3 ->
       r = Ok (cf', g') -> loop_result (r_min_features a) movable cf fc cf' /\ (td = 0 -> dom cf' = dom cf)) as Hcont.
    { intros r -> Hr. destruct (IH _ _ _ _ _ Hok2 Hord' Hr) as [[(fc' & Hok3 & Hd3 & Hfix3) Hsub3 Hmin3] Hd0].
      split.
      - split.
        + exists fc'. split_and!; [done|congruence|]. intros f Hf. by rewrite Hfix3, Hfix1.
        + set_solver.
        + intros c s s' Hs Hs' Hm. assert (c ∈ dom cf1) as [s1 Hs1]%elem_of_dom.
          { apply Hsub3. by apply elem_of_dom_2 in Hs'. }
          eapply Hmin3; [done|done|]. by eapply (lr_min _ _ _ _ _ Hr1).
      - intros Htd. rewrite Hd0, Hdom0; [done|done|]. rewrite Htd. done. }
    case_bool_decide as Hde.
    + destruct (size movable =? 0); [done|]. destruct (small_share _ _ _).
      * injection H as <- <-. done.
      * by eapply Hcont.
    + by eapply Hcont.
Qed.

(** ** Setting up *)
Definition disjoint_clusters (cf : clustering) : Prop :=
  forall c c' s s' f, cf !! c = Some s -> cf !! c' = Some s' -> f ∈ s -> f ∈ s' -> c = c'.

Lemma cl_ok_disjoint cf fc : cl_ok cf fc -> disjoint_clusters cf.
Proof.
  intros H c c' s s' f Hc Hc' Hf Hf'. assert (fc !! f = Some c) by (apply H; eauto).
  assert (fc !! f = Some c') by (apply H; eauto). congruence.
Qed.

Lemma cl_ok_features cf fc : cl_ok cf fc -> dom fc = features_in cf.
Proof.
  intros H. apply set_eq. intros f. rewrite elem_of_dom, elem_of_features_in. split.
  - intros [c Hc]. exists c. by apply H.
  - intros (c & s & Hs). exists c. apply H. by exists s.
Qed.

Lemma cl_ok_unique cf fc1 fc2 : cl_ok cf fc1 -> cl_ok cf fc2 -> fc1 = fc2.
Proof.
  intros H1 H2. apply map_eq. intros f. apply option_eq. intros c. by rewrite (H1 f c), (H2 f c).
Qed.

Lemma set_fold_insert_lookup (s : gset N) (c : Z) (fc : gmap N Z) x :
  set_fold (fun f fc => <[f := c]> fc) fc s !! x = if decide (x ∈ s) then Some c else fc !! x.
Proof.
  pose (P := fun (r : gmap N Z) (X : gset N) => forall x, r !! x = if decide (x ∈ X) then Some c else fc !! x).
  cut (P (set_fold (fun f fc => <[f := c]> fc) fc s) s); [intros H; apply H|].
  apply (set_fold_ind_L P).
  - intros y. rewrite decide_False by set_solver. done.
  - intros f X r Hf IH y. destruct (decide (y = f)) as [->|Hx].
    + rewrite lookup_insert, decide_True by set_solver. done.
    + rewrite lookup_insert_ne by done. rewrite IH. destruct (decide (y ∈ X)).
      * by rewrite decide_True by set_solver.
      * by rewrite decide_False by set_solver.
Qed.

Lemma feature_map_ok cf : disjoint_clusters cf -> cl_ok cf (feature_map cf).
Proof.
  unfold feature_map. intros Hd.
  set (r := map_fold (fun c fs fc => set_fold (fun f fc => <[f := c]> fc) fc fs) (∅ : gmap N Z) cf).
  assert ((forall f c, r !! f = Some c -> exists s, cf !! c = Some s /\ f ∈ s) /\
          (forall f c s, cf !! c = Some s -> f ∈ s -> is_Some (r !! f))) as [H1 H2].
  { clear Hd. apply (map_fold_ind (fun (r : gmap N Z) (cf : clustering) => (forall f (c : Z), r !! f = Some c -> exists s : gset N, cf !! c = Some s /\ f ∈ s) /\
      (forall f (c : Z) s, cf !! c = Some s -> f ∈ s -> is_Some (r !! f)))).
    - split; [|]; intros f c; [|intros s]; by rewrite lookup_empty.
    - intros c0 s0 m r0 Hc0 [IH1 IH2]. split.
      + intros f c. rewrite set_fold_insert_lookup. case_decide as Hf.
        * intros [= <-]. exists s0. by rewrite lookup_insert.
        * intros Hc. destruct (IH1 f c Hc) as (s & Hs & ?). exists s.
          rewrite lookup_insert_ne; [done|]. intros ->. congruence.
      + intros f c s Hs Hf. rewrite set_fold_insert_lookup. case_decide; [by eexists|].
        destruct (decide (c = c0)) as [->|Hc].
        * rewrite lookup_insert in Hs. injection Hs as <-. done.
        * rewrite lookup_insert_ne in Hs by done. by eapply IH2. }
  intros f c. split; [apply H1|]. intros (s & Hs & Hf). destruct (H2 f c s Hs Hf) as [c' Hc'].
  destruct (H1 f c' Hc') as (s' & Hs' & Hf'). rewrite Hc'. f_equal. by eapply Hd.
Qed.

(** ** Splitting *)
Lemma split_features_sub pinned fs g x : x ∈ (split_features pinned fs g).1 -> x ∈ fs /\ x ∉ pinned.
Proof.
  revert g. induction fs as [|f fs IH]; intros g; cbn [split_features]; [cbn; set_solver|].
  destruct (rand_coin g) as [coin g1]. specialize (IH g1).
  destruct (split_features pinned fs g1) as [s g2]. cbn [fst] in *.
  destruct coin; cbn [andb].
  - case_bool_decide as Hp.
    + intros [Hx%elem_of_singleton|Hx]%elem_of_union; [subst; split; [by left|done]|].
      destruct (IH Hx). split; [by right|done].
    + intros Hx. destruct (IH Hx). split; [by right|done].
  - intros Hx. destruct (IH Hx). split; [by right|done].
Qed.

Lemma largest_cluster_some cf : cf ≠ ∅ -> exists c, largest_cluster cf = Some c /\ c ∈ dom cf.
Proof.
  intros Hne. unfold largest_cluster.
  set (l := (fun kv : Z * gset N => (size kv.2, kv.1)) <$> map_to_list cf).
  assert (merge_sort size_le l ≡ₚ l) as Hp by apply merge_sort_Permutation.
  destruct (last (merge_sort size_le l)) as [[n c]|] eqn:E.
  - exists c. split; [done|]. apply last_Some_elem_of in E. rewrite Hp in E.
    apply elem_of_list_fmap in E as ([c' s] & [= -> ->] & H). apply elem_of_map_to_list in H.
    by apply elem_of_dom_2 in H.
  - exfalso. apply last_None in E. rewrite E in Hp. apply Permutation_nil in Hp.
    apply fmap_nil_inv in Hp. by apply map_to_list_empty_iff in Hp.
Qed.

Lemma largest_cluster_dom cf c : largest_cluster cf = Some c -> c ∈ dom cf.
Proof.
  intros H. destruct (decide (cf = ∅)) as [->|Hne].
  - done.
  - destruct (largest_cluster_some cf Hne) as (c' & H' & ?). congruence.
Qed.

Record split_result (pinned : gset N) (cf : clustering) (fc : gmap N Z) (new : list Z)
    (cf' : clustering) (fc' : gmap N Z) : Prop := SplitResult {
  sr_ok : cl_ok cf' fc';
  sr_dom : dom cf' = dom cf ∪ list_to_set new;
  sr_features : dom fc' = dom fc;
  sr_pinned : forall f, f ∈ pinned -> fc' !! f = fc !! f }.

Lemma split_one_spec pinned cf fc g new : cf ≠ ∅ -> cl_ok cf fc -> new ∉ dom cf ->
  exists cf' fc' g', split_one pinned (cf, fc, g) new = Ok (cf', fc', g') /\
    split_result pinned cf fc [new] cf' fc'.
Proof.
  intros Hne Hok Hnew. unfold split_one.
  destruct (largest_cluster_some cf Hne) as (c & -> & Hc).
  apply elem_of_dom in Hc as [fs Hfs]. rewrite Hfs. change (default ∅ (Some fs)) with fs.
  pose proof (split_features_sub pinned (bm_list fs) g) as Hsub.
  destruct (split_features pinned (bm_list fs) g) as [s g1]. cbn [fst] in Hsub.
  assert (forall x, x ∈ s -> x ∈ fs /\ x ∉ pinned) as Hs.
  { intros x Hx. destruct (Hsub x Hx) as [H1 H2]. by apply (proj1 (elem_of_bm_list _ _)) in H1. }
  assert (new ≠ c) as Hnc. { intros ->. apply Hnew. by apply elem_of_dom_2 in Hfs. }
  cbv beta iota zeta. rewrite (lookup_insert_ne cf new c s Hnc), Hfs. change (default ∅ (Some fs)) with fs.
  eexists _, _, _. split; [reflexivity|]. split.
  - intros f x. rewrite set_fold_insert_lookup. case_decide as Hf.
    + split.
      * intros [= <-]. exists s. rewrite lookup_insert_ne by done. by rewrite lookup_insert.
      * intros (s' & Hs' & Hf'). f_equal. destruct (decide (x = c)) as [->|Hxc].
        { rewrite lookup_insert in Hs'. injection Hs' as <-. set_solver. }
        rewrite lookup_insert_ne in Hs' by done.
        destruct (decide (x = new)) as [->|Hxn]; [done|]. rewrite lookup_insert_ne in Hs' by done.
        exfalso. apply Hxc. eapply (cl_ok_disjoint cf fc Hok x c s' fs f); [done|done|done|]. by apply Hs.
    + rewrite (Hok f x). destruct (decide (x = c)) as [->|Hxc].
      * rewrite lookup_insert, Hfs. split.
        -- intros (s' & [= <-] & ?). eexists. split; [done|]. set_solver.
        -- intros (s' & [= <-] & ?). eexists. split; [done|]. set_solver.
      * rewrite lookup_insert_ne by done. destruct (decide (x = new)) as [->|Hxn].
        -- rewrite lookup_insert. split.
           ++ intros (s' & H & _). apply elem_of_dom_2 in H. done.
           ++ intros (s' & [= <-] & ?). done.
        -- by rewrite lookup_insert_ne by done.
  - rewrite !dom_insert_L. apply elem_of_dom_2 in Hfs. cbn. set_solver.
  - apply set_eq. intros f. rewrite !elem_of_dom, set_fold_insert_lookup. case_decide as Hf; [|done].
    split; [|by eexists]. intros _. exists c. apply Hok. exists fs. split; [done|]. by apply Hs.
  - intros f Hf. rewrite set_fold_insert_lookup, decide_False; [done|]. intros Hx. by apply Hs in Hx as [_ ?].
Qed.

Lemma split_all_spec pinned new cf fc g : (cf ≠ ∅ \/ new = []) -> cl_ok cf fc ->
  NoDup new -> (forall x, x ∈ new -> x ∉ dom cf) ->
  exists cf' fc' g', rfold (split_one pinned) new (cf, fc, g) = Ok (cf', fc', g') /\
    split_result pinned cf fc new cf' fc'.
Proof.
  revert cf fc g. induction new as [|x new IH]; intros cf fc g Hne Hok Hn Hnew.
  - exists cf, fc, g. split; [done|]. split; [done| |done|done]. cbn. set_solver.
  - inversion Hn as [|? ? Hx Hn']; subst. destruct Hne as [Hne|?]; [|done].
    destruct (split_one_spec pinned cf fc g x Hne Hok ltac:(apply Hnew; left)) as (cf1 & fc1 & g1 & E1 & [A1 A2 A3 A4]).
    cbn [list_to_set] in A2.
    destruct (IH cf1 fc1 g1) as (cf2 & fc2 & g2 & E2 & [B1 B2 B3 B4]); [|done|done| |].
    + left. intros ->. rewrite dom_empty_L in A2. set_solver.
    + intros y Hy. rewrite A2. assert (y ≠ x) by (by intros ->). assert (y ∉ dom cf) by (apply Hnew; by right).
      set_solver.
    + exists cf2, fc2, g2. cbn [rfold]. rewrite E1. cbn [rbind]. split; [done|]. split; [done| |congruence|].
      * rewrite B2, A2. cbn. set_solver.
      * intros f Hf. by rewrite B4, A4.
Qed.

(** ** New ids *)
Lemma z_range_lookup start n i x : z_range start n !! i = Some x <-> (x = start + Z.of_nat i /\ Z.of_nat i < n)%Z.
Proof.
  unfold z_range. rewrite list_lookup_fmap_Some. split.
  - intros (j & Hj & ->). apply lookup_seq in Hj as [-> Hj]. cbn. lia.
  - intros [-> Hi]. exists i. split; [|done]. apply lookup_seq. lia.
Qed.
Lemma elem_of_z_range start n x : x ∈ z_range start n <-> (start <= x < start + n)%Z.
Proof.
  rewrite elem_of_list_lookup. setoid_rewrite z_range_lookup. split.
  - intros (i & -> & ?). lia.
  - intros H. exists (Z.to_nat (x - start)). lia.
Qed.
Lemma NoDup_z_range start n : NoDup (z_range start n).
Proof.
  apply NoDup_alt. intros i j x. rewrite !z_range_lookup. lia.
Qed.
Lemma length_z_range start n : length (z_range start n) = Z.to_nat n.
Proof. unfold z_range. by rewrite fmap_length, seq_length. Qed.

Definition max_id (s : gset Z) : Z := default 0%Z (last (z_list s)).
Lemma max_id_ge s x : x ∈ s -> (x <= max_id s)%Z.
Proof.
  intros Hx. unfold max_id. destruct (last (z_list s)) as [m|] eqn:E; cbn.
  - apply last_Some in E as [l' E]. pose proof (sorted_z_list s) as Hs.
    apply elem_of_z_list in Hx. rewrite E in Hx, Hs.
    apply elem_of_app in Hx as [Hx|Hx]; [|apply elem_of_list_singleton in Hx; lia].
    clear E. induction l' as [|a l' IH]; [by apply elem_of_nil in Hx|].
    simpl in Hs. inversion Hs as [|? ? Hs' Hf]; subst.
    apply elem_of_cons in Hx as [->|Hx]; [|auto].
    rewrite Forall_forall in Hf. apply Hf. set_solver.
  - apply last_None in E. apply elem_of_z_list in Hx. rewrite E in Hx. by apply elem_of_nil in Hx.
Qed.
Lemma max_id_in s : s ≠ ∅ -> max_id s ∈ s.
Proof.
  intros Hs. unfold max_id. destruct (last (z_list s)) as [m|] eqn:E; cbn.
  - apply last_Some_elem_of in E. by apply elem_of_z_list in E.
  - apply last_None in E. exfalso. apply Hs. apply set_eq. intros x. rewrite <- elem_of_z_list, E. set_solver.
Qed.

(** The number of clusters aimed at, and the ids of the clusters to add. *)
Definition aim (cf : clustering) (target : Z) : Z :=
  if (target =? 0)%Z then Z.of_nat (size cf) else target.

Record groups_result (m : nat) (pinned : gset N) (cf cf2 : clustering) (target : Z) (new : list Z) : Prop := GroupsResult {
  gr_fc : exists fc2, cl_ok cf2 fc2 /\ dom fc2 = features_in cf /\
            (forall f, f ∈ pinned -> fc2 !! f = feature_map cf !! f);
  gr_new : (new = [] /\ (cf = ∅ \/ aim cf target = Z.of_nat (size cf))) \/ (cf ≠ ∅ /\ new = z_range (max_id (dom cf) + 1) (aim cf target - Z.of_nat (size cf)));
  gr_new_in : list_to_set new ⊆ dom cf2;
  gr_dom : dom cf2 ⊆ dom cf ∪ list_to_set new;
  gr_min : new = [] -> forall c s s', cf !! c = Some s -> cf2 !! c = Some s' -> m <= size s -> m <= size s';
  gr_same : aim cf target = Z.of_nat (size cf) -> new = [] /\ dom cf2 = dom cf;
  gr_grow : (Z.of_nat (size cf) <= aim cf target)%Z -> dom cf2 = dom cf ∪ list_to_set new }.

Lemma refine_feature_groups_spec d a b cf pinned target g cf2 new g2 :
  disjoint_clusters cf ->
  refine_feature_groups d a b cf pinned target g = Ok (cf2, new, g2) ->
  groups_result (r_min_features a) pinned cf cf2 target new.
Proof.
  intros Hd. unfold refine_feature_groups. fold (aim cf target). fold (max_id (dom cf)).
  pose proof (feature_map_ok cf Hd) as Hok.
  assert (cf = ∅ \/ aim cf target = Z.of_nat (size cf) -> groups_result (r_min_features a) pinned cf cf target []) as Hid.
  { intros Hcase. split; [|by left|set_solver|set_solver| |done|set_solver].
    - exists (feature_map cf). split; [done|]. split; [by apply cl_ok_features|done].
    - intros _ c s s' H1 H2. congruence. }
  destruct (Z.of_nat (size cf) =? 0)%Z eqn:E0.
  { intros [= <- <- <-]. apply Hid. left. apply map_size_empty_inv. lia. }
  destruct ((Z.of_nat (size cf) =? 1)%Z && (aim cf target =? 1)%Z) eqn:E1.
  { intros [= <- <- <-]. apply Hid. right. lia. }
  assert (cf ≠ ∅) as Hne. { intros ->. by rewrite map_size_empty in E0. }
  cbv zeta. set (new' := z_range (max_id (dom cf) + 1) (aim cf target - Z.of_nat (size cf))).
  assert (forall x, x ∈ new' -> x ∉ dom cf) as Hfresh.
  { intros x Hx Hin. apply max_id_ge in Hin. unfold new' in Hx. apply elem_of_z_range in Hx. lia. }
  destruct (split_all_spec pinned new' cf (feature_map cf) g ltac:(by left) Hok (NoDup_z_range _ _) Hfresh)
    as (cf1 & fc1 & g1 & Esp & [S1 S2 S3 S4]). rewrite Esp. cbn [rbind].
  destruct (refine_loop _ _ _ _ _ _ _ _ _ _ _ _) as [[cf3 g3]|] eqn:El; [|done]. cbn [rbind].
  intros [= <- <- <-].
  apply refine_loop_spec in El as [[(fc3 & L1 & L2 & L3) L4 L5] L6]; [|done|].
  2:{ intros f. by rewrite elem_of_elements. }
  assert (Z.of_nat (size cf1) = Z.of_nat (size cf) + Z.of_nat (length new'))%Z as Hsz.
  { rewrite <- !size_dom, S2. rewrite size_union.
    - rewrite size_list_to_set by apply NoDup_z_range. lia.
    - intros x Hx Hx'. apply elem_of_list_to_set in Hx'. by apply (Hfresh x). }
  unfold new' in Hsz at 1. rewrite length_z_range in Hsz.
  split.
  - exists fc3. split; [done|]. split; [rewrite L2, S3; by apply cl_ok_features|].
    intros f Hf. rewrite L3 by set_solver. by apply S4.
  - by right.
  - destruct (decide (new' = [])) as [->|Hnn]; [set_solver|].
    assert (Z.to_nat (aim cf target - Z.of_nat (size cf)) <> 0) as Hpos.
    { rewrite <- (length_z_range (max_id (dom cf) + 1)). fold new'. by destruct new'. }
    rewrite L6 by lia. rewrite S2. set_solver.
  - etrans; [exact L4|]. by rewrite S2.
  - intros Hnil c s s' Hs Hs' Hm. rewrite Hnil in *.
    eapply L5; [|done|done].
    (* no split: cf1 = cf *)
    assert (cf1 = cf) as ->; [|done].
    cbn in Esp. congruence.
  - intros Ha. assert (new' = []) as Hnil.
    { unfold new'. rewrite Ha, Z.sub_diag. done. }
    split; [done|]. rewrite L6 by lia. rewrite S2, Hnil. set_solver.
  - intros Ha. rewrite L6 by lia. by rewrite S2.
Qed.
