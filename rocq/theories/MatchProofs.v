(** MatchProofs.v: the matching positions of a partition, and passages in terms of the
    tokens of the corpus. *)
From Verif Require Export PassageProofs.

(** [q] is in the window of position [p]. *)
Definition reaches (bd : gset N) (w p q : N) : Prop :=
  within w p q /\ (same_document bd p q \/ next_document_start bd p q).

Lemma delimited_mono bd P Q : delimited bd P -> Q ⊆ P -> delimited bd Q.
Proof. intros H HQ p Hp. apply H. set_solver. Qed.

Lemma elem_of_union_query d first fs p :
  p ∈ union_position_query d first fs <-> exists f, f ∈ fs /\ p ∈ partition_positions d first f.
Proof.
  unfold union_position_query. rewrite elem_of_union_list. split.
  - intros (X & HX & Hp). apply elem_of_list_fmap in HX as (f & -> & Hf). exists f. by rewrite elem_of_elements in Hf.
  - intros (f & Hf & Hp). exists (partition_positions d first f). split; [|done].
    apply elem_of_list_fmap. exists f. by rewrite elem_of_elements.
Qed.

Section matches.
  Context (d : db) (first : N) (bd : gset N) (w : N).
  Notation C cl := (union_position_query d first cl).

  Lemma narrow_spec cls : (forall cl, cl ∈ cls -> delimited bd (C cl)) ->
    forall positions window, exists M, narrow d first bd w cls positions window = Ok M /\
      (forall q, q ∈ M -> (q ∈ positions \/ exists cl, cl ∈ cls /\ q ∈ C cl) /\ q ∈ window /\
         forall cl, cl ∈ cls -> exists p, p ∈ C cl /\ reaches bd w p q) /\
      (forall T : gset N, (forall p q, p ∈ T -> q ∈ T -> reaches bd w p q) -> T ⊆ window ->
         (forall cl, cl ∈ cls -> exists p, p ∈ T /\ p ∈ C cl) ->
         forall q, q ∈ T -> (q ∈ positions \/ exists cl, cl ∈ cls /\ q ∈ C cl) -> q ∈ M).
  Proof.
    induction cls as [|cl cls IH]; intros Hdel positions window; cbn [narrow].
    - eexists. split; [reflexivity|]. split.
      + intros q Hq. split_and!; [left; set_solver|set_solver|]. by intros ? ?%elem_of_nil.
      + intros T _ HT _ q Hq [Hp|(cl & Hcl & _)]; [set_solver|by apply elem_of_nil in Hcl].
    - case_bool_decide as Hem.
      + exists ∅. split; [done|]. split; [by intros q ?%not_elem_of_empty|].
        intros T _ HT Hcov q Hq _. exfalso. destruct (Hcov cl) as (p & HpT & HpC); [by left|].
        assert (p ∈ C cl ∩ window) as Hbad by (apply elem_of_intersection; auto). rewrite Hem in Hbad. by apply not_elem_of_empty in Hbad.
      + destruct (expand_positions_window_spec (C cl ∩ window) bd w) as (R & HR & HRq).
        { eapply delimited_mono; [apply (Hdel cl); by left|set_solver]. }
        rewrite HR. cbn [rbind].
        destruct (IH ltac:(intros; apply Hdel; by right) (positions ∪ (C cl ∩ window)) (window ∩ R)) as (M & HM & Hs & Hc).
        exists M. split; [done|]. split.
        * intros q Hq. destruct (Hs q Hq) as (H1 & H2 & H3). split_and!.
          -- destruct H1 as [H1|(cl' & ? & ?)]; [|right; exists cl'; split; [by right|done]].
             apply elem_of_union in H1 as [H1|H1]; [by left|right; exists cl; split; [by left|]].
             by apply elem_of_intersection in H1 as [? _].
          -- by apply elem_of_intersection in H2 as [? _].
          -- intros cl' [->|Hcl]%elem_of_cons; [|auto].
             apply elem_of_intersection in H2 as [_ HqR]. apply HRq in HqR as (p & Hp & Hr). exists p. split; [|done].
             by apply elem_of_intersection in Hp as [? _].
        * intros T Hpair HT Hcov q Hq Hor. apply (Hc T Hpair); [|intros; apply Hcov; by right|done|].
          -- intros x Hx. apply elem_of_intersection. split; [auto|]. apply HRq.
             destruct (Hcov cl) as (p & HpT & HpC); [by left|]. exists p. split; [apply elem_of_intersection; auto|]. by apply Hpair.
          -- destruct Hor as [?|(cl' & [->|Hcl]%elem_of_cons & HqC)]; [left; by apply elem_of_union_l| |right; eauto].
             left. apply elem_of_union_r, elem_of_intersection. auto.
  Qed.

  Lemma partition_matches_spec sorter cls : permutes sorter -> cls ≠ [] ->
    (forall cl, cl ∈ cls -> delimited bd (C cl)) ->
    exists M, partition_matches sorter d first bd w cls = Ok M /\
      (forall q, q ∈ M -> (exists cl, cl ∈ cls /\ q ∈ C cl) /\
         forall cl, cl ∈ cls -> exists p, p ∈ C cl /\ reaches bd w p q) /\
      (forall T : gset N, (forall p q, p ∈ T -> q ∈ T -> reaches bd w p q) ->
         (forall cl, cl ∈ cls -> exists p, p ∈ T /\ p ∈ C cl) ->
         forall q, q ∈ T -> (exists cl, cl ∈ cls /\ q ∈ C cl) -> q ∈ M).
  Proof.
    intros Hperm Hne Hdel. unfold partition_matches.
    set (l := (fun cl => (clause_weight d first cl, cl)) <$> cls).
    assert ((sorter l).*2 ≡ₚ cls) as Hp.
    { etrans; [apply fmap_Permutation, Hperm|]. unfold l. rewrite <- list_fmap_compose.
      clear. induction cls; cbn; [done|]. by f_equiv. }
    destruct (sorter l).*2 as [|cl rest]; [by apply Permutation_nil in Hp|].
    assert (forall x, x ∈ cls <-> x ∈ cl :: rest) as Hin by (intros x; by rewrite Hp).
    destruct (expand_positions_window_spec (C cl) bd w) as (R & HR & HRq); [apply Hdel, Hin; by left|].
    rewrite HR. cbn [rbind].
    destruct (narrow_spec rest) with (positions := C cl) (window := R) as (M & HM & Hs & Hc); [intros; apply Hdel, Hin; by right|].
    exists M. split; [done|]. split.
    - intros q Hq. destruct (Hs q Hq) as (H1 & H2 & H3). split.
      + destruct H1 as [H1|(cl' & Hcl & H1)]; [exists cl|exists cl']; (split; [apply Hin|done]); [by left|by right].
      + intros cl' Hcl. apply Hin, elem_of_cons in Hcl as [->|Hcl]; [|auto]. by apply HRq in H2.
    - intros T Hpair Hcov q Hq (cl' & Hcl & HqC). apply (Hc T); [done| |intros; apply Hcov, Hin; by right|done|].
      + intros x Hx. apply HRq. destruct (Hcov cl) as (p & ? & ?); [apply Hin; by left|]. exists p. split; [done|]. by apply Hpair.
      + apply Hin, elem_of_cons in Hcl as [->|Hcl]; [by left|right; eauto].
  Qed.
End matches.
