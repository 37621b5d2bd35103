(** ClusterProofs.v: statements and method bodies on the clustering tables. *)
From Verif Require Import Base BaseProofs Db Conn ClusterOps SpecCluster.
From Coq Require Import ZifyBool ZifyNat ZifyN.

(** ** Basic facts *)
Lemma elem_of_members d c f :
  f ∈ members d c <-> exists row, feature_cluster d !! f = Some row /\ fc_cluster row = c.
Proof.
  unfold members. rewrite elem_of_dom. split.
  - intros [row Hrow]. apply map_filter_lookup_Some in Hrow as [? ?]. eauto.
  - intros (row & ? & ?). exists row. by apply map_filter_lookup_Some.
Qed.

Lemma members_assigned d c f : f ∈ members d c <-> assigned d f = Some c.
Proof.
  rewrite elem_of_members. unfold assigned. destruct (feature_cluster d !! f) as [row|]; simpl.
  - split; [intros (r & [= <-] & <-); done | intros [= <-]; eauto].
  - split; [intros (r & ? & ?); done | done].
Qed.

Lemma features_of_cluster_members c d : features_of_cluster c d = bm_list (members d c).
Proof. done. Qed.

Lemma z_list_perm s : z_list s ≡ₚ elements s.
Proof. apply merge_sort_Permutation. Qed.
Lemma elem_of_z_list s x : x ∈ z_list s <-> x ∈ s.
Proof. by rewrite z_list_perm, elem_of_elements. Qed.
Lemma NoDup_z_list s : NoDup (z_list s).
Proof. rewrite z_list_perm. apply NoDup_elements. Qed.
#[global] Instance Z_le_total : Total Z.le.
Proof. intros x y. lia. Qed.
Lemma sorted_z_list s : StronglySorted Z.le (z_list s).
Proof. apply (StronglySorted_merge_sort Z.le). Qed.

Lemma same_index_refl d : same_index d d.
Proof. done. Qed.
Lemma same_index_trans d1 d2 d3 : same_index d1 d2 -> same_index d2 d3 -> same_index d1 d3.
Proof. unfold same_index. intros (?&?&?&?&?) (?&?&?&?&?). split_and!; congruence. Qed.
#[global] Hint Resolve same_index_refl : core.

Lemma same_index_feature_docs d d' f : same_index d d' -> feature_docs d' f = feature_docs d f.
Proof. intros (_ & H & _). unfold feature_docs. by rewrite H. Qed.

(** A step inside a transaction that changes the assignment table to [fc]. *)

Record step (d d' : db) (fc : gmap N fc_row) : Prop := Step {
  step_winv : usable d';
  step_index : same_index d d';
  step_fc : feature_cluster d' = fc;
  step_pins : forall c, cluster_pinned d' c = cluster_pinned d c;
  (* no cluster row disappears *)
  step_dom : dom (cluster d) ⊆ dom (cluster d') }.

Lemma step_refl d : usable d -> step d d (feature_cluster d).
Proof. intros H. by split. Qed.

Lemma step_trans d1 d2 d3 fc2 fc3 : step d1 d2 fc2 -> step d2 d3 fc3 -> step d1 d3 fc3.
Proof.
  intros [H1 H2 H3 H4 H5] [H1' H2' H3' H4' H5']. split; try done.
  - by eapply same_index_trans.
  - intros c. by rewrite H4'.
  - set_solver.
Qed.

(** The summary of [c] only depends on the members of [c] and their documents. *)
Lemma summary_correct_ext d d' c row :
  members d' c = members d c -> (forall f, feature_docs d' f = feature_docs d f) ->
  summary_correct d c row -> summary_correct d' c row.
Proof.
  intros Hm Hf (H1 & (docs & H2 & H3 & H4) & H5). unfold summary_correct. rewrite Hm.
  split_and!; [done| |].
  - exists docs. split_and!; [done| |done]. intros doc. rewrite H3.
    split; intros (f & ? & ?); exists f; rewrite ?Hf in *; auto.
  - rewrite H5. f_equal. generalize (elements (members d c)) as l. intros l.
    induction l as [|x l IH]; [done|]. simpl. by rewrite Hf, IH.
Qed.

(** ** ensure_cluster and mark_changed *)
Definition ensure_mark (c : Z) (d : db) : db :=
  set_changed_cluster ({[c]} ∪ changed_cluster d) (ensure_cluster c d).

Lemma mark_ensure c d : mark_changed c (ensure_cluster c d) = Ok (ensure_mark c d).
Proof.
  unfold mark_changed, ensure_mark, ensure_cluster.
  destruct (cluster d !! c) as [row|] eqn:E; [by rewrite E|].
  simpl. by rewrite lookup_insert.
Qed.

Lemma cluster_ensure_mark c d x :
  cluster (ensure_mark c d) !! x =
  match cluster d !! x with
  | Some row => Some row
  | None => if decide (x = c) then Some default_cluster_row else None
  end.
Proof.
  unfold ensure_mark, ensure_cluster. destruct (cluster d !! c) as [row|] eqn:E; simpl.
  - destruct (cluster d !! x) eqn:Ex; [done|]. case_decide; [congruence|done].
  - destruct (decide (x = c)) as [->|Hne].
    + by rewrite lookup_insert, E.
    + rewrite lookup_insert_ne by done. by destruct (cluster d !! x).
Qed.

Lemma fc_ensure_mark c d : feature_cluster (ensure_mark c d) = feature_cluster d.
Proof. unfold ensure_mark, ensure_cluster. by destruct (cluster d !! c). Qed.
Lemma index_ensure_mark c d : same_index d (ensure_mark c d).
Proof. unfold ensure_mark, ensure_cluster. by destruct (cluster d !! c). Qed.
Lemma changed_ensure_mark c d : changed_cluster (ensure_mark c d) = {[c]} ∪ changed_cluster d.
Proof. done. Qed.

Lemma winv_ensure_mark c d : usable d -> usable (ensure_mark c d).
Proof.
  intros [(Hfc & Hii & Hch) Hst]. split; [split_and!|].
  - rewrite fc_ensure_mark. destruct (index_ensure_mark c d) as (_ & -> & _).
    intros f row Hf. destruct (Hfc f row Hf) as [? [r Hr]]. split; [done|].
    exists r. by rewrite cluster_ensure_mark, Hr.
  - destruct (index_ensure_mark c d) as (_ & -> & _). done.
  - rewrite changed_ensure_mark. intros x. rewrite elem_of_union, elem_of_singleton, cluster_ensure_mark.
    intros [->|Hx].
    + destruct (cluster d !! c); [eauto|]. rewrite decide_True by done. eauto.
    + destruct (Hch x Hx) as [r Hr]. rewrite Hr. eauto.
  - intros x row. rewrite cluster_ensure_mark, changed_ensure_mark, not_elem_of_union, not_elem_of_singleton.
    intros Hx [Hne Hnc]. destruct (cluster d !! x) as [r|] eqn:E.
    + injection Hx as ->. destruct (Hst x row E Hnc) as [Hs Hm].
      assert (members (ensure_mark c d) x = members d x) as Hmem
        by (unfold members; by rewrite fc_ensure_mark).
      rewrite Hmem. split; [|done].
      eapply summary_correct_ext; [exact Hmem| |exact Hs].
      intros f. apply same_index_feature_docs, index_ensure_mark.
    + rewrite decide_False in Hx by done. done.
Qed.

Lemma step_ensure_mark c d : usable d -> step d (ensure_mark c d) (feature_cluster d).
Proof.
  intros H. split.
  - by apply winv_ensure_mark.
  - apply index_ensure_mark.
  - apply fc_ensure_mark.
  - intros x. unfold cluster_pinned. rewrite cluster_ensure_mark.
    destruct (cluster d !! x); [done|]. by case_decide.
  - intros x. rewrite !elem_of_dom, cluster_ensure_mark. intros [r ->]. eauto.
Qed.

(** Marking an existing cluster. *)
Lemma step_mark c d : usable d -> is_Some (cluster d !! c) ->
  exists d', mark_changed c d = Ok d' /\ step d d' (feature_cluster d) /\
             changed_cluster d' = {[c]} ∪ changed_cluster d /\ cluster d' = cluster d.
Proof.
  intros Hw [row Hrow]. unfold mark_changed. rewrite Hrow. eexists. split; [reflexivity|].
  assert (set_changed_cluster ({[c]} ∪ changed_cluster d) d = ensure_mark c d) as ->.
  { unfold ensure_mark, ensure_cluster. by rewrite Hrow. }
  split; [by apply step_ensure_mark|]. split; [done|].
  unfold ensure_mark, ensure_cluster. by rewrite Hrow.
Qed.

(** Replacing the row of one feature when its old and new clusters are marked. *)
Lemma step_set_fc d (f : N) (o : option fc_row) :
  usable d ->
  (forall row, feature_cluster d !! f = Some row -> fc_cluster row ∈ changed_cluster d) ->
  (forall row, o = Some row -> fc_cluster row ∈ changed_cluster d /\
     exists ii, inverted_index d !! f = Some ii /\ fc_docs_count row = f_docs_count ii) ->
  step d (set_feature_cluster (partial_alter (fun _ => o) f (feature_cluster d)) d)
       (partial_alter (fun _ => o) f (feature_cluster d)).
Proof.
  intros [(Hfc & Hii & Hch) Hst] Hold Hnew.
  split; [split; [split_and!|]|done..]; simpl.
  - intros g row Hg. destruct (decide (g = f)) as [->|Hne].
    + rewrite lookup_partial_alter in Hg. subst o.
      destruct (Hnew row eq_refl) as [H1 H2]. split; [done|]. by apply Hch.
    + rewrite lookup_partial_alter_ne in Hg by done. auto.
  - done.
  - done.
  - intros c row Hc Hnc. destruct (Hst c row Hc Hnc) as [Hs Hm].
    set (d' := set_feature_cluster (partial_alter (λ _ : option fc_row, o) f (feature_cluster d)) d).
    assert (members d' c = members d c) as Hmem.
    { apply set_eq. intros x. rewrite !elem_of_members. simpl.
      destruct (decide (x = f)) as [->|Hne].
      - rewrite lookup_partial_alter. split; intros (r & Hr & Hrc); exfalso; apply Hnc; rewrite <- Hrc.
        + by apply Hnew.
        + by apply Hold.
      - by rewrite lookup_partial_alter_ne by done. }
    rewrite Hmem. split; [|done]. eapply summary_correct_ext; [exact Hmem|done|done].
Qed.

(** ** The statements *)
Lemma step_update_row c d f : usable d ->
  exists d', update_row_cluster c d f = Ok d' /\
    step d d' (alter (fun row => FcRow c (fc_docs_count row) (fc_pinned row)) f (feature_cluster d)).
Proof.
  intros Hw. unfold update_row_cluster. destruct (feature_cluster d !! f) as [row|] eqn:E.
  - set (row' := FcRow c (fc_docs_count row) (fc_pinned row)).
    destruct Hw as [(Hfc & Hii & Hch) Hst]. destruct (Hfc f row E) as [(ii & Hf & Hdc) Hcl].
    assert (Hw : usable d) by (split; [split_and!|]; done).
    assert (alter (fun row => FcRow c (fc_docs_count row) (fc_pinned row)) f (feature_cluster d)
            = partial_alter (fun _ => Some row') f (feature_cluster d)) as Hal.
    { apply map_eq. intros x. destruct (decide (x = f)) as [->|Hne].
      - by rewrite lookup_alter, lookup_partial_alter, E.
      - by rewrite lookup_alter_ne, lookup_partial_alter_ne by done. }
    destruct (Z.eqb_spec (fc_cluster row) c) as [Heq|Hne].
    + cbn [rbind]. eexists. split; [reflexivity|].
      assert (row' = row) as Hrow by (unfold row'; rewrite <- Heq; by destruct row).
      rewrite Hrow.
      assert (set_feature_cluster (<[f:=row]> (feature_cluster d)) d = d) as ->.
      { rewrite insert_id by done. by destruct d. }
      rewrite Hal, Hrow. assert (partial_alter (λ _, Some row) f (feature_cluster d) = feature_cluster d) as ->.
      { apply map_eq. intros x. destruct (decide (x = f)) as [->|Hne].
        - by rewrite lookup_partial_alter.
        - by rewrite lookup_partial_alter_ne. }
      by apply step_refl.
    + rewrite mark_ensure. cbn [rbind].
      pose proof (step_ensure_mark c d Hw) as S1.
      destruct (step_mark (fc_cluster row) (ensure_mark c d)) as (d2 & H2 & S2 & Hch2 & _).
      { apply S1. }
      { rewrite cluster_ensure_mark. destruct Hcl as [r ->]. eauto. }
      rewrite H2. cbn [rbind]. eexists. split; [reflexivity|].
      rewrite Hal.
      assert (feature_cluster d2 = feature_cluster d) as Hfc2.
      { rewrite (step_fc _ _ _ S2). apply fc_ensure_mark. }
      eapply step_trans; [eapply step_trans; [exact S1|exact S2]|].
      rewrite <- Hfc2. rewrite Hfc2. rewrite <- Hfc2. unfold insert, map_insert.
      apply step_set_fc.
      * apply S2.
      * intros r. rewrite Hfc2, E. intros [= <-]. rewrite Hch2. set_solver.
      * intros r [= <-]. split.
        -- rewrite Hch2, changed_ensure_mark. simpl. set_solver.
        -- exists ii. destruct (step_index _ _ _ S2) as (_ & -> & _).
           destruct (index_ensure_mark c d) as (_ & -> & _). done.
  - eexists. split; [reflexivity|].
    assert (alter (fun row => FcRow c (fc_docs_count row) (fc_pinned row)) f (feature_cluster d)
            = feature_cluster d) as ->; [|by apply step_refl].
    apply map_eq. intros x. destruct (decide (x = f)) as [->|Hne].
    + by rewrite lookup_alter, E.
    + by rewrite lookup_alter_ne.
Qed.

Lemma step_delete_row d f : usable d ->
  exists d', delete_fc_row d f = Ok d' /\ step d d' (delete f (feature_cluster d)).
Proof.
  intros Hw. unfold delete_fc_row. destruct (feature_cluster d !! f) as [row|] eqn:E.
  - destruct Hw as [(Hfc & Hii & Hch) Hst]. destruct (Hfc f row E) as [(ii & Hf & Hdc) Hcl].
    assert (Hw : usable d) by (split; [split_and!|]; done).
    destruct (step_mark (fc_cluster row) d Hw Hcl) as (d2 & H2 & S2 & Hch2 & _).
    rewrite H2. cbn [rbind]. eexists. split; [reflexivity|].
    pose proof (step_fc _ _ _ S2) as Hfc2.
    eapply step_trans; [exact S2|]. rewrite <- Hfc2.
    apply step_set_fc; [apply S2| |done].
    intros r. rewrite Hfc2, E. intros [= <-]. rewrite Hch2. set_solver.
  - eexists. split; [reflexivity|]. rewrite delete_notin by done. by apply step_refl.
Qed.

(** Inserting: succeeds exactly if the feature exists and (unless ignoring) is unassigned. *)
Lemma step_insert ign f c dc d : usable d ->
  (forall ii, inverted_index d !! f = Some ii -> dc = f_docs_count ii) ->
  match insert_feature_cluster ign f c dc d with
  | Ok d' =>
      is_Some (inverted_index d !! f) /\
      step d d' (match feature_cluster d !! f with
                 | Some _ => feature_cluster d
                 | None => <[f := FcRow c dc false]> (feature_cluster d)
                 end) /\
      (ign = false -> feature_cluster d !! f = None)
  | Err e => e = IntegrityError /\
      (inverted_index d !! f = None \/ (ign = false /\ is_Some (feature_cluster d !! f)))
  end.
Proof.
  intros Hw Hdc. unfold insert_feature_cluster. rewrite mark_ensure. cbn [rbind].
  rewrite fc_ensure_mark. destruct (index_ensure_mark c d) as (_ & Hinv & _). rewrite Hinv.
  pose proof (step_ensure_mark c d Hw) as S1.
  destruct (feature_cluster d !! f) as [row|] eqn:E.
  - destruct ign.
    + split; [|split]; [|exact S1|done].
      destruct Hw as [(Hfc & _) _]. destruct (Hfc f row E) as [(ii & -> & _) _]. eauto.
    + split; [done|]. right. eauto.
  - destruct (inverted_index d !! f) as [ii|] eqn:Ei; [|by split; [|left]].
    split; [eauto|]. split; [|done].
    eapply step_trans; [exact S1|]. rewrite <- (fc_ensure_mark c d).
    apply (step_set_fc (ensure_mark c d) f (Some (FcRow c dc false))).
    + apply S1.
    + intros r. rewrite fc_ensure_mark, E. done.
    + intros r [= <-]. split; [rewrite changed_ensure_mark; simpl; set_solver|].
      exists ii. rewrite Hinv. split; [done|]. simpl. by apply Hdc.
Qed.

Lemma step_feature_pinned p f d : usable d ->
  exists d', update_feature_pinned p f d = Ok d' /\
    step d d' (alter (fun row => FcRow (fc_cluster row) (fc_docs_count row) p) f (feature_cluster d)) /\
    cluster d' = cluster d /\ changed_cluster d' = changed_cluster d.
Proof.
  intros Hw. unfold update_feature_pinned. destruct (feature_cluster d !! f) as [row|] eqn:E.
  - eexists. split; [reflexivity|]. split; [|done].
    assert (alter (fun row => FcRow (fc_cluster row) (fc_docs_count row) p) f (feature_cluster d)
            = <[f := FcRow (fc_cluster row) (fc_docs_count row) p]> (feature_cluster d)) as ->.
    { apply map_eq. intros x. destruct (decide (x = f)) as [->|Hne].
      - by rewrite lookup_alter, lookup_insert, E.
      - by rewrite lookup_alter_ne, lookup_insert_ne by done. }
    destruct Hw as [(Hfc & Hii & Hch) Hst].
    split; [split; [split_and!|]|done..]; simpl; [|done|done|].
    + intros g r Hg. destruct (decide (g = f)) as [->|Hne].
      * rewrite lookup_insert in Hg. injection Hg as <-. simpl. by apply (Hfc f row).
      * rewrite lookup_insert_ne in Hg by done. auto.
    + intros c r Hc Hnc. destruct (Hst c r Hc Hnc) as [Hs Hm].
      match goal with |- summary_correct ?d' _ _ /\ _ =>
        assert (members d' c = members d c) as Hmem end.
      { apply set_eq. intros x. rewrite !elem_of_members. simpl.
        destruct (decide (x = f)) as [->|Hne].
        - rewrite lookup_insert, E. split; intros (r' & [= <-] & Hr'); eauto.
        - by rewrite lookup_insert_ne by done. }
      rewrite Hmem. split; [|done]. eapply summary_correct_ext; [exact Hmem|done|done].
  - eexists. split; [reflexivity|].
    assert (alter (fun row => FcRow (fc_cluster row) (fc_docs_count row) p) f (feature_cluster d)
            = feature_cluster d) as ->; [|by split; [apply step_refl|]].
    apply map_eq. intros x. destruct (decide (x = f)) as [->|Hne].
    + by rewrite lookup_alter, E.
    + by rewrite lookup_alter_ne.
Qed.

(** ** Loops of statements *)
Lemma rfold_steps {A} (s : db -> A -> res db) (F : gmap N fc_row -> A -> gmap N fc_row) :
  (forall x d, usable d -> exists d', s d x = Ok d' /\ step d d' (F (feature_cluster d) x)) ->
  forall l d, usable d -> exists d', rfold s l d = Ok d' /\ step d d' (foldl F (feature_cluster d) l).
Proof.
  intros Hs l. induction l as [|x l IH]; intros d Hw.
  - exists d. split; [done|]. by apply step_refl.
  - destruct (Hs x d Hw) as (d1 & H1 & S1). destruct (IH d1 ltac:(apply S1)) as (d2 & H2 & S2).
    exists d2. simpl. rewrite H1. simpl. split; [done|].
    eapply step_trans; [exact S1|]. by rewrite <- (step_fc _ _ _ S1).
Qed.

Lemma dmany_steps {A} (s : A -> db -> res db) (F : gmap N fc_row -> A -> gmap N fc_row) :
  (forall x d, usable d -> exists d', s x d = Ok d' /\ step d d' (F (feature_cluster d) x)) ->
  forall l d, usable d -> exists d', dmany s l d = (d', Ok tt) /\ step d d' (foldl F (feature_cluster d) l).
Proof.
  intros Hs l. induction l as [|x l IH]; intros d Hw.
  - exists d. split; [done|]. by apply step_refl.
  - destruct (Hs x d Hw) as (d1 & H1 & S1). destruct (IH d1 ltac:(apply S1)) as (d2 & H2 & S2).
    exists d2. simpl. unfold dbind, dstmt. rewrite H1. split; [done|].
    eapply step_trans; [exact S1|]. by rewrite <- (step_fc _ _ _ S1).
Qed.

Definition move_row (c : Z) (row : fc_row) : fc_row := FcRow c (fc_docs_count row) (fc_pinned row).

Lemma foldl_alter_lookup (h : fc_row -> fc_row) (fs : list N) (m : gmap N fc_row) x :
  (forall r, h (h r) = h r) ->
  foldl (fun m f => alter h f m) m fs !! x =
  (if decide (x ∈ fs) then h <$> m !! x else m !! x).
Proof.
  intros Hh. revert m. induction fs as [|f fs IH]; intros m.
  - cbn [foldl]. rewrite decide_False; [done|]. by intros H%elem_of_nil.
  - cbn [foldl]. rewrite IH. destruct (decide (x = f)) as [->|Hne].
    + rewrite lookup_alter. rewrite (decide_True (P := f ∈ f :: fs)) by left.
      case_decide; [|done]. destruct (m !! f); simpl; [|done]. by rewrite Hh.
    + rewrite lookup_alter_ne by done.
      destruct (decide (x ∈ fs)); [rewrite decide_True by (by right)|rewrite decide_False]; try done.
      rewrite elem_of_cons. intros [?|?]; done.
Qed.

Lemma foldl_delete_lookup (fs : list N) (m : gmap N fc_row) x :
  foldl (fun m f => delete f m) m fs !! x = (if decide (x ∈ fs) then None else m !! x).
Proof.
  revert m. induction fs as [|f fs IH]; intros m.
  - cbn [foldl]. rewrite decide_False; [done|]. by intros H%elem_of_nil.
  - cbn [foldl]. rewrite IH. destruct (decide (x = f)) as [->|Hne].
    + rewrite lookup_delete. rewrite (decide_True (P := f ∈ f :: fs)) by left. by case_decide.
    + rewrite lookup_delete_ne by done.
      destruct (decide (x ∈ fs)); [rewrite decide_True by (by right)|rewrite decide_False]; try done.
      rewrite elem_of_cons. intros [?|?]; done.
Qed.

(** index.py:1003 *)
Lemma step_update_cluster new old d : usable d ->
  exists d', update_cluster_of_cluster new old d = Ok d' /\
    step d d' ((fun row => if decide (fc_cluster row = old) then move_row new row else row)
                 <$> feature_cluster d).
Proof.
  intros Hw. unfold update_cluster_of_cluster.
  destruct (rfold_steps (update_row_cluster new) (fun m f => alter (move_row new) f m))
    with (l := features_of_cluster old d) (d := d) as (d' & H & S); [|done|].
  { intros x d0 Hw0. by apply step_update_row. }
  exists d'. split; [done|].
  assert (foldl (fun m f => alter (move_row new) f m) (feature_cluster d) (features_of_cluster old d)
    = (fun row => if decide (fc_cluster row = old) then move_row new row else row) <$> feature_cluster d)
    as <-; [|done].
  apply map_eq. intros x. rewrite foldl_alter_lookup by done. rewrite lookup_fmap.
  rewrite features_of_cluster_members.
  destruct (feature_cluster d !! x) as [row|] eqn:E; simpl.
  - case_decide as Hx; rewrite elem_of_bm_list, elem_of_members, E in Hx.
    + destruct Hx as (r & [= <-] & Hr). by rewrite decide_True.
    + rewrite decide_False; [done|]. intros Hc. apply Hx. eauto.
  - by case_decide.
Qed.

Lemma step_delete_cluster c d : usable d ->
  exists d', delete_fc_of_cluster c d = Ok d' /\
    step d d' (filter (fun kv => fc_cluster kv.2 <> c) (feature_cluster d)).
Proof.
  intros Hw. unfold delete_fc_of_cluster.
  destruct (rfold_steps delete_fc_row (fun m f => delete f m))
    with (l := features_of_cluster c d) (d := d) as (d' & H & S); [|done|].
  { intros x d0 Hw0. by apply step_delete_row. }
  exists d'. split; [done|].
  assert (foldl (fun m f => delete f m) (feature_cluster d) (features_of_cluster c d)
    = filter (fun kv => fc_cluster kv.2 <> c) (feature_cluster d)) as <-; [|done].
  apply map_eq. intros x. rewrite foldl_delete_lookup, features_of_cluster_members.
  case_decide as Hx; rewrite elem_of_bm_list, elem_of_members in Hx.
  - symmetry. apply map_filter_lookup_None. right. intros r Hr. simpl.
    destruct Hx as (r' & Hr' & <-). congruence.
  - destruct (feature_cluster d !! x) as [r|] eqn:E.
    + symmetry. apply map_filter_lookup_Some. split; [done|]. simpl. eauto.
    + symmetry. apply map_filter_lookup_None. by left.
Qed.

Lemma step_delete_all d : usable d -> exists d', delete_all_fc d = Ok d' /\ step d d' ∅.
Proof.
  intros Hw. unfold delete_all_fc.
  destruct (rfold_steps delete_fc_row (fun m f => delete f m))
    with (l := bm_list (dom (feature_cluster d))) (d := d) as (d' & H & S); [|done|].
  { intros x d0 Hw0. by apply step_delete_row. }
  exists d'. split; [done|].
  assert (foldl (fun m f => delete f m) (feature_cluster d) (bm_list (dom (feature_cluster d)))
    = (∅ : gmap N fc_row)) as <-; [|done].
  apply map_eq. intros x. rewrite foldl_delete_lookup, lookup_empty.
  case_decide as Hx; [done|]. rewrite elem_of_bm_list, elem_of_dom in Hx.
  by apply eq_None_not_Some.
Qed.

(** Changing nothing but pins of clusters. *)
Lemma winv_cluster_pinned p c d : usable d ->
  exists d', update_cluster_pinned p c d = Ok d' /\ usable d' /\ same_index d d' /\
    feature_cluster d' = feature_cluster d /\ changed_cluster d' = changed_cluster d /\
    dom (cluster d') = dom (cluster d) /\
    (forall x, cluster_pinned d' x =
       if decide (x = c /\ c ∈ dom (cluster d)) then p else cluster_pinned d x).
Proof.
  intros Hw. unfold update_cluster_pinned. destruct (cluster d !! c) as [row|] eqn:E.
  - eexists. split; [reflexivity|].
    destruct Hw as [(Hfc & Hii & Hch) Hst].
    assert (forall x r, cluster d !! x = Some r ->
      is_Some (<[c:=ClusterRow (c_feature_count row) (c_docs_count row) (c_weight row) (c_doc_ids row) p]>
                 (cluster d) !! x)) as Hin.
    { intros x r Hx. destruct (decide (x = c)) as [->|].
      - rewrite lookup_insert. eauto.
      - rewrite lookup_insert_ne by done. eauto. }
    split; [split; [split_and!|]|]; simpl.
    + intros f r Hf. destruct (Hfc f r Hf) as [? [r' Hr']]. eauto.
    + done.
    + intros x Hx. destruct (Hch x Hx) as [r Hr]. eauto.
    + intros x r Hx Hnx. cbn [cluster set_cluster] in Hx. destruct (decide (x = c)) as [->|Hne].
      * rewrite lookup_insert in Hx. injection Hx as <-.
        destruct (Hst c row E Hnx) as [Hs Hm]. split; [|done].
        destruct Hs as (H1 & H2 & H3). by split_and!.
      * rewrite lookup_insert_ne in Hx by done. by apply Hst.
    + split; [done|]. split; [done|]. split; [done|]. split.
      * rewrite dom_insert_L. apply elem_of_dom_2 in E. set_solver.
      * intros x. unfold cluster_pinned. simpl. destruct (decide (x = c)) as [->|Hne].
        -- rewrite lookup_insert. rewrite decide_True; [done|].
           split; [done|]. by apply elem_of_dom_2 in E.
        -- rewrite lookup_insert_ne by done. rewrite decide_False; [done|]. tauto.
  - exists d. split; [done|]. split; [done|]. split; [done|]. split; [done|].
    split; [done|]. split; [done|]. intros x. rewrite decide_False; [done|].
    rewrite elem_of_dom, E. intros [_ [? [=]]].
Qed.

(** ** Bodies *)
Lemma delete_clusters_body_spec cs d : usable d ->
  exists d', delete_clusters_body cs d = (d', Ok tt) /\
    step d d' (filter (fun kv => fc_cluster kv.2 ∉ cs) (feature_cluster d)).
Proof.
  intros Hw. unfold delete_clusters_body.
  destruct (dmany_steps delete_fc_of_cluster
    (fun m c => filter (fun kv => fc_cluster kv.2 <> c) m)) with (l := cs) (d := d) as (d' & H & S); [|done|].
  { intros x d0 Hw0. by apply step_delete_cluster. }
  exists d'. split; [done|].
  assert (foldl (fun m c => filter (fun kv : N * fc_row => fc_cluster kv.2 <> c) m) (feature_cluster d) cs
    = filter (fun kv => fc_cluster kv.2 ∉ cs) (feature_cluster d)) as <-; [|done].
  generalize (feature_cluster d) as m. clear. induction cs as [|c cs IH]; intros m; simpl.
  - symmetry. apply map_filter_id. intros. simpl. by intros ?%elem_of_nil.
  - rewrite IH. rewrite map_filter_filter. apply map_filter_ext. intros f r _. simpl.
    rewrite not_elem_of_cons. tauto.
Qed.

Lemma merge_clusters_body_spec m rest d : usable d ->
  exists d', merge_clusters_body (m :: rest) d = (d', Ok m) /\
    step d d' ((fun row => if decide (fc_cluster row ∈ rest) then move_row m row else row)
                 <$> feature_cluster d).
Proof.
  intros Hw. unfold merge_clusters_body.
  destruct (dmany_steps (update_cluster_of_cluster m)
    (fun fc old => (fun row => if decide (fc_cluster row = old) then move_row m row else row) <$> fc))
    with (l := rest) (d := d) as (d' & H & S); [|done|].
  { intros x d0 Hw0. by apply step_update_cluster. }
  exists d'. unfold dbind at 1. rewrite H. split; [done|].
  match type of S with step _ _ ?X =>
    assert (X = (fun row => if decide (fc_cluster row ∈ rest) then move_row m row else row)
                 <$> feature_cluster d) as <-; [|done] end.
  generalize (feature_cluster d) as fc. clear. induction rest as [|c rest IH]; intros fc.
  - cbn [foldl]. symmetry. rewrite <- (map_fmap_id fc) at 2. apply map_fmap_ext. intros i x _.
    rewrite decide_False; [done|]. by intros ?%elem_of_nil.
  - cbn [foldl]. rewrite IH, <- map_fmap_compose. apply map_fmap_ext. intros i x _. unfold compose.
    destruct (decide (fc_cluster x = c)) as [Hc|Hc].
    + rewrite (decide_True (P := fc_cluster x ∈ c :: rest)) by (rewrite Hc; left).
      by case_decide.
    + destruct (decide (fc_cluster x ∈ rest)).
      * rewrite decide_True by (by right). done.
      * rewrite decide_False; [done|]. rewrite elem_of_cons. tauto.
Qed.

Lemma delete_features_body_spec fs d : usable d ->
  exists d', delete_features_body fs d = (d', Ok tt) /\
    step d d' (filter (fun kv => kv.1 ∉ fs) (feature_cluster d)).
Proof.
  intros Hw. unfold delete_features_body.
  destruct (dmany_steps delete_fc_of_feature (fun m f => delete f m)) with (l := fs) (d := d)
    as (d' & H & S); [|done|].
  { intros x d0 Hw0. by apply step_delete_row. }
  exists d'. split; [done|].
  match type of S with step _ _ ?X =>
    assert (X = filter (fun kv => kv.1 ∉ fs) (feature_cluster d)) as <-; [|done] end.
  apply map_eq. intros x. rewrite foldl_delete_lookup. case_decide as Hx.
  - symmetry. apply map_filter_lookup_None. right. intros r _. simpl. tauto.
  - destruct (feature_cluster d !! x) eqn:E; symmetry.
    + by apply map_filter_lookup_Some.
    + apply map_filter_lookup_None. by left.
Qed.

Lemma pin_features_body_spec fs p d : usable d ->
  exists d', pin_features_body fs p d = (d', Ok tt) /\
    step d d' (map_imap (fun f row => Some (if decide (f ∈ fs)
       then FcRow (fc_cluster row) (fc_docs_count row) p else row)) (feature_cluster d)).
Proof.
  intros Hw. unfold pin_features_body.
  destruct (dmany_steps (update_feature_pinned p)
     (fun m f => alter (fun row => FcRow (fc_cluster row) (fc_docs_count row) p) f m))
    with (l := fs) (d := d) as (d' & H & S); [|done|].
  { intros x d0 Hw0. destruct (step_feature_pinned p x d0 Hw0) as (d1 & ? & ? & _). eauto. }
  exists d'. split; [done|].
  match type of S with step _ _ ?X => assert (X = map_imap (fun f row => Some (if decide (f ∈ fs)
       then FcRow (fc_cluster row) (fc_docs_count row) p else row)) (feature_cluster d)) as <-; [|done] end.
  apply map_eq. intros x. rewrite foldl_alter_lookup by done. rewrite map_lookup_imap.
  destruct (feature_cluster d !! x); simpl; by case_decide.
Qed.

Lemma pin_clusters_body_spec cs p d : usable d ->
  exists d', pin_clusters_body cs p d = (d', Ok tt) /\ usable d' /\ same_index d d' /\
    feature_cluster d' = feature_cluster d /\ changed_cluster d' = changed_cluster d /\
    dom (cluster d') = dom (cluster d) /\
    (forall x, cluster_pinned d' x =
       if decide (x ∈ cs /\ x ∈ dom (cluster d)) then p else cluster_pinned d x).
Proof.
  unfold pin_clusters_body. revert d. induction cs as [|c cs IH]; intros d Hw.
  - exists d. do 6 (split; [done|]). intros x. rewrite decide_False; [done|].
    by intros [?%elem_of_nil _].
  - destruct (winv_cluster_pinned p c d Hw) as (d1 & H1 & W1 & I1 & F1 & C1 & D1 & P1).
    destruct (IH d1 W1) as (d2 & H2 & W2 & I2 & F2 & C2 & D2 & P2).
    exists d2. simpl. unfold dbind, dstmt. rewrite H1. split; [done|]. split; [done|].
    split; [by eapply same_index_trans|]. split; [congruence|]. split; [congruence|].
    split; [congruence|]. intros x. rewrite P2, P1, D1.
    destruct (decide (x ∈ cs ∧ x ∈ dom (cluster d))) as [[? ?]|Hn1].
    + rewrite decide_True; [done|]. split; [by right|done].
    + destruct (decide (x = c ∧ c ∈ dom (cluster d))) as [[-> ?]|Hn2].
      * rewrite decide_True; [done|]. split; [by left|done].
      * rewrite decide_False; [done|]. rewrite elem_of_cons. intros [[->|?] ?]; tauto.
Qed.

(** ** next_cluster_id *)
Lemma next_cluster_id_fresh d c : c ∈ dom (cluster d) -> (c < next_cluster_id d)%Z.
Proof.
  intros Hc. unfold next_cluster_id, max_cluster_id.
  destruct (last (z_list (dom (cluster d)))) as [m|] eqn:E.
  - assert (c <= m)%Z; [|lia].
    apply last_Some in E as [l' E]. pose proof (sorted_z_list (dom (cluster d))) as Hs.
    apply elem_of_z_list in Hc. rewrite E in Hc, Hs.
    apply elem_of_app in Hc as [Hc|Hc]; [|apply elem_of_list_singleton in Hc; lia].
    clear E. induction l' as [|a l' IH]; [by apply elem_of_nil in Hc|].
    simpl in Hs. inversion Hs as [|? ? Hs' Hf]; subst.
    apply elem_of_cons in Hc as [->|Hc]; [|auto].
    rewrite Forall_forall in Hf. apply Hf. set_solver.
  - apply last_None in E. apply elem_of_z_list in Hc. rewrite E in Hc. by apply elem_of_nil in Hc.
Qed.

Lemma next_cluster_id_pos d :
  (forall c, c ∈ dom (cluster d) -> (0 <= c)%Z) -> (1 <= next_cluster_id d)%Z.
Proof.
  intros H. unfold next_cluster_id, max_cluster_id.
  destruct (last (z_list (dom (cluster d)))) as [m|] eqn:E; [|lia].
  apply last_Some in E as [l' E]. assert (m ∈ dom (cluster d)) as Hm.
  { apply elem_of_z_list. rewrite E. set_solver. }
  specialize (H m Hm). lia.
Qed.

(** ** create_cluster_from_features *)
Definition created_fc (d : db) (c : Z) (fs : list N) : gmap N fc_row :=
  map_imap (fun f ii =>
    match feature_cluster d !! f with
    | Some row => Some (if decide (f ∈ fs) then move_row c row else row)
    | None => if decide (f ∈ fs) then Some (FcRow c (f_docs_count ii) false) else None
    end) (inverted_index d).

Lemma insert_new_features_spec c fs d : usable d ->
  match dmany (insert_new_feature c) fs d with
  | (d', Ok _) =>
      (forall f, f ∈ fs -> is_Some (inverted_index d !! f)) /\
      step d d' (map_imap (fun f ii =>
        match feature_cluster d !! f with
        | Some row => Some row
        | None => if decide (f ∈ fs) then Some (FcRow c (f_docs_count ii) false) else None
        end) (inverted_index d))
  | (d', Err e) => e = IntegrityError /\ usable d' /\ exists f, f ∈ fs /\ inverted_index d !! f = None
  end.
Proof.
  revert d. induction fs as [|f fs IH]; intros d Hw.
  - simpl. split; [by intros f ?%elem_of_nil|].
    match goal with |- step _ _ ?X => assert (X = feature_cluster d) as -> end; [|by apply step_refl].
    apply map_eq. intros x. rewrite map_lookup_imap.
    destruct Hw as [(Hfc & _) _].
    destruct (feature_cluster d !! x) as [r|] eqn:E.
    + destruct (Hfc x r E) as [(ii & -> & _) _]. done.
    + destruct (inverted_index d !! x); [|done]. done.
  - cbn [dmany]. unfold dbind, dstmt.
    pose proof (step_insert true f c
      (match inverted_index d !! f with Some row => f_docs_count row | None => 0%N end) d Hw) as Hi.
    change (insert_feature_cluster true f c _ d) with (insert_new_feature c f d) in Hi.
    destruct (insert_new_feature c f d) as [d1|e].
    + destruct Hi as ([ii Hii] & S1 & _). { by intros ii ->. }
      rewrite Hii in S1.
      specialize (IH d1 ltac:(apply S1)).
      destruct (step_index _ _ _ S1) as (_ & Hinv & _).
      destruct (dmany (insert_new_feature c) fs d1) as [d2 [[]|e]].
      * destruct IH as [IHa S2]. rewrite Hinv in IHa. split.
        { intros x [->|Hx]%elem_of_cons; [eauto|auto]. }
        eapply step_trans; [exact S1|].
        match type of S2 with step _ _ ?X => match goal with |- step _ _ ?Y =>
          assert (Y = X) as -> end end; [|done].
        rewrite Hinv, (step_fc _ _ _ S1). apply map_eq. intros x. rewrite !map_lookup_imap.
        destruct (inverted_index d !! x) as [ix|] eqn:Ex; [|done]. simpl.
        destruct (feature_cluster d !! f) as [rf|] eqn:Ef.
        -- destruct (feature_cluster d !! x) as [rx|] eqn:Erx; [done|].
           destruct (decide (x ∈ fs)); [by rewrite decide_True by (by right)|].
           rewrite decide_False; [done|]. rewrite elem_of_cons. intros [->|?]; [congruence|done].
        -- destruct (decide (x = f)) as [->|Hne].
           ++ rewrite lookup_insert, Ef. rewrite decide_True by left. rewrite Hii in Ex. by injection Ex as ->.
           ++ rewrite lookup_insert_ne by done. destruct (feature_cluster d !! x); [done|].
              destruct (decide (x ∈ fs)); [by rewrite decide_True by (by right)|].
              rewrite decide_False; [done|]. rewrite elem_of_cons. intros [->|?]; done.
      * destruct IH as (? & ? & g & Hg & Hgn). split; [done|]. split; [done|].
        exists g. rewrite Hinv in Hgn. split; [by right|done].
    + destruct Hi as [-> [Hn|[? _]]]; [by intros ii ->| |done].
      split; [done|]. split; [done|]. exists f. split; [by left|done].
Qed.

Lemma create_cluster_body_spec fs d : usable d ->
  match create_cluster_body fs d with
  | (d', Ok c) =>
      c = next_cluster_id d /\ (forall f, f ∈ fs -> is_Some (inverted_index d !! f)) /\
      step d d' (created_fc d c fs)
  | (d', Err e) => e = IntegrityError /\ exists f, f ∈ fs /\ inverted_index d !! f = None
  end.
Proof.
  intros Hw. unfold create_cluster_body, dbind, dget. simpl.
  set (c := next_cluster_id d).
  pose proof (insert_new_features_spec c fs d Hw) as Hi.
  destruct (dmany (insert_new_feature c) fs d) as [d1 [[]|e]]; [|by destruct Hi as (? & _ & ?)].
  destruct Hi as [Hall S1].
  destruct (dmany_steps (update_cluster_of_feature c) (fun m f => alter (move_row c) f m))
    with (l := fs) (d := d1) as (d2 & H2 & S2).
  { intros x d0 Hw0. by apply step_update_row. }
  { apply S1. }
  rewrite H2. simpl. split; [done|]. split; [done|].
  eapply step_trans; [exact S1|].
  match type of S2 with step _ _ ?X => assert (X = created_fc d c fs) as <-; [|done] end.
  rewrite (step_fc _ _ _ S1). unfold created_fc.
  apply map_eq. intros x. rewrite foldl_alter_lookup by done. rewrite !map_lookup_imap.
  destruct (inverted_index d !! x) as [ix|]; simpl; [|by case_decide].
  destruct (feature_cluster d !! x); simpl; case_decide; done.
Qed.

(** ** initialise_clusters *)
Definition row_entry (r : Z * (N * N)) : N * fc_row := (r.2.1, FcRow r.1 r.2.2 false).

Lemma insert_rows_spec rows d : usable d ->
  (forall c f dc, (c, (f, dc)) ∈ rows ->
     exists ii, inverted_index d !! f = Some ii /\ dc = f_docs_count ii) ->
  match dmany (fun '(c, (f, dc)) => insert_feature_cluster false f c dc) rows d with
  | (d', Ok _) =>
      NoDup ((fun r => r.2.1) <$> rows) /\
      (forall r, r ∈ rows -> feature_cluster d !! r.2.1 = None) /\
      step d d' (list_to_map (row_entry <$> rows) ∪ feature_cluster d)
  | (d', Err e) => e = IntegrityError /\
      ~ (NoDup ((fun r => r.2.1) <$> rows) /\ forall r, r ∈ rows -> feature_cluster d !! r.2.1 = None)
  end.
Proof.
  revert d. induction rows as [|[c [f dc]] rows IH]; intros d Hw Hrows.
  - simpl. split; [constructor|]. split; [by intros r ?%elem_of_nil|].
    rewrite (left_id_L ∅ (∪)). by apply step_refl.
  - cbn [dmany]. unfold dbind, dstmt.
    destruct (Hrows c f dc ltac:(left)) as (ii & Hii & Hdc).
    pose proof (step_insert false f c dc d Hw) as Hi.
    destruct (insert_feature_cluster false f c dc d) as [d1|e].
    + destruct Hi as (_ & S1 & Hnone). { intros ii' Hii'. congruence. }
      specialize (Hnone eq_refl). rewrite Hnone in S1.
      specialize (IH d1 ltac:(apply S1)).
      destruct (step_index _ _ _ S1) as (_ & Hinv & _). rewrite Hinv in IH.
      specialize (IH ltac:(intros; eapply Hrows; right; eassumption)).
      rewrite (step_fc _ _ _ S1) in IH.
      destruct (dmany _ rows d1) as [d2 [[]|e]].
      * destruct IH as (Hnd & Hfree & S2).
        assert (f ∉ (fun r : Z * (N * N) => r.2.1) <$> rows) as Hf.
        { rewrite elem_of_list_fmap. intros (r & -> & Hr). specialize (Hfree r Hr).
          by rewrite lookup_insert in Hfree. }
        split_and!.
        -- cbn [fmap list_fmap]. constructor; done.
        -- intros r [->|Hr]%elem_of_cons; [done|].
           specialize (Hfree r Hr). rewrite lookup_insert_None in Hfree. by destruct Hfree.
        -- eapply step_trans; [exact S1|]. cbn [fmap list_fmap list_to_map foldr row_entry fst snd].
           rewrite <- insert_union_l, insert_union_r; [exact S2|].
           apply not_elem_of_list_to_map_1. rewrite <- list_fmap_compose. exact Hf.
      * destruct IH as [-> Hn]. split; [done|]. intros [Hnd Hfree]. apply Hn.
        cbn [fmap list_fmap] in Hnd. apply NoDup_cons in Hnd as [Hf Hnd]. split; [done|].
        intros r Hr. rewrite lookup_insert_ne; [by apply Hfree; right|].
        intros Heq. apply Hf. apply elem_of_list_fmap. by exists r.
    + destruct Hi as [-> [Hn|[_ Hs]]]; [intros ii' Hii'; congruence|congruence|].
      split; [done|]. intros [_ Hfree]. specialize (Hfree (c, (f, dc)) ltac:(left)). simpl in Hfree.
      rewrite Hfree in Hs. by destruct Hs.
Qed.

Lemma elem_of_selected_features md fields d f dc :
  (f, dc) ∈ selected_features md fields d <->
  exists ii, inverted_index d !! f = Some ii /\ dc = f_docs_count ii /\
             (md <= Z.of_N dc)%Z /\ f_field ii ∈ fields.
Proof.
  unfold selected_features. rewrite elem_of_concat. split.
  - intros (l & Hl & Hin). apply elem_of_list_fmap in Hin as (x & -> & Hx).
    destruct (inverted_index d !! x) as [ii|] eqn:E; [|by apply elem_of_nil in Hl].
    destruct (Z.leb_spec md (Z.of_N (f_docs_count ii))) as [Hle|]; [|by apply elem_of_nil in Hl].
    apply elem_of_replicate in Hl as [[= -> ->] Hn]. exists ii. split_and!; try done.
    destruct (filter (fun y => y = f_field ii) fields) as [|y ys] eqn:Ef; [done|].
    assert (y ∈ filter (fun y => y = f_field ii) fields) as Hy by (rewrite Ef; left).
    apply elem_of_list_filter in Hy as [-> ?]. done.
  - intros (ii & Hii & -> & Hle & Hf).
    eexists. split; [|apply elem_of_list_fmap; exists f; split; [reflexivity|]].
    + rewrite Hii. assert ((md <=? Z.of_N (f_docs_count ii))%Z = true) as -> by lia.
      apply elem_of_replicate. split; [done|].
      assert (f_field ii ∈ filter (fun y => y = f_field ii) fields) as Hy
        by (by apply elem_of_list_filter).
      destruct (filter (fun y => y = f_field ii) fields); [by apply elem_of_nil in Hy|done].
    + apply elem_of_bm_list. by apply elem_of_dom_2 in Hii.
Qed.

Lemma NoDup_count_le_1 {A} `{EqDecision A} (l : list A) x :
  NoDup l -> length (filter (fun y => y = x) l) <= 1.
Proof.
  induction 1 as [|a l Ha Hnd IH]; [simpl; lia|]. rewrite filter_cons. case_decide as Hax.
  - subst. simpl. assert (filter (fun y => y = x) l = []) as ->; [|simpl; lia].
    destruct (filter (fun y => y = x) l) as [|y ys] eqn:Ef; [done|].
    assert (y ∈ filter (fun y => y = x) l) as Hy by (rewrite Ef; left).
    apply elem_of_list_filter in Hy as [-> ?]. done.
  - done.
Qed.

Lemma NoDup_concat_keyed {B} (h : N -> list (N * B)) l :
  NoDup l -> (forall x, length (h x) <= 1) -> (forall x p, p ∈ h x -> p.1 = x) ->
  NoDup (concat (h <$> l)).*1.
Proof.
  intros Hnd Hlen Hkey. induction Hnd as [|x l Hx Hnd IH]; [constructor|].
  cbn [fmap list_fmap concat]. rewrite fmap_app. apply NoDup_app. split_and!.
  - specialize (Hlen x). destruct (h x) as [|p [|q r]]; simpl in *; [constructor| |lia].
    constructor; [by intros ?%elem_of_nil|constructor].
  - intros y Hy Hy'. apply elem_of_list_fmap in Hy as (p & -> & Hp).
    apply elem_of_list_fmap in Hy' as (q & Hq & Hq').
    apply elem_of_concat in Hq' as (l' & Hl' & Hin).
    apply elem_of_list_fmap in Hin as (z & -> & Hz).
    apply Hkey in Hp. apply Hkey in Hl'. congruence.
  - done.
Qed.

Lemma NoDup_selected_features md fields d :
  NoDup fields -> NoDup (selected_features md fields d).*1.
Proof.
  intros Hnd. unfold selected_features. apply NoDup_concat_keyed.
  - apply NoDup_bm_list.
  - intros x. destruct (inverted_index d !! x) as [ii|]; [|simpl; lia].
    destruct (_ <=? _)%Z; [|simpl; lia]. rewrite replicate_length. by apply NoDup_count_le_1.
  - intros x p. destruct (inverted_index d !! x) as [ii|]; [|by intros ?%elem_of_nil].
    destruct (_ <=? _)%Z; [|by intros ?%elem_of_nil].
    intros [-> _]%elem_of_replicate. done.
Qed.

Lemma initial_rows_0 fs : initial_rows 0 fs = [].
Proof. done. Qed.

Lemma initial_rows_features n fs : 1 <= n -> (initial_rows n fs).*2 ≡ₚ fs.
Proof.
  intros Hn. unfold initial_rows. etransitivity; [|apply (stride_partition n fs Hn)].
  generalize (seq 0 n) as ks. intros ks. induction ks as [|k ks IH]; [done|].
  cbn [fmap list_fmap concat]. rewrite fmap_app. f_equiv; [|done].
  rewrite <- list_fmap_compose. by rewrite list_fmap_id.
Qed.

Lemma initial_rows_cluster n fs c f : (c, f) ∈ initial_rows n fs -> (0 <= c < Z.of_nat n)%Z.
Proof.
  unfold initial_rows. intros (l & Hl & Hin)%elem_of_concat.
  apply elem_of_list_fmap in Hin as (i & -> & Hi). apply elem_of_seq in Hi.
  apply elem_of_list_fmap in Hl as (y & [= -> ->] & _). lia.
Qed.

Lemma initial_rows_of_cluster n fs i : i < n ->
  filter (fun r => r.1 = Z.of_nat i) (initial_rows n fs)
  = (fun f => (Z.of_nat i, f)) <$> stride i n fs.
Proof.
  intros Hi. unfold initial_rows.
  assert (forall ks, NoDup ks ->
    filter (fun r : Z * (N * N) => r.1 = Z.of_nat i)
      (concat ((fun i => (fun f => (Z.of_nat i, f)) <$> stride i n fs) <$> ks))
    = if decide (i ∈ ks) then (fun f => (Z.of_nat i, f)) <$> stride i n fs else []) as Hgen.
  { induction 1 as [|k ks Hk Hnd IH]; [done|]. cbn [fmap list_fmap concat].
    rewrite filter_app, IH.
    assert (forall l : list (N * N), filter (fun r : Z * (N * N) => r.1 = Z.of_nat i) ((fun f => (Z.of_nat k, f)) <$> l)
            = if decide (i = k) then (fun f => (Z.of_nat k, f)) <$> l else []) as Hf.
    { induction l as [|a l IHl]; [by destruct (decide (i = k))|].
      cbn [fmap list_fmap]. rewrite filter_cons, IHl.
      cbn [fst]. destruct (decide (i = k)) as [->|Hne].
      - by rewrite decide_True.
      - rewrite decide_False by lia. done. }
    rewrite Hf. destruct (decide (i = k)) as [->|Hne].
    - rewrite (decide_False (P := k ∈ ks)) by done. rewrite (decide_True (P := k ∈ k :: ks)) by left.
      by rewrite app_nil_r.
    - destruct (decide (i ∈ ks)); [rewrite decide_True by (by right)|rewrite decide_False]; try done.
      rewrite elem_of_cons. tauto. }
  rewrite Hgen by apply NoDup_seq. rewrite decide_True; [done|]. apply elem_of_seq. lia.
Qed.

Definition cleared (d : db) : db :=
  set_feature_cluster ∅ (set_cluster ∅ (set_changed_cluster ∅ d)).

Lemma winv_cleared d : usable d -> usable (cleared d).
Proof.
  intros [(Hfc & Hii & Hch) Hst]. split; [split_and!|]; simpl.
  - intros f row H. by rewrite lookup_empty in H.
  - done.
  - set_solver.
  - intros c row H. cbn [cluster cleared set_cluster set_feature_cluster] in H.
    by rewrite lookup_empty in H.
Qed.

(** index.py:935-936 *)
Lemma clear_spec d : usable d ->
  dbind (dstmt delete_all_fc) (fun _ => dstmt (delete_clusters_where true (fun _ => true))) d
  = (cleared d, Ok tt).
Proof.
  intros Hw. destruct (step_delete_all d Hw) as (d1 & H1 & S1).
  unfold dbind, dstmt. rewrite H1. unfold delete_clusters_where.
  rewrite (step_fc _ _ _ S1).
  rewrite bool_decide_true by apply map_Forall_empty.
  destruct (step_index _ _ _ S1) as (E1 & E2 & E3 & E4 & E5).
  f_equal. unfold set_changed_cluster, set_cluster. cbn [doc_key inverted_index position_doc_map
    position_index field_summary cluster feature_cluster changed_cluster].
  rewrite E1, E2, E3, E4, E5, (step_fc _ _ _ S1). unfold cleared, set_feature_cluster, set_cluster, set_changed_cluster.
  cbn. f_equal.
  - apply map_eq. intros x. rewrite lookup_empty. apply map_filter_lookup_None. right. done.
  - apply leibniz_equiv. intros x. split; [|set_solver].
    rewrite elem_of_difference, elem_of_dom. intros [Hx Hn]. exfalso. apply Hn.
    destruct (step_winv _ _ _ S1) as [(_ & _ & Hch) _]. destruct (Hch x Hx) as [r Hr].
    exists r. apply map_filter_lookup_Some. done.
Qed.

(** The rows that initialise_clusters inserts. *)
Definition init_rows (n : nat) (md : Z) (fields : list string) (g : rng) (d : db) : list (Z * (N * N)) :=
  initial_rows n (py_shuffle (selected_features md
    (match fields with [] => (map_to_list (field_summary d)).*1 | _ => fields end) d) g).1.

Lemma initialise_clusters_body_spec n md fields g d : usable d ->
  match initialise_clusters_body n md fields g d with
  | (d', Ok _) =>
      step (cleared d) d' (list_to_map (row_entry <$> init_rows n md fields g d)) /\
      NoDup ((fun r => r.2.1) <$> init_rows n md fields g d)
  | (d', Err e) => e = IntegrityError /\ ~ NoDup ((fun r => r.2.1) <$> init_rows n md fields g d)
  end.
Proof.
  intros Hw. unfold initialise_clusters_body.
  pose proof (clear_spec d Hw) as Hc.
  unfold dbind at 1. unfold dbind at 1 in Hc.
  destruct (dstmt delete_all_fc d) as [d1 [u|e]]; [|done].
  unfold dbind at 1. rewrite Hc. unfold dbind, dget.
  set (rows := initial_rows n _).
  assert (rows = init_rows n md fields g d) as -> by reflexivity.
  pose proof (insert_rows_spec (init_rows n md fields g d) (cleared d) (winv_cleared d Hw)) as H.
  destruct (dmany _ _ (cleared d)) as [d' [[]|e]].
  - destruct H as (Hnd & _ & S).
    { intros c f dc Hin. apply (elem_of_list_fmap_1 snd) in Hin. simpl in Hin.
      destruct n; [by apply elem_of_nil in Hin|]. unfold init_rows in Hin.
      rewrite initial_rows_features, py_shuffle_perm in Hin by lia.
      apply elem_of_selected_features in Hin as (ii & ? & ? & _). eauto. }
    split; [|done]. simpl in S. by rewrite (right_id_L ∅ (∪)) in S.
  - destruct H as (-> & Hn).
    { intros c f dc Hin. apply (elem_of_list_fmap_1 snd) in Hin. simpl in Hin.
      destruct n; [by apply elem_of_nil in Hin|]. unfold init_rows in Hin.
      rewrite initial_rows_features, py_shuffle_perm in Hin by lia.
      apply elem_of_selected_features in Hin as (ii & ? & ? & _). eauto. }
    split; [done|]. intros Hnd. apply Hn. split; [done|]. intros r _. simpl. apply lookup_empty.
Qed.

(** Distinct include_fields (or none given): the insertions cannot fail. *)
Lemma init_rows_NoDup n md fields g d :
  NoDup fields -> NoDup ((fun r => r.2.1) <$> init_rows n md fields g d).
Proof.
  intros Hnd. destruct n as [|n]; [constructor|].
  unfold init_rows. set (sel := selected_features _ _ _).
  change (NoDup (((fun r : N * N => r.1) ∘ snd) <$> initial_rows (S n) (py_shuffle sel g).1)).
  rewrite (list_fmap_compose snd (fun r : N * N => r.1)).
  rewrite (initial_rows_features (S n)) by lia. rewrite py_shuffle_perm.
  apply NoDup_selected_features. destruct fields; [|done]. apply NoDup_fst_map_to_list.
Qed.

(** ** Housekeeping *)
Lemma union_query_spec com fs q w :
  union_query com fs = (q, w) ->
  (forall doc, doc ∈ q <-> exists f, f ∈ fs /\ doc ∈ docs_of com f) /\
  w = N.of_nat (sum_list_with (fun f => size (docs_of com f)) fs).
Proof.
  unfold union_query. revert q w. induction fs as [|f fs IH] using rev_ind; intros q w.
  - simpl. intros [= <- <-]. split; [|done]. intros doc. split; [set_solver|].
    by intros (f & ?%elem_of_nil & _).
  - rewrite foldl_app. cbn [foldl].
    destruct (foldl _ _ fs) as [q0 w0]. destruct (IH q0 w0 eq_refl) as [H1 H2].
    intros [= <- <-]. split.
    + intros doc. rewrite elem_of_union, H1. split.
      * intros [(x & ? & ?)|?]; [exists x|exists f]; split; try done; set_solver.
      * intros (x & [Hx|Hx]%elem_of_app & Hd); [left; eauto|].
        apply elem_of_list_singleton in Hx. subst. by right.
    + rewrite sum_list_with_app, H2. simpl. lia.
Qed.

Lemma sum_list_with_perm {A} (h : A -> nat) l1 l2 : l1 ≡ₚ l2 -> sum_list_with h l1 = sum_list_with h l2.
Proof. induction 1; simpl; lia. Qed.

Lemma apply_unions_lookup com jobs d c :
  NoDup jobs.*1 ->
  cluster (apply_unions com jobs d) !! c =
  match cluster d !! c with
  | None => None
  | Some row =>
      match (list_to_map jobs : gmap Z (list N)) !! c with
      | None => Some row
      | Some fs => let '(q, w) := union_query com fs in
          Some (ClusterRow (c_feature_count row) (N.of_nat (size q)) w (Some q) (c_pinned row))
      end
  end.
Proof.
  unfold apply_unions. revert d. induction jobs as [|[c0 fs0] jobs IH]; intros d Hnd.
  - simpl. rewrite lookup_empty. by destruct (cluster d !! c).
  - cbn [fmap list_fmap fst] in Hnd. apply NoDup_cons in Hnd as [Hn Hnd].
    cbn [foldl]. rewrite IH by done. cbn [list_to_map foldr fst snd].
    destruct (union_query com fs0) as [q0 w0] eqn:Eq. unfold update_cluster_union.
    destruct (decide (c = c0)) as [->|Hne].
    + rewrite lookup_insert. rewrite not_elem_of_list_to_map_1 by done.
      destruct (cluster d !! c0) as [row|] eqn:E; [|by rewrite E].
      simpl. rewrite lookup_insert. by rewrite Eq.
    + rewrite lookup_insert_ne by done.
      destruct (cluster d !! c0) as [row0|]; [|done].
      simpl. by rewrite lookup_insert_ne.
Qed.

Lemma apply_unions_frame com jobs d :
  same_index d (apply_unions com jobs d) /\
  feature_cluster (apply_unions com jobs d) = feature_cluster d /\
  changed_cluster (apply_unions com jobs d) = changed_cluster d.
Proof.
  unfold apply_unions. revert d. induction jobs as [|[c fs] jobs IH]; intros d; [done|].
  cbn [foldl]. destruct (union_query com fs) as [q w].
  destruct (IH (update_cluster_union c q w d)) as (H1 & H2 & H3).
  assert (same_index d (update_cluster_union c q w d) /\
    feature_cluster (update_cluster_union c q w d) = feature_cluster d /\
    changed_cluster (update_cluster_union c q w d) = changed_cluster d) as (G1 & G2 & G3).
  { unfold update_cluster_union. by destruct (cluster d !! c). }
  split_and!; [by eapply same_index_trans|congruence|congruence].
Qed.

(** What housekeeping makes of a database, when the pool works. *)
Definition refreshed (d : db) (d' : db) : Prop :=
  references_ok d' /\ summaries_agree d' /\ same_index d d' /\
  feature_cluster d' = feature_cluster d /\
  (forall c, members d c ≠ ∅ -> cluster_pinned d' c = cluster_pinned d c).

Definition housekeeping_db (com d : db) : db :=
  let d1 := update_feature_counts d in apply_unions com (housekeeping_jobs d1) d1.

Lemma list_to_map_jobs d c :
  (list_to_map (housekeeping_jobs d) : gmap Z (list N)) !! c
  = if decide (c ∈ changed_cluster d) then Some (features_of_cluster c d) else None.
Proof.
  unfold housekeeping_jobs.
  assert (NoDup ((fun c => (c, features_of_cluster c d)) <$> z_list (changed_cluster d)).*1) as Hnd.
  { rewrite <- list_fmap_compose. simpl. rewrite (list_fmap_ext _ id); [|done].
    rewrite list_fmap_id. apply NoDup_z_list. }
  case_decide as Hc.
  - apply elem_of_list_to_map_1; [done|]. apply elem_of_list_fmap. exists c.
    split; [done|]. by apply elem_of_z_list.
  - apply not_elem_of_list_to_map_1. rewrite <- list_fmap_compose.
    rewrite elem_of_list_fmap. intros (x & -> & Hx). apply Hc. by apply elem_of_z_list in Hx.
Qed.

Lemma members_ext d d' c : feature_cluster d' = feature_cluster d -> members d' c = members d c.
Proof. intros H. unfold members. by rewrite H. Qed.

Lemma housekeeping_lookup com d c :
  cluster (housekeeping_db com d) !! c =
  match cluster d !! c with
  | None => None
  | Some row =>
      Some (if decide (c ∈ changed_cluster d) then
              let '(q, w) := union_query com (bm_list (members d c)) in
              ClusterRow (N.of_nat (size (members d c))) (N.of_nat (size q)) w (Some q) (c_pinned row)
            else row)
  end.
Proof.
  unfold housekeeping_db. rewrite apply_unions_lookup.
  - unfold update_feature_counts at 1. cbn [cluster set_cluster]. rewrite map_lookup_imap.
    rewrite list_to_map_jobs. cbn [changed_cluster update_feature_counts set_cluster].
    destruct (cluster d !! c) as [row|]; [|done]. simpl.
    case_decide as Hc.
    + rewrite bool_decide_true by done. rewrite !features_of_cluster_members.
      rewrite (members_ext d (update_feature_counts d)) by done.
      destruct (union_query com (bm_list (members d c))) as [q w]. simpl.
      by rewrite length_bm_list.
    + by rewrite bool_decide_false.
  - unfold housekeeping_jobs. rewrite <- list_fmap_compose. simpl.
    rewrite (list_fmap_ext _ id); [|done]. rewrite list_fmap_id. apply NoDup_z_list.
Qed.

Lemma housekeeping_frame com d :
  same_index d (housekeeping_db com d) /\
  feature_cluster (housekeeping_db com d) = feature_cluster d /\
  changed_cluster (housekeeping_db com d) = changed_cluster d.
Proof. unfold housekeeping_db. apply (apply_unions_frame com _ (update_feature_counts d)). Qed.

Definition drop_empty (b : bool) : dbm unit :=
  dbind (dstmt (delete_clusters_where b (fun row => (c_feature_count row =? 0)%N)))
        (fun _ => dstmt (fun d => Ok (set_changed_cluster ∅ d))).

Lemma summary_after com d c row :
  usable d -> inverted_index com = inverted_index d ->
  cluster (housekeeping_db com d) !! c = Some row ->
  summary_correct d c row /\ exists row0, cluster d !! c = Some row0 /\ c_pinned row = c_pinned row0.
Proof.
  intros [_ Hst] Hcom. rewrite housekeeping_lookup.
  destruct (cluster d !! c) as [row0|] eqn:E; [|done]. intros [= <-].
  case_decide as Hc.
  - destruct (union_query com (bm_list (members d c))) as [q w] eqn:Eq.
    destruct (union_query_spec _ _ _ _ Eq) as [Hq Hw]. split; [|eauto].
    assert (forall f, docs_of com f = feature_docs d f) as Hdocs.
    { intros f. unfold docs_of, feature_docs. by rewrite Hcom. }
    split_and!; simpl.
    + done.
    + exists q. split_and!; [done| |done]. intros doc. rewrite Hq.
      split; intros (f & Hf & Hd); exists f; rewrite elem_of_bm_list, ?Hdocs in *; auto.
    + rewrite Hw. f_equal. rewrite (sum_list_with_perm _ _ _ (bm_list_perm _)).
      generalize (elements (members d c)) as l. intros l. induction l as [|x l IH]; [done|].
      simpl. by rewrite Hdocs, IH.
  - split; [|eauto]. by apply (Hst c row0 E).
Qed.

Lemma drop_empty_refreshed b com d :
  usable d -> inverted_index com = inverted_index d ->
  exists d', drop_empty b (housekeeping_db com d) = (d', Ok tt) /\ refreshed d d'.
Proof.
  intros Hw Hcom. destruct (housekeeping_frame com d) as (Hidx & Hfc & Hch).
  set (h := housekeeping_db com d) in *.
  assert (forall c row, cluster h !! c = Some row ->
     ((c_feature_count row =? 0)%N = false <-> members d c ≠ ∅)) as Hcount.
  { intros c row Hc. destruct (summary_after com d c row Hw Hcom Hc) as [[Hn _] _].
    rewrite Hn, N.eqb_neq. split.
    - intros H He. apply H. by rewrite He, size_empty.
    - intros H He. apply H. apply leibniz_equiv, size_empty_inv. lia. }
  set (d' := set_changed_cluster ∅ (set_cluster (filter (fun kv => (c_feature_count kv.2 =? 0)%N = false) (cluster h)) h)).
  assert (drop_empty b h = (d', Ok tt)) as Hrun.
  { unfold drop_empty, dbind, dstmt, delete_clusters_where. destruct b; [|done].
    rewrite bool_decide_true; [done|].
    intros f row Hf. simpl. rewrite elem_of_dom. intros [r Hr].
    apply map_filter_lookup_Some in Hr as [Hr1 Hr2]. simpl in Hr2.
    rewrite Hfc in Hf.
    assert (members d (fc_cluster row) ≠ ∅) as Hm.
    { intros He. assert (f ∈ members d (fc_cluster row)) as Hin.
      { apply elem_of_members. eauto. } rewrite He in Hin. set_solver. }
    apply (Hcount _ _ Hr1) in Hm. congruence. }
  exists d'. split; [done|].
  assert (forall c row, cluster d' !! c = Some row <-> cluster h !! c = Some row /\ members d c ≠ ∅) as Hd'.
  { intros c row. unfold d'. cbn [cluster set_changed_cluster set_cluster].
    rewrite map_filter_lookup_Some. simpl. split; intros [H1 H2]; split; try done; by eapply Hcount. }
  assert (feature_cluster d' = feature_cluster d) as Hfc' by done.
  assert (same_index d d') as Hidx' by done.
  destruct Hw as [Href Hst]. pose proof Href as (Hrfc & Hrii & Hrch).
  split_and!.
  - (* references_ok *)
    destruct Hidx' as (_ & Hinv & _). split_and!.
    + rewrite Hfc', Hinv. intros f row Hf. destruct (Hrfc f row Hf) as [H1 [r Hr]]. split; [done|].
      assert (is_Some (cluster h !! fc_cluster row)) as [r' Hr'].
      { unfold h. rewrite housekeeping_lookup, Hr. eauto. }
      exists r'. apply Hd'. split; [done|]. intros He.
      assert (f ∈ members d (fc_cluster row)) as Hin by (apply elem_of_members; eauto).
      rewrite He in Hin. set_solver.
    + by rewrite Hinv.
    + unfold d'. cbn. set_solver.
  - (* summaries *)
    split_and!.
    + intros c row [Hc _]%Hd'.
      destruct (summary_after com d c row (conj Href Hst) Hcom Hc) as [Hs _].
      eapply summary_correct_ext; [by apply members_ext| |exact Hs].
      intros f. by apply same_index_feature_docs.
    + intros c. rewrite (members_ext d d') by done. split.
      * by intros [row [_ ?]%Hd'].
      * intros Hm.
        assert (exists f, f ∈ members d c) as [f Hf].
        { by apply set_choose_L. }
        apply elem_of_members in Hf as (row & Hf & <-).
        destruct (Hrfc f row Hf) as [_ [r Hr]].
        assert (is_Some (cluster h !! fc_cluster row)) as [r' Hr'].
        { unfold h. rewrite housekeeping_lookup, Hr. eauto. }
        exists r'. by apply Hd'.
    + done.
  - done.
  - done.
  - intros c Hm. unfold cluster_pinned.
    destruct (cluster d' !! c) as [row|] eqn:E.
    + apply Hd' in E as [E _].
      destruct (summary_after com d c row (conj Href Hst) Hcom E) as [_ (row0 & -> & ->)]. done.
    + destruct (cluster d !! c) as [row0|] eqn:E0; [|done]. exfalso.
      assert (is_Some (cluster h !! c)) as [r' Hr'].
      { unfold h. rewrite housekeeping_lookup, E0. eauto. }
      assert (cluster d' !! c = Some r') by (by apply Hd'). congruence.
Qed.

(** A refreshed database satisfies the weak invariant again. *)
Lemma summaries_winv d : references_ok d -> summaries_agree d -> usable d.
Proof.
  intros Hr (H1 & H2 & H3). split; [done|]. intros c row Hc _. split; [by apply H1|].
  apply H2. eauto.
Qed.
