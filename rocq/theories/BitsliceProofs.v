(** BitsliceProofs.v: the last slice computed by [compute_bitslice] is used (C01). *)
From Verif Require Import Base Utilities SpecUtilities UtilitiesProofs.

Lemma ripple_length slices x : length (ripple slices x).1 = length slices.
Proof.
  revert x. induction slices as [|bs rest IH]; intros x; [reflexivity|]. cbn [ripple].
  case_bool_decide; [reflexivity|]. specialize (IH (bs ∩ x)). destruct (ripple rest (bs ∩ x)). cbn in *. lia.
Qed.

Definition used_to_the_top (slices : list bitmap) : Prop :=
  match last slices with Some top => length slices = 1 \/ top ≠ ∅ | None => False end.

Lemma ripple_last slices x top : last slices = Some top -> top ≠ ∅ ->
  (ripple slices x).2 = ∅ -> exists top', last (ripple slices x).1 = Some top' /\ top' ≠ ∅.
Proof.
  revert x. induction slices as [|bs rest IH]; intros x Hl Ht; [discriminate|]. cbn [ripple].
  case_bool_decide as Hc.
  - intros _. cbn [fst]. destruct rest as [|r rest].
    + cbn in Hl. injection Hl as ->. cbn. eexists; split; [reflexivity|].
      apply set_choose_L in Ht as [d Hd]. intros E.
      assert (d ∉ top ∩ x) as Hn by (rewrite Hc; apply not_elem_of_empty).
      assert (d ∈ (top ∖ x) ∪ (x ∖ top)) as Hin.
      { rewrite elem_of_union, !elem_of_difference. rewrite elem_of_intersection in Hn. tauto. }
      rewrite E in Hin. exact (not_elem_of_empty _ Hin).
    + exists top. split; [exact Hl | exact Ht].
  - destruct rest as [|r rest].
    + cbn. intros E. contradiction.
    + intros E. assert (last (r :: rest) = Some top) as Hl' by exact Hl.
      specialize (IH (bs ∩ x) Hl' Ht). pose proof (ripple_length (r :: rest) (bs ∩ x)) as Hlen.
      destruct (ripple (r :: rest) (bs ∩ x)) as [rest' c] eqn:Er. cbn [fst snd] in *.
      destruct (IH E) as (top' & Hl1 & Ht'). exists top'. split; [|exact Ht'].
      destruct rest' as [|y rest']; [discriminate Hlen | exact Hl1].
Qed.

Lemma bitslice_step_used st x : used_to_the_top st.2 -> used_to_the_top (bitslice_step st x).2.
Proof.
  destruct st as [m slices]. unfold bitslice_step. cbn [snd]. intros H.
  pose proof (ripple_length slices x) as Hlen. pose proof (ripple_last slices x) as Hr.
  destruct (ripple slices x) as [slices' c]. cbn [fst snd] in *. case_bool_decide as Hc.
  - unfold used_to_the_top in *. destruct (last slices) as [top|] eqn:El; [|contradiction].
    destruct H as [H|H].
    + rewrite H in Hlen. destruct slices' as [|a [|b r]]; try discriminate Hlen. left. reflexivity.
    + destruct (Hr top eq_refl H Hc) as (top' & E & Ht). rewrite E. right. exact Ht.
  - unfold used_to_the_top. rewrite last_snoc. right. exact Hc.
Qed.

Lemma compute_bitslice_used bitmaps : used_to_the_top (compute_bitslice bitmaps).2.
Proof.
  unfold compute_bitslice. assert (used_to_the_top (∅ : bitmap, [∅ : bitmap]).2) as H by (left; reflexivity).
  revert H. generalize (∅ : bitmap, [∅ : bitmap]). induction bitmaps as [|x l IH]; intros st H; [exact H|].
  cbn [foldl]. apply IH, bitslice_step_used, H.
Qed.

Lemma bitslice_exact bitmaps m layers :
  compute_bitslice bitmaps = (m, layers) ->
  (forall d, d ∈ m <-> exists b, b ∈ bitmaps /\ d ∈ b) /\
  (forall d i, d ∈ default ∅ (layers !! i) <-> N.testbit (count_in bitmaps d) (N.of_nat i) = true) /\
  exists top, last layers = Some top /\ (length layers = 1 \/ top ≠ ∅).
Proof.
  intros E. destruct (bitslice_counts _ _ _ E) as [H1 H2]. split; [exact H1|]. split; [exact H2|].
  pose proof (compute_bitslice_used bitmaps) as H. rewrite E in H. unfold used_to_the_top in H. cbn [snd] in H.
  destruct (last layers) as [top|]; [|contradiction]. exists top. split; [reflexivity | exact H].
Qed.
