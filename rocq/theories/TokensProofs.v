(** TokensProofs.v *)
From Verif Require Export SpecTokens.

Section proofs.
  Context (is_space blank : N -> bool) (Hchars : characters is_space blank).
  Notation clean := (clean is_space).

  Lemma is_prefix_spec p l : is_prefix p l = true <-> exists r, l = p ++ r.
  Proof.
    revert l. induction p as [|a p IH]; intros l; cbn; [split; [by exists l|done]|]. destruct l as [|b l].
    - split; [done|by intros [r ?]].
    - rewrite andb_true_iff, N.eqb_eq, IH. split; [intros [-> [r ->]]; by exists r|intros [r [= -> ->]]; split; [done|by exists r]].
  Qed.
  Lemma at_marker_spec l : at_marker l = true <-> exists m r, marker m /\ l = m ++ r.
  Proof.
    unfold at_marker. rewrite !orb_true_iff, !is_prefix_spec. unfold marker. split.
    - intros [[[[r ->]|[r ->]]|[r ->]]|[r ->]]; eexists _, r; (split; [|done]); rewrite !elem_of_cons; auto.
    - intros (m & r & Hm & ->). rewrite !elem_of_cons in Hm. destruct Hm as [->|[->|[->|[->|Hm]]]]; [left; left; left|left; left; right|left; right|right|by apply elem_of_nil in Hm]; by exists r.
  Qed.
  Lemma marker_nonempty m : marker m -> exists c m', m = c :: m'.
  Proof. unfold marker. rewrite !elem_of_cons. intros [->|[->|[->|[->|Hm]]]]; [by eexists _, _..|by apply elem_of_nil in Hm]. Qed.

  (** The first word of a text and what follows. *)
  Notation solid w := (Forall (fun c => is_space c = false) w).
  Definition break (t : text) : Prop := t = [] \/ exists c t', t = c :: t' /\ is_space c = true.
  Lemma marker_in_word m r w t : marker m -> solid w -> break t -> w ++ t = m ++ r -> w ≠ [] \/ t ≠ [] -> exists r', w = m ++ r' /\ r = r' ++ t.
  Proof.
    intros Hm Hw Ht He _. assert (Forall (fun c => is_space c = false) m) as Hs by (apply Forall_forall; intros c Hc; by eapply markers_visible).
    clear Hm. revert w Hw He. induction Hs as [|c m Hc Hs IH]; intros w Hw He.
    - exists w. split; [done|]. by rewrite He.
    - destruct w as [|a w]; cbn in He.
      + destruct Ht as [->|(b & t' & -> & Hb)]; [done|]. injection He as -> ->. congruence.
      + injection He as -> He. apply Forall_cons in Hw as [_ Hw]. destruct (IH w Hw He) as (r' & -> & ->). by exists r'.
  Qed.
  Lemma at_marker_word w t : solid w -> break t -> w ≠ [] -> at_marker (w ++ t) = at_marker w.
  Proof.
    intros Hw Ht Hne. apply eq_true_iff_eq. rewrite !at_marker_spec. split.
    - intros (m & r & Hm & He). destruct (marker_in_word m r w t Hm Hw Ht He ltac:(by left)) as (r' & -> & _). by exists m, r'.
    - intros (m & r & Hm & ->). exists m, (r ++ t). split; [done|]. by rewrite app_assoc.
  Qed.
  Lemma clean_break skip t : break t -> clean skip t = clean false t.
  Proof. intros [->|(c & t' & -> & Hc)]; [done|]. cbn. by rewrite Hc. Qed.
  Lemma clean_skip w t : solid w -> break t -> clean true (w ++ t) = clean false t.
  Proof. intros Hw Ht. induction Hw as [|c w Hc Hw IH]; [by apply clean_break|]. cbn. by rewrite Hc. Qed.
  Lemma clean_word w t : solid w -> break t -> exists p, before_marker w p /\ clean false (w ++ t) = p ++ clean false t.
  Proof.
    intros Hw Ht. induction Hw as [|c w Hc Hw IH].
    - exists []. split; [|done]. left. split; [|done]. intros (m & Hm & l & r & He). destruct (marker_nonempty m Hm) as (a & m' & ->). by destruct l.
    - assert (clean false ((c :: w) ++ t) = if at_marker (c :: w) then clean true (w ++ t) else c :: clean false (w ++ t)) as E.
      { rewrite <- (at_marker_word (c :: w) t) by (first [done|by constructor]). cbn [app Tokens.clean]. by rewrite Hc. }
      rewrite E. destruct (at_marker (c :: w)) eqn:Em.
      + exists []. split; [|by rewrite clean_skip]. right. apply at_marker_spec in Em as (m & r & Hm & He). split; [by exists m, r|]. intros. cbn. lia.
      + destruct IH as (p & Hp & IH). exists (c :: p). split; [|by rewrite IH].
        assert (forall m r, marker m -> c :: w ≠ m ++ r) as Hno by (intros m r Hm He; assert (at_marker (c :: w) = true) by (apply at_marker_spec; by exists m, r); congruence).
        destruct Hp as [[Hp ->]|[(m & r & Hm & ->) Hp]].
        * left. split; [|done]. intros (m & Hm & [|a l] & r & He); [by apply (Hno m r)|]. injection He as -> He. apply Hp. exists m. split; [done|]. by exists l, r.
        * right. split; [by exists m, r|]. intros [|a p'] m' r' Hm' He; [by destruct (Hno m' r' Hm')|]. injection He as <- He. cbn. specialize (Hp p' m' r' Hm' He). lia.
  Qed.
  Lemma first_word t : exists w t', t = w ++ t' /\ solid w /\ break t'.
  Proof.
    induction t as [|c t (w & t' & -> & Hw & Hb)]; [exists [], []; split_and!; try done; by left|]. destruct (is_space c) eqn:Ec.
    - exists [], (c :: w ++ t'). split_and!; try done. right. by exists c, (w ++ t').
    - exists (c :: w), t'. split_and!; [done|by constructor|done].
  Qed.
  Lemma clean_cleaned t : cleaned is_space t (clean false t).
  Proof.
    remember (length t) as n eqn:En. revert t En. induction (lt_wf n) as [n _ IH]. intros t ->.
    destruct (first_word t) as (w & t' & -> & Hw & Hb). destruct (clean_word w t' Hw Hb) as (p & Hp & ->). destruct Hb as [->|(c & t'' & -> & Hc)].
    - cbn. rewrite !app_nil_r. by apply cleaned_last.
    - cbn [Tokens.clean]. rewrite Hc. apply cleaned_more; [done|done|done|]. eapply IH; [|done]. rewrite app_length. cbn. lia.
  Qed.

  (** No marker is left. *)
  Lemma before_marker_prefix w p : before_marker w p -> exists r, w = p ++ r.
  Proof. intros [[_ ->]|[(m & r & _ & ->) _]]; [exists []; by rewrite app_nil_r|by eexists]. Qed.
  Lemma solid_marker m : marker m -> solid m.
  Proof. intros Hm. apply Forall_forall. intros c Hc. by eapply markers_visible. Qed.
  Lemma before_marker_clean w p : before_marker w p -> ~ marked p.
  Proof.
    intros Hb. destruct (before_marker_prefix w p Hb) as [r0 ->]. intros (m & Hm & l & r & ->). destruct Hb as [[H _]|[_ H]].
    - apply H. exists m. split; [done|]. exists l, (r ++ r0). by rewrite <- !app_assoc.
    - specialize (H l m (r ++ r0) Hm ltac:(by rewrite <- !app_assoc)). rewrite !app_length in H. destruct (marker_nonempty m Hm) as (a & m' & ->). cbn in H. lia.
  Qed.
  Lemma cleaned_unmarked t t' : cleaned is_space t t' -> ~ marked t'.
  Proof.
    induction 1 as [w p Hw Hp|w p c t t' Hw Hp Hc Ht IH]; [by eapply before_marker_clean|]. intros (m & Hm & l & r & He).
    pose proof (solid_marker m Hm) as Hs. destruct (before_marker_prefix w p Hp) as [r0 ->]. apply Forall_app in Hw as [Hp' _].
    (* the marker is before or after the whitespace *)
    assert ((exists r', p = l ++ m ++ r') \/ (exists l', t' = l' ++ m ++ r)) as [[r' E]|[l' E]].
    { assert (m ≠ []) as Hne by (by destruct (marker_nonempty m Hm) as (? & ? & ->)). clear Hp IH Ht t r0 Hm. revert l He. induction Hp' as [|a p Ha Hp' IHp]; intros l He.
      - right. destruct l as [|b l]; cbn in He.
        + destruct m as [|b m]; [done|]. cbn in He. injection He as <- _. apply Forall_cons in Hs as [? _]. congruence.
        + injection He as _ ->. by exists l.
      - destruct l as [|b l]; cbn in He.
        + destruct m as [|b m]; [done|]. cbn in He. injection He as <- He. apply Forall_cons in Hs as [_ Hs].
          left. assert (exists r', p = m ++ r') as [r' ->]; [|by exists r'].
          clear -Hs He Hc. revert p He. induction Hs as [|b m Hb Hs IH]; intros p He; [by exists p|]. destruct p as [|a p]; cbn in He.
          * injection He as -> _. congruence.
          * injection He as -> He. destruct (IH p He) as [r' ->]. by exists r'.
        + injection He as <- He. destruct (IHp l He) as [[r' ->]|[l' ->]]; [left; by exists r'|right; by exists l']. }
    - apply (before_marker_clean _ _ Hp). exists m. split; [done|]. by exists l, r'.
    - apply IH. exists m. split; [done|]. by exists l', r.
  Qed.

  (** Pieces. *)
  Lemma pieces_infix t l w : pieces is_space t l -> w ∈ l -> exists a b, t = a ++ w ++ b.
  Proof.
    induction 1 as [t|w' s t l Hs Hp IH]; intros Hin.
    - apply elem_of_list_singleton in Hin as ->. exists [], []. by rewrite app_nil_r.
    - apply elem_of_cons in Hin as [->|Hin]; [by exists [], (s ++ t)|]. destruct (IH Hin) as (a & b & ->). exists (w' ++ s ++ a), b. by rewrite <- !app_assoc.
  Qed.
  Lemma letters_app t t' : letters blank (t ++ t') = letters blank t ++ letters blank t'.
  Proof. apply filter_app. Qed.
  Lemma letters_blank w : Forall (fun c => blank c = true \/ c = apostrophe) w -> letters blank w = [].
  Proof. induction 1 as [|c w Hc Hw IH]; [done|]. unfold letters. rewrite filter_cons_False; [exact IH|]. intros [H1 H2]. destruct Hc; congruence. Qed.
  Lemma separator_letters s : separator is_space s -> letters blank s = [].
  Proof.
    intros (sp & q & -> & Hsp & Hq). apply letters_blank. apply Forall_app. split.
    - eapply Forall_impl; [done|]. intros c Hc. left. by eapply space_blank.
    - destruct Hq as [-> | ->]; [done|]. constructor; [by right|done].
  Qed.
  Lemma pieces_letters t l : pieces is_space t l -> concat (letters blank <$> l) = letters blank t.
  Proof.
    induction 1 as [t|w s t l Hs Hp IH]; cbn; [by rewrite app_nil_r|]. rewrite IH, !letters_app, (separator_letters s Hs). done.
  Qed.
  Lemma filter_letters l : concat (letters blank <$> filter (not_blank blank) l) = concat (letters blank <$> l).
  Proof.
    induction l as [|w l IH]; [done|]. destruct (not_blank blank w) eqn:Ew.
    - rewrite filter_cons_True by (by rewrite Ew). cbn. by rewrite IH.
    - rewrite filter_cons_False by (rewrite Ew; by intros []). cbn. rewrite IH. unfold not_blank in Ew. apply negb_false_iff in Ew.
      rewrite letters_blank; [done|]. apply Forall_forall. intros c Hc. left. rewrite forallb_forall in Ew. apply Ew. by apply elem_of_list_In.
  Qed.
  Lemma not_blank_spec w : not_blank blank w = true <-> exists c, c ∈ w /\ blank c = false.
  Proof.
    unfold not_blank. rewrite negb_true_iff. split.
    - intros H. induction w as [|c w IH]; [done|]. cbn in H. destruct (blank c) eqn:Ec; [destruct (IH H) as (c' & ? & ?); exists c'; split; [by right|done]|exists c; split; [by left|done]].
    - intros (c & Hc & Hb). apply not_true_is_false. intros H. rewrite forallb_forall in H. rewrite H in Hb; [done|by apply elem_of_list_In].
  Qed.
End proofs.
