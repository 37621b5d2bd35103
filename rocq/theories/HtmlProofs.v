(** HtmlProofs.v: the texts of posts. *)
From Verif Require Export SpecHtml.

Fixpoint html_ind' (P : html -> Prop) (HE : forall tag t cs, (forall c tail, (c, tail) ∈ cs -> P c) -> P (Element tag t cs)) (HC : P Comment) (h : html) : P h.
Proof.
  destruct h as [tag t cs|]; [|exact HC]. apply HE. induction cs as [|[c tl] cs IH]; intros c' tail Hin.
  - by apply elem_of_nil in Hin.
  - apply elem_of_cons in Hin as [E|Hin]; [|by apply (IH c' tail)]. injection E as -> _. apply html_ind'; done.
Defined.

Lemma piece_in s p : s ∈ piece p <-> s = p /\ p ≠ "".
Proof.
  destruct p as [|a p]; cbn; [rewrite elem_of_nil; naive_solver|]. rewrite elem_of_list_singleton. naive_solver.
Qed.
Lemma in_concat_map {A B} (f : A -> list B) l y : y ∈ concat (List.map f l) <-> exists x, x ∈ l /\ y ∈ f x.
Proof.
  induction l as [|a l IH]; cbn; [rewrite elem_of_nil; split; [done|intros (x & H & _); by apply elem_of_nil in H]|].
  rewrite elem_of_app, IH. setoid_rewrite elem_of_cons. naive_solver.
Qed.
Lemma is_code_spec tag c : (String.eqb tag "pre" && is_code c)%bool = true <-> in_pre tag c.
Proof.
  unfold in_pre. rewrite andb_true_iff, String.eqb_eq. destruct c as [t s cs|]; cbn; [rewrite String.eqb_eq|]; naive_solver.
Qed.
Lemma itertext_shown h s : s ∈ itertext h <-> shown h s.
Proof.
  revert h s. apply (html_ind' (fun h => forall s, s ∈ itertext h <-> shown h s)).
  - intros tag t cs IH s. cbn [itertext]. rewrite elem_of_app, piece_in, in_concat_map. split.
    + intros [[-> Hne]|([c tail] & Hin & Hs)]; [by constructor|]. cbn in Hs. apply elem_of_app in Hs as [Hs|[-> Hne]%piece_in].
      * eapply shown_child; [done|]. by apply (IH c tail).
      * by eapply shown_tail.
    + intros H. inversion H as [? ? ? Hne|? ? ? c tail ? Hin Hs|? ? ? c ? Hin Hne]; subst; [by left|right..].
      * exists (c, tail). split; [done|]. cbn. apply elem_of_app. left. by apply (IH c tail).
      * exists (c, s). split; [done|]. cbn. apply elem_of_app. right. by apply piece_in.
  - intros s. cbn. rewrite elem_of_nil. split; [done|]. intros H. inversion H.
Qed.
Lemma code_nodes_blocks h code : code ∈ code_nodes h <-> code_block h code.
Proof.
  revert h code. apply (html_ind' (fun h => forall code, code ∈ code_nodes h <-> code_block h code)).
  - intros tag t cs IH code. cbn [code_nodes]. rewrite in_concat_map. split.
    + intros ([c tail] & Hin & Hs). cbn in Hs. apply elem_of_app in Hs as [Hs|Hs].
      * destruct (_ && _) eqn:E; [|by apply elem_of_nil in Hs]. apply is_code_spec in E. apply elem_of_list_singleton in Hs as ->. by eapply block_here.
      * eapply block_inside; [done|]. by apply (IH c tail).
    + intros H. inversion H as [? ? ? c tail Hin Hp|? ? ? c tail ? Hin Hc]; subst.
      * exists (code, tail). split; [done|]. cbn. apply is_code_spec in Hp. rewrite Hp. apply elem_of_app. left. by left.
      * exists (c, tail). split; [done|]. cbn. apply elem_of_app. right. by apply (IH c tail).
  - intros code. cbn. rewrite elem_of_nil. split; [done|]. intros H. inversion H.
Qed.
Lemma without_code_kept h s : shown (without_code h) s <-> kept_prose h s.
Proof.
  revert h s. apply (html_ind' (fun h => forall s, shown (without_code h) s <-> kept_prose h s)).
  - intros tag t cs IH s. cbn [without_code].
    set (cs' := concat _). assert (forall c' tail, (c', tail) ∈ cs' <-> exists c, (c, tail) ∈ cs /\ ~ in_pre tag c /\ c' = without_code c) as Hcs.
    { intros c' tail. unfold cs'. rewrite in_concat_map. split.
      - intros ([c tl] & Hin & Hs). cbn in Hs. destruct (_ && _) eqn:E; [by apply elem_of_nil in Hs|]. apply elem_of_list_singleton in Hs. injection Hs as -> ->.
        exists c. split_and!; [done| |done]. intros Hp%is_code_spec. congruence.
      - intros (c & Hin & Hp & ->). exists (c, tail). split; [done|]. cbn. destruct (_ && _) eqn:E; [by apply is_code_spec in E|]. by left. }
    split.
    + intros H. inversion H as [? ? ? Hne|? ? ? c' tail ? Hin Hs|? ? ? c' ? Hin Hne]; subst; [by constructor|..].
      * apply Hcs in Hin as (c & Hin & Hp & ->). eapply kept_child; [done|done|]. by apply (IH c tail).
      * apply Hcs in Hin as (c & Hin & Hp & ->). by eapply kept_tail.
    + intros H. inversion H as [? ? ? Hne|? ? ? c tail ? Hin Hp Hs|? ? ? c ? Hin Hp Hne]; subst; [by constructor|..].
      * eapply shown_child; [apply Hcs; by exists c|]. by apply (IH c tail).
      * eapply shown_tail; [apply Hcs; by exists c|done].
  - intros s. split; intros H; inversion H.
Qed.
Lemma kept_is_prose h s : kept_prose h s -> prose h s.
Proof. induction 1; by econstructor. Qed.
Lemma prose_is_kept h s : nothing_after_code h -> prose h s -> kept_prose h s.
Proof.
  intros Hn H. induction H as [|tag t cs c tail s Hin Hp H IH|tag t cs c s Hin Hne]; [by constructor|..].
  - eapply kept_child; [done|done|]. apply IH. intros He. apply Hn. by eapply ends_inside.
  - eapply kept_tail; [done| |done]. intros Hp. apply Hn. by eapply ends_here.
Qed.
(** Everything shown is prose or in a code block. *)
Lemma shown_split h s : shown h s <-> prose h s \/ in_code_block h s.
Proof.
  split.
  - induction 1 as [|tag t cs c tail s Hin H IH|tag t cs c s Hin Hne]; [left; by constructor| |left; by eapply prose_tail].
    destruct IH as [IH|(code & Hb & Hs)]; [|right; exists code; split; [by eapply block_inside|done]].
    destruct ((String.eqb tag "pre" && is_code c)%bool) eqn:E.
    + apply is_code_spec in E. right. exists c. split; [by eapply block_here|done].
    + left. eapply prose_child; [done| |done]. intros Hp%is_code_spec. congruence.
  - intros [H|(code & Hb & Hs)].
    + induction H; by econstructor.
    + induction Hb; by eapply shown_child; eauto.
Qed.
Lemma spaced_words tokens l w : splits_at_spaces tokens -> w ∈ tokens (spaced l) <-> exists s, s ∈ l /\ w ∈ tokens s.
Proof.
  intros [H0 H]. induction l as [|s l IH]; [cbn; rewrite H0, elem_of_nil; split; [done|intros (s & Hs & _); by apply elem_of_nil in Hs]|].
  destruct l as [|s' l].
  - cbn. setoid_rewrite elem_of_list_singleton. naive_solver.
  - change (spaced (s :: s' :: l)) with (s ++ " " ++ spaced (s' :: l))%string. rewrite H, elem_of_app, IH. setoid_rewrite (elem_of_cons (s' :: l)). naive_solver.
Qed.
