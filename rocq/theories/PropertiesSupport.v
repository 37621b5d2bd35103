(** PropertiesSupport.v: C124, calls that the corpus cannot support are refused without effect. *)
From Verif Require Import SpecSupport ConnProofs ClusterProofs ClusterCalls.

Lemma members_in l (a : attributes) : forallb (fun x => bool_decide (x ∈ a)) l = true <-> forall x, x ∈ l -> x ∈ a.
Proof.
  rewrite forallb_forall. split; intros H x Hx.
  - apply elem_of_list_In, H, bool_decide_eq_true in Hx. done.
  - apply bool_decide_eq_true, H, elem_of_list_In, Hx.
Qed.
Definition needed (m : document_call) : list string :=
  match m with CallRenderHtml => web_members | CallRenderTable | CallExport => table_members | _ => base_members end.
Lemma can_do_members m a : can_do m a <-> forall x, x ∈ needed m -> x ∈ a.
Proof.
  unfold can_do, gives_documents. split.
  - intros H x Hx. apply elem_of_list_In in Hx. destruct m; cbn in Hx;
      repeat match type of Hx with _ \/ _ => destruct Hx as [<-|Hx] end; tauto.
  - intros H. assert (forall x, In x (needed m) -> x ∈ a) as H' by (intros x Hx; by apply H, elem_of_list_In).
    destruct m; cbn in H'; split_and!; apply H'; tauto.
Qed.
Lemma refused {A} m corpus e (func : M A) : refusal m corpus e -> requires (needed m) corpus func = pfail e.
Proof.
  intros [|a H]; [done|]. unfold requires. destruct (forallb _ _) eqn:E; [|done].
  destruct H. apply can_do_members. by apply members_in.
Qed.


(** Outside, and for all but one, the decorator comes first. *)
Lemma plain_refused {A} m corpus e (func : M A) : m <> CallExport -> refusal m corpus e ->
  document_method m corpus func = pfail e.
Proof.
  intros Hm Hr. destruct m; try done; unfold document_method.
  - apply (refused CallIndex), Hr.
  - apply (refused CallDocs), Hr.
  - apply (refused CallWindows), Hr.
  - apply (refused CallPassagesTable), Hr.
  - apply (refused CallRenderHtml), Hr.
  - apply (refused CallRenderTable), Hr.
Qed.
Lemma atomic_fail_txn {A} name e c : in_txn c = true -> changed c = false \/ 1 <= level c ->
  atomic name false (@pfail A e) c = (c, Err e).
Proof.
  intros Ht [Hc|Hl].
  - destruct c as [dsk cr bg stk lv ch f pl pp cm]. unfold in_txn in Ht. cbn in Hc, Ht. subst ch.
    unfold atomic, pbind, sql_savepoint, pfail, sql_rollback_to. cbn.
    rewrite bool_decide_true by done. unfold atomic_finally. cbn. rewrite andb_false_r.
    unfold sql_release. cbn. rewrite bool_decide_true by done. unfold autocommit, in_txn. cbn. by rewrite Ht.
  - rewrite atomic_nested; [|apply contained_fail|done|done]. unfold pfail.
    cbn. by destruct c.
Qed.

(** ** C124 *)
Theorem C124_refused : forall A (func : M A) m corpus e c, refusal m corpus e ->
  (* between transactions *)
  (idle c -> call_raises (document_method m corpus func) c e) /\
  (* inside [with] or another call: nothing at all happens *)
  (in_txn c = true -> changed c = false \/ 1 <= level c -> document_method m corpus func c = (c, Err e)).
Proof.
  intros A func m corpus e c Hr. split.
  - intros Hid. destruct (match m with CallExport => true | _ => false end) eqn:Em.
    + destruct m; try done. unfold document_method.
      rewrite (refused CallExport corpus e func Hr : requires table_members corpus func = _).
      exists (committed_conn (disk c) (pool_pos c) c). split.
      { eapply atomic_outer_err; [done|apply contained_fail|done|]. cbn. apply Hid. }
      split; [apply idle_committed|]. split; [done|]. intros d Hd. by destruct (crash_committed _ _ _ _ Hd).
    + rewrite (plain_refused m corpus e func) by (by destruct m).
      exists c. split; [done|]. split; [done|]. split; [done|].
      intros d [->|(new & old & H1 & H2 & H3)]; [done|]. subst old.
      assert (length (commits c) = length new + length (commits c)) as Hl by (rewrite H1 at 1; apply app_length).
      destruct new; [by apply elem_of_nil in H3|cbn in Hl; lia].
  - intros Ht Hc. destruct (match m with CallExport => true | _ => false end) eqn:Em.
    + destruct m; try done. unfold document_method.
      rewrite (refused CallExport corpus e func Hr : requires table_members corpus func = _).
      by apply atomic_fail_txn.
    + by rewrite (plain_refused m corpus e func) by (by destruct m).
Qed.

(** In a [with] that has already written something: all calls but the export leave everything. The
    export makes the summaries of the clusters, keeping what the [with] did. *)
Theorem C124_in_with : forall A (func : M A) m corpus e c, refusal m corpus e -> in_txn c = true ->
  (m <> CallExport -> document_method m corpus func c = (c, Err e)) /\
  (level c = 0 -> changed c = true -> pool_works c -> usable (cur c) -> inverted_index (disk c) = inverted_index (cur c) ->
   exists d pos ch, document_method m corpus func c = (set_changed ch (set_pool_pos pos (set_cur d c)), Err e) /\
     (d = cur c \/ refreshed (cur c) d)).
Proof.
  intros A func m corpus e c Hr Ht. split.
  - intros Hm. by rewrite (plain_refused m corpus e func).
  - intros Hl Hc Hp Hu Hi. destruct (match m with CallExport => true | _ => false end) eqn:Em.
    + destruct m; try done. unfold document_method.
      rewrite (refused CallExport corpus e func Hr : requires table_members corpus func = _).
      destruct c as [dsk cr bg stk lv ch f pl pp cm]. cbn in Hl, Hc, Hp, Hu, Hi. subst ch lv.
      set (c2 := Conn dsk cr bg (("export_document_sample", cr) :: stk) 0 true f pl pp cm).
      destruct (housekeeping_ok c2) as (d & Hd & Hh); [by unfold in_txn; cbn; rewrite orb_true_r|done|done|done|].
      exists d, (S pp), false. split; [|by right].
      unfold atomic, pbind, sql_savepoint, pfail, sql_rollback_to. cbn.
      rewrite bool_decide_true by done. unfold atomic_finally. cbn [set_level level pred Nat.eqb andb changed set_stack set_cur].
      match goal with |- context [update_changed_clusters ?X] => change X with c2 end.
      rewrite Hh. unfold sql_release. cbn. rewrite bool_decide_true by done. unfold autocommit.
      match goal with |- context [in_txn ?X] => change (in_txn X) with (bg || negb (bool_decide (stk = []))) end.
      unfold in_txn in Ht. cbn in Ht. by rewrite Ht.
    + rewrite (plain_refused m corpus e func) by (by destruct m).
      exists (cur c), (pool_pos c), (changed c). split; [by destruct c|by left].
Qed.

(** With a corpus that can do it the call is the method itself. *)
Theorem C124_supported : forall A (func : M A) m a, can_do m a -> exists body,
  document_method m (Some a) func = body /\
  (body = func \/ exists name, body = atomic name false func).
Proof.
  intros A func m a H.
  assert (forall f : M A, requires (needed m) (Some a) f = f) as E.
  { intros f. unfold requires. by rewrite (proj2 (members_in _ _) (proj1 (can_do_members m a) H)). }
  eexists; split; [reflexivity|]. destruct m; unfold document_method; cbn [needed] in E; rewrite E; eauto.
Qed.

(** What the corpora of the library can do: everything, but no tables of the Twittersphere. *)
Theorem C124_library : forall m,
  can_do m plain_text_attributes /\ can_do m stackexchange_attributes /\
  (can_do m twittersphere_attributes <-> m <> CallRenderTable /\ m <> CallExport).
Proof.
  assert (forall m a, forallb (fun x => bool_decide (x ∈ a)) (needed m) = true -> can_do m a) as Y.
  { intros m a H. apply can_do_members. by apply members_in. }
  assert (forall m a, forallb (fun x => bool_decide (x ∈ a)) (needed m) = false -> ~ can_do m a) as N.
  { intros m a H Hc. pose proof (proj2 (members_in _ _) (proj1 (can_do_members m a) Hc)). congruence. }
  intros m. split; [|split].
  - apply Y. destruct m; vm_compute; reflexivity.
  - apply Y. destruct m; vm_compute; reflexivity.
  - destruct m; (split; [|intros [? ?]; try done; apply Y; vm_compute; reflexivity]);
      intros H; try done; exfalso; revert H; apply N; vm_compute; reflexivity.
Qed.

(** No tables of tweets: the call is refused, and an index without a corpus cannot be indexed. *)
Example no_tweet_table : refusal CallExport (Some twittersphere_attributes) UnsupportedCorpusOperation.
Proof. constructor. intros H. apply C124_library in H. by destruct H. Qed.
Example no_corpus_at_all : refusal CallIndex None CorpusMissingError.
Proof. constructor. Qed.
Print Assumptions C124_refused.
Print Assumptions C124_in_with.
Print Assumptions C124_supported.
Print Assumptions C124_library.
