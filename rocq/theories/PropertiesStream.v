(** PropertiesStream.v: C95-C97, iterating over, rendering and replacing the documents of a
    corpus through one connection. *)
From Verif Require Import StreamProofs.

Section properties.
  Context {D K V : Type} (all_keys : D -> res (list K)) (get : D -> K -> res V) (render_mark : option string).
  Context (Hmark : render_mark ≠ Some "docs").
  Notation runs := (@runs D K V all_keys get render_mark).
  Notation happen := (@happen D K V all_keys get render_mark).
  Notation no_replace tr := (Forall (fun x => ~ is_replace x.1) tr).
  Notation none_in_progress gs := (Forall (fun g => ~ in_progress g) gs).
  Notation rendering_ok tr := (render_mark = None \/ Forall (fun x => ~ failed_rendering x) tr).
  Notation renders := (renders get).
  Lemma gets_renders d ks : renders d ks (match gets get d ks with Ok l => Rendered l | Err e => Raised e end).
  Proof.
    assert (match gets get d ks with
            | Ok l => reads get d ks l (Some (Ok tt)) | Err e => exists l, reads get d ks l (Some (Err e)) end) as H.
    { induction ks as [|k ks IH]; [constructor|]. cbn [gets]. destruct (get d k) as [v|e] eqn:E; [|exists []; by constructor]. cbn [rbind].
      destruct (gets get d ks) as [l|e]; cbn [rmap]; [by constructor|]. destruct IH as [l IH]. exists ((k, v) :: l). by constructor. }
    destruct (gets get d ks) as [l|e]; [left; by exists l|]. destruct H as [l H]. right. by exists l, e.
  Qed.

  (** ** C95: all documents of an iteration are of one committed state of the database,
      whatever iterations are mixed with it and whatever other processes commit meanwhile. *)
  Theorem C95_one_state d0 tr fs c gs i request : runs (start d0) tr fs (c, gs) -> no_replace tr ->
    requests tr !! i = Some request ->
    exists g d, gs !! i = Some g /\ d ∈ d0 :: fs /\ reads_request all_keys get d request (given tr i) (ended g).
  Proof.
    intros H Hnr Hi. set (P d := d ∈ d0 :: fs).
    destruct (new_runs all_keys get render_mark Hmark P P (honest P)) with (s := start (K := K) d0) (tr := tr) (fs := fs) (s' := (c, gs)) (j := i) (request := request)
      as (g & Hg & Hok); [by intros c1 (_ & _ & ?)| |done|done|apply counted_start| | |done|].
    - intros. by eapply (honest_step all_keys get render_mark).
    - split_and!; [done|by left|by left].
    - apply Forall_forall. intros d Hd. by right.
    - cbn in Hg, Hok. exists g. destruct (iter_ok_reads all_keys get P c request (given tr i) g) as (d & Hd & Hr); [exists d0; by left|done|]. by exists d.
  Qed.
  (** If it starts while no other is in progress, it is the state at that moment. *)
  Theorem C95_current_state d0 tr1 fs1 c1 gs1 i request o tr2 fs2 c2 gs2 : runs (start d0) tr1 fs1 (c1, gs1) -> rendering_ok tr1 ->
    none_in_progress gs1 -> gs1 !! i = Some (Fresh request) ->
    runs (c1, gs1) ((Next i, o) :: tr2) fs2 (c2, gs2) -> no_replace tr2 ->
    exists g, gs2 !! i = Some g /\ reads_request all_keys get (c_file c1) request (given ((Next i, o) :: tr2) i) (ended g).
  Proof.
    intros H1 Hok Hp Hi H2 Hnr. pose proof (counted_runs all_keys get render_mark Hmark _ _ _ _ H1 (counted_start d0)) as Hc.
    pose proof (tidy_runs all_keys get render_mark Hmark _ _ _ _ H1 (counted_start d0) ltac:(by constructor) Hok) as Ht. cbn [fst snd] in Hc, Ht.
    destruct (tidy_no_marks c1 gs1 Hc Ht Hp) as [Em Ev].
    inversion H2 as [|? ? [c3 gs3] ? ? fs3 ? He Hrest]; subst. set (P d := d = c_file c1).
    destruct (iter_step all_keys get render_mark Hmark P c1 gs1 (Next i) c3 gs3 o i (Fresh request) request []) as (g3 & Hi3 & Hok3 & _);
      [done|by intros ?|done|done|done|intros _ _; unfold P, file_or_seen; by rewrite Ev|].
    assert (counted c3 gs3) as Hc3 by (by eapply (counted_step all_keys get render_mark Hmark c1 gs1)).
    assert (forall r, g3 ≠ Fresh r) as Hnf.
    { intros r ->. cbn [Streams.happen] in He. rewrite Hi in He. destruct (Streams.next all_keys get c1 (Fresh request)) as [[c4 g4] o4] eqn:En.
      injection He as <- <- <-. rewrite list_lookup_insert in Hi3 by (by eapply lookup_lt_Some). injection Hi3 as ->.
      assert (forall c rest sc c' r' o', advance get c rest sc = (c', Fresh r', o') -> False) as Hadv.
      { intros c rest sc c' r' o' Ha. unfold advance in Ha. destruct rest as [|k rest]; [|destruct (look c) as [d c5]; destruct (get d k)]; try done;
          unfold finish in Ha; destruct (release "docs" _); done. }
      cbn [Streams.next] in En. destruct request as [ks|]; [by eapply Hadv|]. destruct (look (savepoint "docs" c1)) as [d c5]. destruct (all_keys d); [by eapply Hadv|].
      unfold finish in En. destruct (release "docs" c5); done. }
    destruct (iter_runs_started all_keys get render_mark Hmark P (c3, gs3) tr2 fs3 (c2, gs2) i g3 request (yielded i (Next i, o)) Hrest Hnr Hc3 Hi3 Hok3 Hnf)
      as (g & Hg & Hokg). cbn [fst snd] in Hg, Hokg. exists g. split; [done|]. rewrite given_cons.
    destruct (iter_ok_reads all_keys get P c2 request _ g ltac:(by exists (c_file c1)) Hokg) as (d & -> & Hr). done.
  Qed.
  (** Nothing is left behind by iterations that are over, by themselves, by an exception, or
      abandoned: rendering then shows the present contents. *)
  Theorem C95_nothing_left d0 tr fs c gs ks : runs (start d0) tr fs (c, gs) -> rendering_ok tr -> none_in_progress gs ->
    renders (c_file c) ks (happen (c, gs) (Render ks)).2.
  Proof.
    intros H Hok Hp. pose proof (counted_runs all_keys get render_mark Hmark _ _ _ _ H (counted_start d0)) as Hc.
    pose proof (tidy_runs all_keys get render_mark Hmark _ _ _ _ H (counted_start d0) ltac:(by constructor) Hok) as Ht. cbn [fst snd] in Hc, Ht.
    destruct (tidy_no_marks c gs Hc Ht Hp) as [Em Ev]. cbn [Streams.happen]. destruct (render get render_mark c ks) as [c1 o] eqn:Er.
    destruct (render_step get render_mark Hmark c ks c1 o (proj1 Hc) Er) as (_ & _ & -> & _). unfold file_or_seen. rewrite Ev. apply gets_renders.
  Qed.

  (** ** C96 (partial): a rendering that fails does not influence what later reads give: true
      where rendering has no savepoint of its own (plain text); otherwise, after a failed
      rendering, all later reads through the corpus object show the contents of that
      moment for ever, whatever is committed. *)
  Theorem C96_failed_rendering_partial d0 tr fs c gs ks : render_mark = None -> runs (start d0) tr fs (c, gs) -> none_in_progress gs ->
    renders (c_file c) ks (happen (c, gs) (Render ks)).2.
  Proof. intros Hm H Hp. eapply C95_nothing_left; eauto. Qed.
  Theorem C96_stale_after_failed_rendering m d0 tr fs c gs ks e s1 tr' fs' s' : render_mark = Some m ->
    runs (start d0) tr fs (c, gs) -> rendering_ok tr -> none_in_progress gs ->
    happen (c, gs) (Render ks) = (s1, Raised e) ->
    runs s1 tr' fs' s' -> no_replace tr' ->
    (forall ks' o, (Render ks', o) ∈ tr' -> renders (c_file c) ks' o) /\
    (forall j request, requests tr' !! j = Some request ->
       exists g, s'.2 !! (length gs + j) = Some g /\ reads_request all_keys get (c_file c) request (given tr' (length gs + j)) (ended g)).
  Proof.
    intros Hm H Hok Hp Hr H' Hnr. pose proof (counted_runs all_keys get render_mark Hmark _ _ _ _ H (counted_start d0)) as Hc.
    pose proof (tidy_runs all_keys get render_mark Hmark _ _ _ _ H (counted_start d0) ltac:(by constructor) Hok) as Ht. cbn [fst snd] in Hc, Ht.
    destruct (tidy_no_marks c gs Hc Ht Hp) as [Em Ev]. destruct s1 as [c1 gs1].
    assert (counted c1 gs1) as Hc1 by (by eapply (counted_step all_keys get render_mark Hmark c gs)).
    cbn [Streams.happen] in Hr. destruct (render get render_mark c ks) as [c2 o2] eqn:Er. injection Hr as -> <- ->.
    assert (m ≠ "docs") as Hmd by congruence.
    assert (stuck m (c_file c) c1) as Hs.
    { unfold render in Er. rewrite Hm in Er. change (default "docs" (Some m)) with m in Er. cbv beta iota zeta in Er. destruct ks as [|k ks].
      - exfalso. destruct (release m (savepoint m c)) as [c3|e3] eqn:E3; [done|]. unfold release in E3.
        change (c_marks (savepoint m c)) with (m :: c_marks c) in E3. rewrite below_top, Em in E3. cbn [savepoint c_view] in E3. by rewrite Ev in E3.
      - unfold look in Er. change (c_view (savepoint m c)) with (c_view c) in Er. rewrite Ev in Er. change (c_marks (savepoint m c)) with (m :: c_marks c) in Er.
        rewrite Em in Er. cbn [default id c_file c_ver savepoint] in Er. destruct (gets get (c_file c) (k :: ks)) as [l|e'] eqn:Eg.
        + exfalso. unfold release in Er. cbn [c_marks] in Er. rewrite below_top in Er. cbn [c_view] in Er. done.
        + injection Er as <- ->. split; [done|]. by eexists. }
    split.
    - intros ks' o Hin. rewrite (stuck_runs all_keys get render_mark Hmark m (c_file c) (c1, gs) tr' fs' s') with (ks := ks') (o := o) by done. apply gets_renders.
    - intros j request Hj. set (P d := d = c_file c).
      destruct (new_runs all_keys get render_mark Hmark P (fun _ => True) (stuck m (c_file c))) with (s := (c1, gs)) (tr := tr') (fs := fs') (s' := s') (j := j) (request := request)
        as (g & Hg & Hokg); [| |done|done|done|done| |done|].
      + intros c3 [_ [v Hv]]. unfold P, file_or_seen. by rewrite Hv.
      + intros. by eapply (stuck_step all_keys get render_mark Hmark m (c_file c)).
      + by apply Forall_forall.
      + exists g. split; [done|]. destruct (iter_ok_reads all_keys get P s'.1 request _ g ltac:(by exists (c_file c)) Hokg) as (d & -> & Hrd). done.
  Qed.

  (** ** C97 (partial): when [replace_docs] returns, its texts are the committed documents, or
      if they could not be had, the old ones are: true while no iteration is in progress. *)
  Theorem C97_replace_partial d0 tr fs c gs new : runs (start d0) tr fs (c, gs) -> rendering_ok tr -> none_in_progress gs ->
    (happen (c, gs) (Replace new)).2 = Quiet /\
    c_file (happen (c, gs) (Replace new)).1.1 = match new with Ok d => d | Err _ => c_file c end.
  Proof.
    intros H Hok Hp. pose proof (counted_runs all_keys get render_mark Hmark _ _ _ _ H (counted_start d0)) as Hc.
    pose proof (tidy_runs all_keys get render_mark Hmark _ _ _ _ H (counted_start d0) ltac:(by constructor) Hok) as Ht. cbn [fst snd] in Hc, Ht.
    destruct (tidy_no_marks c gs Hc Ht Hp) as [Em Ev]. cbn [Streams.happen]. destruct (replace (existsb is_reading gs) new c) as [c1 o] eqn:Er.
    destruct (replace_step _ new c c1 o (proj1 Hc) Er) as (_ & _ & -> & _ & Hf). split; [done|]. cbn. apply Hf; [done|].
    apply not_true_is_false. intros (g & Hg & Hread)%existsb_exists. apply elem_of_list_In in Hg. rewrite Forall_forall in Hp. apply (Hp g Hg). by destruct g.
  Qed.
  (** While one is in progress, nothing is committed when it returns, and no error is raised;
      and if an iteration over all documents is, the new documents are lost without trace. *)
  Theorem C97_not_while_iterating d0 tr fs c gs g new : runs (start d0) tr fs (c, gs) -> g ∈ gs -> in_progress g ->
    (happen (c, gs) (Replace new)).2 = Quiet /\ c_file (happen (c, gs) (Replace new)).1.1 = c_file c /\
    (is_reading g = true -> forall new', happen (c, gs) (Replace new') = happen (c, gs) (Replace new)).
  Proof.
    intros H Hg Hp. pose proof (counted_runs all_keys get render_mark Hmark _ _ _ _ H (counted_start d0)) as Hc. cbn [fst snd] in Hc.
    assert (c_marks c ≠ []) as Hne.
    { apply docs_marks_pos. destruct Hc as [_ ->]. apply elem_of_list_lookup in Hg as [i Hi]. pose proof (running_lookup gs i g Hi). destruct g; cbn in *; [done|lia|done]. }
    cbn [Streams.happen]. destruct (replace (existsb is_reading gs) new c) as [c1 o] eqn:Er.
    destruct (replace_step _ new c c1 o (proj1 Hc) Er) as (_ & _ & -> & Hf & _). split; [done|]. split; [by apply Hf|].
    intros Hread new'. assert (existsb is_reading gs = true) as E by (apply existsb_exists; exists g; split; [by apply elem_of_list_In|done]).
    rewrite E in *. assert (@replace D K V true new' c = replace true new c) as ->; [done|by rewrite Er].
  Qed.
End properties.

(** ** Concrete cases *)
Definition ex_keys (d : list string) : res (list nat) := Ok (seq 0 (length d)).
Definition ex_get (d : list string) (k : nat) : res string := match d !! k with Some t => Ok t | None => Err IndexError end.
Notation ex_runs mark := (runs ex_keys ex_get mark).

(** Two iterations mixed with another process's commit: both show the first state; a third,
    started afterwards, the new one. *)
Example C95_example : exists tr fs c gs, ex_runs None (start ["a"; "b"]) tr fs (c, gs) /\ Forall (fun x => ~ is_replace x.1) tr /\
  requests tr = [None; Some [1]; None] /\ given tr 0 = [(0, "a"); (1, "b")] /\ given tr 1 = [(1, "b")] /\ given tr 2 = [(0, "new")] /\
  c_file c = ["new"] /\ gs = [Over (Some (Ok tt)); Over None; Running [] true].
Proof.
  eexists _, _, _, _. split.
  - apply (runs_event _ _ _ _ (New None) (CState ["a"; "b"] 0 [] None, [Fresh None]) Quiet); [reflexivity|].
    eapply (runs_event _ _ _ _ (Next 0)); [reflexivity|]. eapply (runs_event _ _ _ _ (Other ["new"])); [reflexivity|].
    eapply (runs_event _ _ _ _ (New (Some [1]))); [reflexivity|]. eapply (runs_event _ _ _ _ (Next 1)); [reflexivity|].
    eapply (runs_event _ _ _ _ (Next 0)); [reflexivity|]. eapply (runs_event _ _ _ _ (Next 0)); [reflexivity|].
    eapply (runs_event _ _ _ _ (Close 1)); [reflexivity|]. eapply (runs_event _ _ _ _ (New None)); [reflexivity|].
    eapply (runs_event _ _ _ _ (Next 2)); [reflexivity|]. apply runs_nil.
  - split; [repeat constructor; by intros ?|]. split_and!; reflexivity.
Qed.
(** Rendering a key that is not there; another process then adds a document: it is not seen
    with a savepoint of its own, and is without. *)
Example C96_example mark : mark = None \/ mark = Some "render_docs_html" -> exists tr fs c gs,
  ex_runs mark (start ["a"]) tr fs (c, gs) /\ gs = [] /\ c_file c = ["a"; "b"] /\
  tr = [(Render [1], Raised IndexError); (Other ["a"; "b"], Quiet);
        (Render [1], match mark with None => Rendered [(1, "b")] | Some _ => Raised IndexError end)].
Proof.
  intros [-> | ->]; eexists _, _, _, _; (split; [eapply (runs_event _ _ _ _ (Render [1])); [reflexivity|]; eapply (runs_event _ _ _ _ (Other ["a"; "b"])); [reflexivity|];
    eapply (runs_event _ _ _ _ (Render [1])); [reflexivity|]; apply runs_nil|split_and!; reflexivity]).
Qed.
(** Replacing while documents are read by their keys: committed when the iteration is closed;
    while all are read: never. *)
Example C97_example request : request = Some [0; 1] \/ request = None -> exists tr fs c gs,
  ex_runs None (start ["a"; "b"]) tr fs (c, gs) /\ tr = [(New request, Quiet); (Next 0, Yielded 0 "a"); (Replace (Ok ["c"]), Quiet); (Close 0, Quiet)] /\
  fs = [["a"; "b"]; ["a"; "b"]; ["a"; "b"]; match request with None => ["a"; "b"] | Some _ => ["c"] end].
Proof.
  intros Hreq; destruct Hreq as [-> | ->]; [set (request := Some [0; 1])|set (request := @None (list nat))]; eexists _, _, _, _; (split; [eapply (runs_event _ _ _ _ (New request)); [reflexivity|]; eapply (runs_event _ _ _ _ (Next 0)); [reflexivity|];
    eapply (runs_event _ _ _ _ (Replace (Ok ["c"]))); [reflexivity|]; eapply (runs_event _ _ _ _ (Close 0)); [reflexivity|]; apply runs_nil|split_and!; reflexivity]).
Qed.

Print Assumptions C95_one_state.
Print Assumptions C95_current_state.
Print Assumptions C95_nothing_left.
Print Assumptions C96_failed_rendering_partial.
Print Assumptions C96_stale_after_failed_rendering.
Print Assumptions C97_replace_partial.
Print Assumptions C97_not_while_iterating.
