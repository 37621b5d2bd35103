(** StreamProofs.v *)
From Verif Require Export SpecStream.

Section proofs.
  Context {D K V : Type} (all_keys : D -> res (list K)) (get : D -> K -> res V) (render_mark : option string).
  Context (Hmark : render_mark ≠ Some "docs").
  Notation cstate := (cstate D). Notation iter := (iter K).
  Notation happen := (@happen D K V all_keys get render_mark).
  Notation runs := (@runs D K V all_keys get render_mark).
  Notation next := (@next D K V all_keys get). Notation close := (@close D K V).
  Notation advance := (@advance D K V get). Notation finish := (@finish D K V).

  Fixpoint docs_marks (l : list string) : nat := match l with [] => 0 | m :: l => (if String.eqb m "docs" then 1 else 0) + docs_marks l end.
  Definition is_running (g : iter) : nat := match g with Running _ _ => 1 | _ => 0 end.
  Fixpoint running (gs : list iter) : nat := match gs with [] => 0 | g :: gs => is_running g + running gs end.
  Lemma running_insert gs i g g' : gs !! i = Some g -> running (<[i := g']> gs) + is_running g = running gs + is_running g'.
  Proof.
    revert i. induction gs as [|h gs IH]; intros [|i] H; try done.
    - injection H as ->. change (<[0 := g']> (g :: gs)) with (g' :: gs). cbn [running]. lia.
    - change (<[S i := g']> (h :: gs)) with (h :: <[i := g']> gs). cbn [running]. specialize (IH i H). lia.
  Qed.
  Lemma running_lookup gs i g : gs !! i = Some g -> is_running g <= running gs.
  Proof. revert i. induction gs as [|h gs IH]; intros [|i] H; try done; [injection H as ->; cbn [running]; lia|]. cbn [running]. specialize (IH i H). lia. Qed.
  Lemma running_two gs i j g h : i ≠ j -> gs !! i = Some g -> gs !! j = Some h -> is_running g + is_running h <= running gs.
  Proof.
    intros Hij Hi Hj. pose proof (running_insert gs i g (Over None) Hi). assert (<[i := Over None]> gs !! j = Some h) as Hj' by (by rewrite list_lookup_insert_ne).
    apply running_lookup in Hj'. cbn [is_running] in *. lia.
  Qed.

  Lemma below_docs l : 0 < docs_marks l -> exists l', below "docs" l = Some l' /\ S (docs_marks l') = docs_marks l /\ exists l0, l = l0 ++ l'.
  Proof.
    induction l as [|m l IH]; cbn [docs_marks below]; [lia|]. intros H. destruct (String.eqb_spec m "docs") as [->|Hn].
    - exists l. split_and!; [done|lia|]. by exists ["docs"].
    - destruct (IH H) as (l' & -> & H2 & l0 & ->). exists l'. split_and!; [done|lia|]. by exists (m :: l0).
  Qed.
  Lemma below_top n l : below n (n :: l) = Some l.
  Proof. cbn. by rewrite String.eqb_refl. Qed.

  (** The connection: a transaction is open only while something is marked. *)
  Definition good (c : cstate) : Prop := c_marks c = [] -> c_view c = None.
  Lemma look_spec (c : cstate) : good c -> forall d c', look c = (d, c') ->
    c_marks c' = c_marks c /\ c_file c' = c_file c /\ c_ver c' = c_ver c /\ good c' /\
    match c_view c with
    | Some (d0, v, l) => d = d0 /\ c_view c' = c_view c
    | None => d = c_file c /\ (c_marks c = [] /\ c_view c' = None \/ c_marks c ≠ [] /\ c_view c' = Some (c_file c, c_ver c, false))
    end.
  Proof.
    intros Hg d c' H. unfold look in H. destruct (c_marks c) as [|m l] eqn:Em.
    - injection H as <- <-. rewrite (Hg Em). split_and!; try done. by left.
    - destruct (c_view c) as [[[d0 v] lk]|] eqn:Ev; injection H as <- <-; cbn; split_and!; try done. by right.
  Qed.
  Lemma release_spec n (c c' : cstate) : release n c = Ok c' -> exists l, below n (c_marks c) = Some l /\ c_marks c' = l /\
    (l ≠ [] -> c_view c' = c_view c /\ c_file c' = c_file c /\ c_ver c' = c_ver c) /\
    (l = [] -> c_view c' = None /\ c_file c' = match c_view c with Some (d, _, true) => d | _ => c_file c end).
  Proof.
    unfold release. destruct (below n (c_marks c)) as [[|m l]|] eqn:E; [|intros [= <-]|done].
    - destruct (c_view c) as [[[d v] [|]]|]; intros [= <-]; exists []; by split_and!.
    - exists (m :: l). split_and!; done.
  Qed.
  Lemma release_docs (c : cstate) : 0 < docs_marks (c_marks c) -> exists c', release "docs" c = Ok c' /\ S (docs_marks (c_marks c')) = docs_marks (c_marks c) /\
    (exists l0, c_marks c = l0 ++ c_marks c') /\ good c' /\
    (c_marks c' ≠ [] -> c_view c' = c_view c /\ c_file c' = c_file c /\ c_ver c' = c_ver c) /\
    (c_marks c' = [] -> c_view c' = None /\ c_file c' = match c_view c with Some (d, _, true) => d | _ => c_file c end).
  Proof.
    intros H. destruct (below_docs _ H) as (l & E & Hs & l0 & El). assert (exists c', release "docs" c = Ok c') as [c' Er].
    { unfold release. rewrite E. destruct l; [|by eexists]. destruct (c_view c) as [[[? ?] []]|]; by eexists. }
    exists c'. destruct (release_spec _ _ _ Er) as (l' & E' & Em & H1 & H2). rewrite E in E'. injection E' as <-.
    split; [done|]. split; [by rewrite Em|]. split; [exists l0; by rewrite Em|]. split; [intros Hm; apply H2; congruence|]. by rewrite Em.
  Qed.

  (** One step of an iteration. *)
  Definition unlocked (c : cstate) : Prop := forall d v l, c_view c = Some (d, v, l) -> l = false.
  Definition sees (c : cstate) (d : D) : Prop := exists v l, c_view c = Some (d, v, l).
  (** What every step keeps: the marks match, what is seen stays as long as anything is marked. *)
  Definition keeps (c c' : cstate) : Prop :=
    good c' /\ (unlocked c -> unlocked c' /\ c_file c' = c_file c) /\
    (c_marks c' ≠ [] -> forall x, c_view c = Some x -> c_view c' = Some x) /\
    (c_view c' = c_view c \/ c_view c' = None \/ c_view c = None /\ c_view c' = Some (c_file c, c_ver c, false)).

  Lemma keeps_finish c r c' g o : good c -> 0 < docs_marks (c_marks c) -> finish c r = (c', g, o) ->
    keeps c c' /\ S (docs_marks (c_marks c')) = docs_marks (c_marks c) /\ (exists l0, c_marks c = l0 ++ c_marks c') /\
    g = Over (Some r) /\ (forall k v, o ≠ Yielded k v) /\ o = match r with Ok _ => Stopped | Err e => Raised e end.
  Proof.
    intros Hg Hd H. destruct (release_docs c Hd) as (c1 & E & Hs & Hl & Hg1 & H1 & H2). unfold finish in H. rewrite E in H. injection H as <- <- <-.
    split; [|split; [done|]; split; [done|]; split; [done|]; split; [by destruct r|done]]. split; [done|]. split; [|split].
    - intros Hu. destruct (decide (c_marks c1 = [])) as [Em|Em].
      + destruct (H2 Em) as [E1 E2]. split; [intros ? ? ? Hv; by rewrite E1 in Hv|]. rewrite E2. destruct (c_view c) as [[[d v] l]|] eqn:Ev; [|done]. by rewrite (Hu _ _ _ Ev).
      + destruct (H1 Em) as (E1 & E2 & _). split; [|done]. intros d v l Hv. rewrite E1 in Hv. by eapply Hu.
    - intros Em x Hx. destruct (H1 Em) as (-> & _). done.
    - destruct (decide (c_marks c1 = [])) as [Em|Em]; [right; left; by apply H2|left; by apply H1].
  Qed.
  Lemma keeps_refl c : good c -> keeps c c.
  Proof. intros Hg. split_and!; try done. by left. Qed.
  Lemma keeps_look c d c' : good c -> look c = (d, c') -> keeps c c' /\ c_marks c' = c_marks c /\ c_file c' = c_file c /\ c_ver c' = c_ver c /\
    (c_marks c ≠ [] -> sees c' d) /\ (c_view c = None -> d = c_file c) /\ (forall x, c_view c = Some x -> d = x.1.1).
  Proof.
    intros Hg H. destruct (look_spec c Hg d c' H) as (Em & Ef & Ev & Hg' & Hx). split; [|split; [done|]; split; [done|]; split; [done|]; split; [|split]].
    - split_and!; try done.
      + intros Hu. split; [|done]. intros d1 v1 l1 E1. destruct (c_view c) as [[[d0 v0] l0]|] eqn:Ec; [destruct Hx as [-> Hx]|].
        * rewrite Hx in E1. injection E1 as <- <- <-. by eapply Hu.
        * destruct Hx as [-> [[_ Hx]|[_ Hx]]]; rewrite Hx in E1; [done|]. by injection E1.
      + intros _ x Hc. rewrite Hc in Hx. destruct x as [[d0 v0] l0]. destruct Hx as [_ ->]. done.
      + destruct (c_view c) as [[[d0 v0] l0]|]; [left; by apply Hx|]. destruct Hx as [_ [[_ ->]|[_ ->]]]; auto.
    - intros Hm. destruct (c_view c) as [[[d0 v0] l0]|]; [destruct Hx as [-> Hx]; exists v0, l0; by rewrite Hx|].
      destruct Hx as [-> [[? _]|[_ Hx]]]; [done|]. exists (c_ver c), false. done.
    - intros Hc. rewrite Hc in Hx. by destruct Hx as [-> _].
    - intros x Hc. rewrite Hc in Hx. destruct x as [[d0 v0] l0]. by destruct Hx as [-> _].
  Qed.
  Lemma keeps_trans c1 c2 c3 : keeps c1 c2 -> keeps c2 c3 -> c_marks c2 ≠ [] -> c_ver c2 = c_ver c1 -> c_file c2 = c_file c1 -> keeps c1 c3.
  Proof.
    intros (A1 & A2 & A3 & A4) (B1 & B2 & B3 & B4) Hm Hv Hf. split_and!; [done| | |].
    - intros Hu. destruct (A2 Hu) as [Hu2 E2]. destruct (B2 Hu2) as [Hu3 E3]. split; [done|congruence].
    - intros Hne x Hx. apply B3; [done|]. by apply A3.
    - destruct (c_view c1) as [x|] eqn:E1.
      + rewrite (A3 Hm x eq_refl) in B4. destruct B4 as [->|[->|[? _]]]; auto.
      + destruct (c_view c2) as [y|] eqn:E2.
        * destruct A4 as [?|[?|[_ A4]]]; [done|done|]. rewrite <- A4. destruct B4 as [->|[->|[? _]]]; auto.
        * destruct B4 as [->|[->|[_ ->]]]; auto. rewrite Hv, Hf. auto.
  Qed.
  Lemma keeps_savepoint n c : keeps c (savepoint n c).
  Proof. split_and!; try done. by left. Qed.

  (** The state of an iteration that has given [out]. *)
  Definition keys_are (d : D) (request : option (list K)) (ks : list K) : Prop :=
    match request with Some l => ks = l | None => all_keys d = Ok ks end.
  Definition all_got (d : D) (out : list (K * V)) : Prop := forall k v, (k, v) ∈ out -> get d k = Ok v.
  Definition progress (P : D -> Prop) (c : cstate) (request : option (list K)) (out : list (K * V)) (rest : list K) : Prop :=
    exists d ks, P d /\ sees c d /\ keys_are d request ks /\ ks = out.*1 ++ rest /\ all_got d out.
  Definition iter_ok (P : D -> Prop) (c : cstate) (request : option (list K)) (out : list (K * V)) (g : iter) : Prop :=
    match g with
    | Fresh r => r = request /\ out = []
    | Running rest _ => progress P c request out rest
    | Over r => exists d, P d /\ reads_request all_keys get d request out r
    end.
  Lemma reads_app d out rest r : all_got d out -> reads get d rest [] r -> reads get d (out.*1 ++ rest) out r.
  Proof.
    intros Ho Hr. induction out as [|[k v] out IH]; [done|]. cbn. apply reads_doc; [apply Ho; by left|]. apply IH. intros k' v' H. apply Ho. by right.
  Qed.
  Lemma reads_request_keys d request ks out r : keys_are d request ks -> reads get d ks out r -> reads_request all_keys get d request out r.
  Proof. unfold keys_are, reads_request. destruct request; [by intros ->|]. intros H1 H2. left. by exists ks. Qed.

  (** [advance]: the marks contain that of the iteration. *)
  Lemma advance_step c rest sc c' g' o d ks request out : good c -> 0 < docs_marks (c_marks c) ->
    (* what will be read *)
    (forall x, look c = x -> x.1 = d) -> keys_are d request ks -> ks = out.*1 ++ rest -> all_got d out ->
    advance c rest sc = (c', g', o) ->
    keeps c c' /\ (exists l0, c_marks c = l0 ++ c_marks c') /\ docs_marks (c_marks c') + 1 = docs_marks (c_marks c) + is_running g' /\
    let out' := out ++ match o with Yielded k v => [(k, v)] | _ => [] end in
    match g' with
    | Fresh _ => False
    | Running rest' _ => sees c' d /\ ks = out'.*1 ++ rest' /\ all_got d out'
    | Over r => reads_request all_keys get d request out' r
    end.
  Proof.
    intros Hg Hd Hlook Hk Eks Hout H. unfold advance in H. destruct rest as [|k rest].
    - destruct (keeps_finish _ _ _ _ _ Hg Hd H) as (Hkeep & Hn & Hl & -> & Hy & ->). split; [done|]. split; [done|]. split; [cbn; lia|].
      cbv zeta. rewrite app_nil_r. eapply reads_request_keys; [done|]. rewrite Eks. apply reads_app; [done|constructor].
    - destruct (look c) as [d' c1] eqn:El. specialize (Hlook _ eq_refl). cbn in Hlook. subst d'.
      destruct (keeps_look _ _ _ Hg El) as (Hk1 & Em & Ef & Ev & Hsee & _ & _). assert (c_marks c ≠ []) as Hne by (intros E; rewrite E in Hd; cbn in Hd; lia).
      destruct (get d k) as [v|e] eqn:Eg.
      + injection H as <- <- <-. split; [done|]. split; [exists []; by rewrite Em|]. split; [cbn; rewrite Em; lia|]. cbv zeta. split_and!.
        * by apply Hsee.
        * rewrite Eks, fmap_app, <- app_assoc. done.
        * intros k1 v1 [Hin|[= -> ->]%elem_of_list_singleton]%elem_of_app; [by apply Hout|done].
      + assert (good c1) as Hg1 by apply Hk1. assert (0 < docs_marks (c_marks c1)) as Hd1 by (by rewrite Em).
        destruct (keeps_finish _ _ _ _ _ Hg1 Hd1 H) as (Hkeep & Hn & Hl & -> & Hy & ->). split; [|split; [by rewrite <- Em|]; split; [cbn; rewrite <- Em; lia|]].
        * eapply keeps_trans; [done|done|by rewrite Em|done|done].
        * cbv zeta. rewrite app_nil_r. eapply reads_request_keys; [done|]. rewrite Eks. apply reads_app; [done|]. by apply reads_missing.
  Qed.
  Lemma docs_marks_pos l : 0 < docs_marks l -> l ≠ [].
  Proof. intros H ->. cbn in H. lia. Qed.
  Lemma reads_request_none d request : reads_request all_keys get d request [] None.
  Proof. unfold reads_request. destruct request; [constructor|]. right. by left. Qed.

  Definition file_or_seen (c : cstate) : D := match c_view c with Some x => x.1.1 | None => c_file c end.
  Lemma look_value c d c' : good c -> look c = (d, c') -> d = file_or_seen c.
  Proof.
    intros Hg H. destruct (keeps_look _ _ _ Hg H) as (_ & _ & _ & _ & _ & H1 & H2). unfold file_or_seen.
    destruct (c_view c) as [x|] eqn:E; [by apply H2|by apply H1].
  Qed.
  Lemma good_savepoint n c : good (savepoint n c).
  Proof. by intros ?. Qed.

  Lemma next_step (P : D -> Prop) c g c' g' o request out : good c -> is_running g <= docs_marks (c_marks c) ->
    ((exists r, g = Fresh r) -> P (file_or_seen c)) -> iter_ok P c request out g -> next c g = (c', g', o) ->
    keeps c c' /\ docs_marks (c_marks c') + is_running g = docs_marks (c_marks c) + is_running g' /\
    (exists l0 l1, l0 ++ c_marks c' = l1 ++ c_marks c /\ Forall (fun m => m = "docs") l1) /\
    iter_ok P c' request (out ++ match o with Yielded k v => [(k, v)] | _ => [] end) g'.
  Proof.
    intros Hg Hd Hfs Hi H.
    assert (forall c1 rest sc d ks l1, good c1 -> keeps c c1 -> c_marks c1 = l1 ++ c_marks c -> Forall (fun m => m = "docs") l1 ->
      0 < docs_marks (c_marks c1) -> docs_marks (c_marks c1) + is_running g = docs_marks (c_marks c) + 1 ->
      c_ver c1 = c_ver c -> c_file c1 = c_file c ->
      (forall x, look c1 = x -> x.1 = d) -> P d -> keys_are d request ks -> ks = out.*1 ++ rest -> all_got d out -> advance c1 rest sc = (c', g', o) ->
      keeps c c' /\ docs_marks (c_marks c') + is_running g = docs_marks (c_marks c) + is_running g' /\
      (exists l0 l1, l0 ++ c_marks c' = l1 ++ c_marks c /\ Forall (fun m => m = "docs") l1) /\
      iter_ok P c' request (out ++ match o with Yielded k v => [(k, v)] | _ => [] end) g') as Hadv.
    { intros c1 rest sc d ks l1 Hg1 Hk1 Em Hl1 Hpos Hcount Ev Ef Hl Hdf Hks Eks Hout Ha.
      destruct (advance_step c1 rest sc c' g' o d ks request out Hg1 Hpos Hl Hks Eks Hout Ha) as (Hk2 & [l0 E0] & Hn & Hr).
      split; [eapply keeps_trans; [done|done|by apply docs_marks_pos|done|done]|]. split; [lia|]. split; [exists l0, l1; by rewrite <- E0|].
      cbv zeta in Hr. destruct g' as [r|rest' sc'|r]; [done| |].
      - destruct Hr as (H1 & H2 & H3). by exists d, ks.
      - by exists d. }
    destruct g as [[ks|]|rest sc|r]; cbn [next] in H.
    - destruct Hi as [<- ->]. eapply (Hadv (savepoint "docs" c) ks false (file_or_seen c) ks ["docs"]); try done.
      + apply keeps_savepoint.
      + by constructor.
      + cbn. lia.
      + cbn. lia.
      + intros [d c1] E. by apply look_value in E.
      + apply Hfs. by eexists.
      + intros k v Hx. by apply elem_of_nil in Hx.
    - destruct Hi as [<- ->]. destruct (look (savepoint "docs" c)) as [d c1] eqn:El.
      destruct (keeps_look _ _ _ (good_savepoint _ _) El) as (Hk1 & Em & Ef & Ev & Hsee & _ & _).
      pose proof (look_value _ _ _ (good_savepoint _ _) El) as Ed. change (file_or_seen (savepoint "docs" c)) with (file_or_seen c) in Ed.
      assert (keeps c c1) as Hk by (eapply keeps_trans; [apply keeps_savepoint|done|done|done|done]).
      assert (look c1 = (d, c1)) as El1.
      { destruct (Hsee ltac:(done)) as (v & l & Evw). unfold look. rewrite Em. cbn. by rewrite Evw. }
      destruct (all_keys d) as [ks|e] eqn:Eks.
      + eapply (Hadv c1 ks true d ks ["docs"]); try done.
        * apply Hk1.
        * by constructor.
        * rewrite Em. cbn. lia.
        * rewrite Em. cbn. lia.
        * intros x <-. by rewrite El1.
        * rewrite Ed. apply Hfs. by eexists.
        * intros k v Hx. by apply elem_of_nil in Hx.
      + assert (0 < docs_marks (c_marks c1)) as Hpos by (rewrite Em; cbn; lia).
        destruct (keeps_finish _ _ _ _ _ (proj1 Hk1) Hpos H) as (Hk2 & Hn & [l0 E0] & -> & Hy & ->).
        split; [eapply keeps_trans; [exact Hk|done|by apply docs_marks_pos|done|done]|]. split; [rewrite Em in Hn; cbn in *; lia|].
        split; [exists l0, ["docs"]; rewrite <- E0, Em; split; [done|by constructor]|]. cbn. exists d. split; [rewrite Ed; apply Hfs; by eexists|]. right. right. by exists e.
    - destruct Hi as (d & ks & HP & (v & l & Hsee) & Hks & Eks & Hout). cbn in Hd. eapply (Hadv c rest sc d ks []); try done.
      + by apply keeps_refl.
      + intros x <-. unfold look. destruct (c_marks c) as [|m ms] eqn:Em; [cbn in Hd; lia|]. by rewrite Hsee.
    - injection H as <- <- <-. split; [by apply keeps_refl|]. split; [done|]. split; [by exists [], []|]. cbn in *. by rewrite app_nil_r.
  Qed.
  Lemma close_step (P : D -> Prop) c g c' g' o request out : good c -> is_running g <= docs_marks (c_marks c) ->
    ((exists r, g = Fresh r) -> P (file_or_seen c)) -> iter_ok P c request out g -> close c g = (c', g', o) ->
    keeps c c' /\ docs_marks (c_marks c') + is_running g = docs_marks (c_marks c) + is_running g' /\
    (exists l0, l0 ++ c_marks c' = c_marks c) /\ iter_ok P c' request out g'.
  Proof.
    intros Hg Hd Hfs Hi H. destruct g as [r|rest sc|r]; cbn [close] in H.
    - injection H as <- <- <-. split; [by apply keeps_refl|]. split; [done|]. split; [by exists []|]. destruct Hi as [_ ->].
      exists (file_or_seen c). split; [apply Hfs; by eexists|apply reads_request_none].
    - cbn in Hd. assert (0 < docs_marks (c_marks c)) as Hpos by lia.
      assert (exists c2 g2 o2, finish c (Ok tt) = (c2, g2, o2)) as (c2 & g2 & o2 & Ef) by (destruct (finish c (Ok tt)) as [[? ?] ?]; by eexists _, _, _).
      destruct (keeps_finish _ _ _ _ _ Hg Hpos Ef) as (Hk & Hn & [l0 E0] & _ & _ & _).
      unfold finish in Ef. destruct (release "docs" c) as [c3|e] eqn:Er.
      + injection Ef as -> _ _. injection H as <- <- <-. split; [done|]. split; [cbn; lia|]. split; [by exists l0|].
        destruct Hi as (d & ks & HP & (v & l & Hsee) & Hks & Eks & Hout). exists d. split.
        * done.
        * eapply reads_request_keys; [done|]. rewrite Eks. apply reads_app; [done|constructor].
      + destruct (release_docs c Hpos) as (c4 & E4 & _). congruence.
    - injection H as <- <- <-. split; [by apply keeps_refl|]. split; [done|]. split; [by exists []|]. done.
  Qed.
  Lemma render_step c ks c' o : good c -> render get render_mark c ks = (c', o) ->
    keeps c c' /\ docs_marks (c_marks c') = docs_marks (c_marks c) /\
    (o = match gets get (file_or_seen c) ks with Ok l => Rendered l | Err e => Raised e end) /\
    (c_marks c' = c_marks c \/ exists m e, render_mark = Some m /\ o = Raised e /\ c_marks c' = m :: c_marks c).
  Proof.
    intros Hg H. unfold render in H. set (m := default "docs" render_mark) in *.
    assert (exists c1 r, (match ks with [] => (Ok [], savepoint m c) | _ => let '(d, c1) := look (savepoint m c) in (gets get d ks, c1) end) = (r, c1) /\
      r = gets get (file_or_seen c) ks /\ keeps c c1 /\ c_marks c1 = m :: c_marks c /\ c_ver c1 = c_ver c /\ c_file c1 = c_file c /\ good c1) as (c1 & r & E & Er & Hk1 & Em & Ev & Ef & Hg1).
    { destruct ks as [|k ks].
      - exists (savepoint m c), (Ok []). split; [done|]. split; [done|]. split; [apply keeps_savepoint|]. done.
      - destruct (look (savepoint m c)) as [d c1] eqn:El. destruct (keeps_look _ _ _ (good_savepoint _ _) El) as (Hk1 & Em & Ef & Ev & _).
        pose proof (look_value _ _ _ (good_savepoint _ _) El) as Ed. exists c1, (gets get d (k :: ks)). split; [done|].
        split; [by rewrite Ed|]. split; [eapply keeps_trans; [apply keeps_savepoint|done|done|done|done]|]. split; [done|]. split; [done|]. split; [done|apply Hk1]. }
    rewrite E in H. clear E.
    assert (exists c2, release m c1 = Ok c2 /\ keeps c c2 /\ c_marks c2 = c_marks c) as (c2 & Erel & Hk2 & Em2).
    { unfold release. rewrite Em, below_top. destruct (c_marks c) as [|m' ms] eqn:Emc.
      - assert (c_view c = None) as Hv by (by apply Hg).
        destruct Hk1 as (_ & Hk1b & _ & Hk1). destruct (c_view c1) as [[[d v] [|]]|] eqn:Ev1.
        + exfalso. rewrite Hv in Hk1. destruct Hk1 as [?|[?|[_ [= _ _ ?]]]]; done.
        + eexists. split; [done|]. split; [|done]. split; [done|]. split; [|split; [done|cbn; auto]]. intros _. split; [by intros ? ? ?|done].
        + eexists. split; [done|]. split; [|done]. split; [done|]. split; [|split; [done|cbn; auto]]. intros _. split; [by intros ? ? ?|done].
      - eexists. split; [done|]. split; [|done]. destruct Hk1 as (A1 & A2 & A3 & A4). split; [done|]. split; [|split; [|done]].
        + intros Hu. cbn. by apply A2.
        + intros _ x Hx. cbn. apply A3; [by rewrite Em|done]. }
    rewrite Erel in H. assert (docs_marks (c_marks c2) = docs_marks (c_marks c)) as Hd2 by (by rewrite Em2).
    rewrite <- Er. destruct r as [l|e].
    - injection H as <- <-. split; [done|]. split; [done|]. split; [done|]. by left.
    - destruct render_mark as [m0|] eqn:Emk.
      + injection H as <- <-. split; [done|]. split.
        * rewrite Em. cbn. destruct (String.eqb_spec m0 "docs") as [->|]; [done|]. done.
        * split; [done|]. right. by exists m0, e.
      + injection H as <- <-. split; [done|]. split; [done|]. split; [done|]. by left.
  Qed.

  (** ** What every step keeps, whatever the iterations read *)
  Definition same_bottom (l l' : list string) : Prop :=
    (Forall (fun m => m = "docs") l -> Forall (fun m => m = "docs") l') /\
    (forall m, m ≠ "docs" -> last l = Some m -> last l' = Some m).
  Lemma same_bottom_refl l : same_bottom l l.
  Proof. done. Qed.
  Lemma same_bottom_trans l1 l2 l3 : same_bottom l1 l2 -> same_bottom l2 l3 -> same_bottom l1 l3.
  Proof. intros [A1 A2] [B1 B2]. split; [auto|]. intros m Hm Hl. apply B2; [done|]. by apply A2. Qed.
  Lemma same_bottom_savepoint l : same_bottom l ("docs" :: l).
  Proof. split; [intros H; by constructor|]. intros m Hm Hl. destruct l; [done|]. exact Hl. Qed.
  Lemma same_bottom_below l l' : below "docs" l = Some l' -> same_bottom l l'.
  Proof.
    revert l'. induction l as [|m l IH]; intros l' H; [done|]. cbn [below] in H. destruct (String.eqb_spec m "docs") as [->|Hm].
    - injection H as ->. split; [by intros [_ ?]%Forall_cons|]. intros m Hm Hl. destruct l'; [cbn in Hl; congruence|]. exact Hl.
    - destruct (IH l' H) as [H1 H2]. split; [intros [? _]%Forall_cons; done|]. intros m' Hm' Hl. apply H2; [done|]. destruct l; [done|]. exact Hl.
  Qed.
  Definition moves (c c' : cstate) : Prop := keeps c c' /\ same_bottom (c_marks c) (c_marks c').
  Lemma moves_finish c r c' g o : good c -> 0 < docs_marks (c_marks c) -> finish c r = (c', g, o) ->
    moves c c' /\ S (docs_marks (c_marks c')) = docs_marks (c_marks c) /\ is_running g = 0.
  Proof.
    intros Hg Hd H. destruct (keeps_finish c r c' g o Hg Hd H) as (Hk & Hs & _ & -> & _ & _). split; [|done]. split; [done|].
    unfold finish in H. destruct (release "docs" c) as [c1|e] eqn:E.
    - injection H as <- _. destruct (release_spec _ _ _ E) as (l & El & -> & _). by apply same_bottom_below.
    - injection H as <- _. lia.
  Qed.
  Lemma moves_advance c rest sc c' g' o : good c -> 0 < docs_marks (c_marks c) -> advance c rest sc = (c', g', o) ->
    moves c c' /\ docs_marks (c_marks c') + 1 = docs_marks (c_marks c) + is_running g'.
  Proof.
    intros Hg Hd H. unfold advance in H. destruct rest as [|k rest].
    - destruct (moves_finish _ _ _ _ _ Hg Hd H) as (Hm & Hs & ->). split; [done|lia].
    - destruct (look c) as [d c1] eqn:El. destruct (keeps_look _ _ _ Hg El) as (Hk1 & Em & Ef & Ev & _).
      assert (c_marks c ≠ []) as Hne by (by apply docs_marks_pos).
      destruct (get d k) as [v|e].
      + injection H as <- <- <-. split; [split; [done|by rewrite Em]|]. cbn. rewrite Em. lia.
      + destruct (moves_finish c1 _ _ _ _ (proj1 Hk1) ltac:(by rewrite Em) H) as ([Hk2 Hb] & Hs & ->). rewrite Em in Hb, Hs. split; [|lia].
        split; [|done]. eapply keeps_trans; [done|done|by rewrite Em|done|done].
  Qed.
  Lemma moves_next c g c' g' o : good c -> is_running g <= docs_marks (c_marks c) -> next c g = (c', g', o) ->
    moves c c' /\ docs_marks (c_marks c') + is_running g = docs_marks (c_marks c) + is_running g'.
  Proof.
    intros Hg Hd H.
    assert (forall c1, keeps c c1 -> c_marks c1 = "docs" :: c_marks c -> c_ver c1 = c_ver c -> c_file c1 = c_file c ->
      moves c1 c' /\ docs_marks (c_marks c') + 1 = docs_marks (c_marks c1) + is_running g' ->
      moves c c' /\ docs_marks (c_marks c') = docs_marks (c_marks c) + is_running g') as Hfrom.
    { intros c1 Hk Em Ev Ef [[Hk2 Hb] Hn]. rewrite Em in Hb, Hn. cbn in Hn. split; [|lia]. split.
      - eapply keeps_trans; [done|done|by rewrite Em|done|done].
      - eapply same_bottom_trans; [apply same_bottom_savepoint|done]. }
    destruct g as [[ks|]|rest sc|r]; cbn [next] in H.
    - cbn [is_running]. rewrite Nat.add_0_r. apply (Hfrom (savepoint "docs" c)); [apply keeps_savepoint|done..|].
      eapply moves_advance; [apply good_savepoint|cbn; lia|done].
    - cbn [is_running]. rewrite Nat.add_0_r. destruct (look (savepoint "docs" c)) as [d c1] eqn:El.
      destruct (keeps_look _ _ _ (good_savepoint _ _) El) as (Hk1 & Em & Ef & Ev & _).
      assert (keeps c c1) as Hk by (eapply keeps_trans; [apply keeps_savepoint|done|done|done|done]).
      apply (Hfrom c1); [done|done..|]. assert (0 < docs_marks (c_marks c1)) as Hpos by (rewrite Em; cbn; lia). destruct (all_keys d) as [ks|e].
      + by eapply moves_advance; [apply Hk1|done|].
      + destruct (moves_finish _ _ _ _ _ (proj1 Hk1) Hpos H) as (Hm & Hs & ->). split; [done|lia].
    - cbn in Hd |- *. apply moves_advance with (rest := rest) (sc := sc) (o := o); [done|lia|done].
    - injection H as <- <- _. split; [|done]. split; [by apply keeps_refl|done].
  Qed.
  Lemma moves_close c g c' g' o : good c -> is_running g <= docs_marks (c_marks c) -> close c g = (c', g', o) ->
    moves c c' /\ docs_marks (c_marks c') + is_running g = docs_marks (c_marks c) + is_running g'.
  Proof.
    intros Hg Hd H. destruct g as [r|rest sc|r]; cbn [close] in H.
    - injection H as <- <- _. split; [|done]. split; [by apply keeps_refl|done].
    - cbn in Hd. assert (exists c2 g2 o2, finish c (Ok tt) = (c2, g2, o2)) as (c2 & g2 & o2 & Ef) by (destruct (finish c (Ok tt)) as [[? ?] ?]; by eexists _, _, _).
      destruct (moves_finish _ _ _ _ _ Hg ltac:(lia) Ef) as (Hm & Hs & _). unfold finish in Ef. destruct (release "docs" c) as [c3|e] eqn:Er.
      + injection Ef as -> _ _. injection H as <- <- _. split; [done|]. cbn. lia.
      + destruct (release_docs c ltac:(lia)) as (c4 & E4 & _). congruence.
    - injection H as <- <- _. split; [|done]. split; [by apply keeps_refl|done].
  Qed.

  (** ** Replacing *)
  Lemma replace_step reading new c c' o : good c -> @replace D K V reading new c = (c', o) -> good c' /\ c_marks c' = c_marks c /\ o = Quiet /\
    (c_marks c ≠ [] -> c_file c' = c_file c) /\
    (c_marks c = [] -> reading = false -> c_file c' = match new with Ok d => d | Err _ => c_file c end).
  Proof.
    intros Hg H. unfold replace in H. set (c1 := savepoint "add_texts" c) in *.
    destruct (match c_view c1 with Some x => x | None => (c_file c1, c_ver c1, false) end) as [[d v] lk] eqn:Ev.
    set (c2 := CState _ _ _ _) in H. unfold release in H. assert (below "add_texts" (c_marks c2) = Some (c_marks c)) as Eb by apply below_top.
    rewrite Eb in H. destruct (c_marks c) as [|m ms] eqn:Em.
    - assert (c_view c = None) as Hv by (by apply Hg). change (c_view c1) with (c_view c) in Ev. rewrite Hv in Ev. injection Ev as <- <- <-.
      subst c2 c1. cbn [negb c_view c_ver c_file savepoint] in H. rewrite Nat.eqb_refl in H. cbn [negb] in H.
      destruct reading; [|destruct new as [d'|e]]; injection H as <- <-; split_and!; done.
    - injection H as <- <-. split; [done|]. split_and!; done.
  Qed.

  (** ** One event *)
  Definition counted (c : cstate) (gs : list iter) : Prop := good c /\ docs_marks (c_marks c) = running gs.
  Lemma running_app gs gs' : running (gs ++ gs') = running gs + running gs'.
  Proof. induction gs as [|g gs IH]; [done|]. cbn [running app]. lia. Qed.
  Lemma counted_step c gs e c' gs' o : counted c gs -> happen (c, gs) e = ((c', gs'), o) -> counted c' gs'.
  Proof.
    intros [Hg Hn] H. destruct e as [ks|i|i|ks|new|d]; cbn [happen] in H.
    - injection H as <- <- _. split; [done|]. rewrite running_app. cbn. lia.
    - destruct (gs !! i) as [g|] eqn:Ei; [|injection H as <- <- _; done]. destruct (next c g) as [[c1 g1] o1] eqn:En. injection H as <- <- _.
      pose proof (running_lookup gs i g Ei). pose proof (running_insert gs i g g1 Ei).
      destruct (moves_next c g c1 g1 o1 Hg ltac:(lia) En) as ([Hk _] & Hc). split; [apply Hk|]. lia.
    - destruct (gs !! i) as [g|] eqn:Ei; [|injection H as <- <- _; done]. destruct (close c g) as [[c1 g1] o1] eqn:En. injection H as <- <- _.
      pose proof (running_lookup gs i g Ei). pose proof (running_insert gs i g g1 Ei).
      destruct (moves_close c g c1 g1 o1 Hg ltac:(lia) En) as ([Hk _] & Hc). split; [apply Hk|]. lia.
    - destruct (render get render_mark c ks) as [c1 o1] eqn:Er. injection H as <- <- _.
      destruct (render_step c ks c1 o1 Hg Er) as (Hk & Hc & _). split; [apply Hk|congruence].
    - destruct (replace (existsb is_reading gs) new c) as [c1 o1] eqn:Er. injection H as <- <- _.
      destruct (replace_step _ new c c1 o1 Hg Er) as (Hg1 & Hm & _). split; [done|congruence].
    - injection H as <- <- _. destruct (holds_lock c); [done|]. split; [exact Hg|done].
  Qed.
  Lemma counted_runs s tr fs s' : runs s tr fs s' -> counted s.1 s.2 -> counted s'.1 s'.2.
  Proof. induction 1 as [s|[c gs] e [c1 gs1] o tr fs s' He _ IH]; [done|]. intros H. apply IH. by eapply counted_step. Qed.
  Lemma counted_start d : counted (start (K := K) d).1 (start (K := K) d).2.
  Proof. done. Qed.

  (** ** Nothing is left open *)
  Definition tidy (c : cstate) : Prop := Forall (fun m => m = "docs") (c_marks c).
  Lemma tidy_step c gs e c' gs' o : counted c gs -> tidy c -> happen (c, gs) e = ((c', gs'), o) ->
    (render_mark = None \/ ~ failed_rendering (e, o)) -> tidy c'.
  Proof.
    intros [Hg Hn] Ht H Hr. destruct e as [ks|i|i|ks|new|d]; cbn [happen] in H.
    - by injection H as <- <- _.
    - destruct (gs !! i) as [g|] eqn:Ei; [|injection H as <- <- _; done]. destruct (next c g) as [[c1 g1] o1] eqn:En. injection H as <- <- _.
      pose proof (running_lookup gs i g Ei). destruct (moves_next c g c1 g1 o1 Hg ltac:(lia) En) as ([_ [Hb _]] & Hc). by apply Hb.
    - destruct (gs !! i) as [g|] eqn:Ei; [|injection H as <- <- _; done]. destruct (close c g) as [[c1 g1] o1] eqn:En. injection H as <- <- _.
      pose proof (running_lookup gs i g Ei). destruct (moves_close c g c1 g1 o1 Hg ltac:(lia) En) as ([_ [Hb _]] & Hc). by apply Hb.
    - destruct (render get render_mark c ks) as [c1 o1] eqn:Er. injection H as <- <- <-.
      destruct (render_step c ks c1 o1 Hg Er) as (Hk & Hc & _ & [Em|(m & e & E1 & E2 & E3)]); unfold tidy; [by rewrite Em|].
      exfalso. destruct Hr as [Hr|Hr]; [congruence|]. apply Hr. by rewrite E2.
    - destruct (replace (existsb is_reading gs) new c) as [c1 o1] eqn:Er. injection H as <- <- _.
      destruct (replace_step _ new c c1 o1 Hg Er) as (Hg1 & Hm & _). unfold tidy. by rewrite Hm.
    - injection H as <- <- _. by destruct (holds_lock c).
  Qed.
  Lemma tidy_runs s tr fs s' : runs s tr fs s' -> counted s.1 s.2 -> tidy s.1 -> (render_mark = None \/ Forall (fun x => ~ failed_rendering x) tr) -> tidy s'.1.
  Proof.
    induction 1 as [s|[c gs] e [c1 gs1] o tr fs s' He _ IH]; [done|]. intros Hc Ht Hr. apply IH.
    - by eapply counted_step.
    - eapply tidy_step; [done|done|done|]. destruct Hr as [?|[Hr _]%Forall_cons]; auto.
    - destruct Hr as [?|[_ Hr]%Forall_cons]; auto.
  Qed.
  Lemma running_none gs : Forall (fun g => ~ in_progress g) gs -> running gs = 0.
  Proof. induction 1 as [|g gs Hg _ IH]; [done|]. cbn [running]. rewrite IH. destruct g; cbn in *; [done| |done]. by destruct Hg. Qed.
  Lemma tidy_no_marks c gs : counted c gs -> tidy c -> Forall (fun g => ~ in_progress g) gs -> c_marks c = [] /\ c_view c = None.
  Proof.
    intros [Hg Hn] Ht Hp. rewrite (running_none gs Hp) in Hn. unfold tidy in Ht. destruct (c_marks c) as [|m l] eqn:Em; [split; [done|by apply Hg]|].
    apply Forall_cons in Ht as [-> _]. cbn in Hn. lia.
  Qed.

  (** ** What the iterations give *)
  Definition yielded (i : nat) (x : event D K * output K V) : list (K * V) :=
    match x with (Next j, Yielded k v) => if j =? i then [(k, v)] else [] | _ => [] end.
  Lemma given_cons x tr i : given (x :: tr) i = yielded i x ++ given tr i.
  Proof. destruct x as [[ks|j|j|ks|new|d] [k v| |e|l|]]; try done. unfold given, yielded. cbn [omap list_omap]. by destruct (j =? i). Qed.
  Lemma iter_ok_keeps (P : D -> Prop) c c' request out g : iter_ok P c request out g -> (in_progress g -> c_marks c' ≠ []) ->
    (c_marks c' ≠ [] -> forall x, c_view c = Some x -> c_view c' = Some x) -> iter_ok P c' request out g.
  Proof.
    destruct g as [r|rest sc|r]; cbn [iter_ok]; try done. intros (d & ks & HP & (v & l & Hs) & Hk & E & Ho) Hm Hv. exists d, ks. split; [done|].
    split; [exists v, l; by apply Hv; [apply Hm|]|done].
  Qed.
  Lemma iter_step (P : D -> Prop) c gs e c' gs' o i g request out : counted c gs -> ~ is_replace e -> happen (c, gs) e = ((c', gs'), o) ->
    gs !! i = Some g -> iter_ok P c request out g -> ((exists r, g = Fresh r) -> (exists j, e = Next j \/ e = Close j) -> P (file_or_seen c)) ->
    exists g', gs' !! i = Some g' /\ iter_ok P c' request (out ++ yielded i (e, o)) g' /\ ((exists r, g' = Fresh r) -> exists r, g = Fresh r).
  Proof.
    intros Hcount Hnr H Hi Hok HP. pose proof (counted_step c gs e c' gs' o Hcount H) as [Hg' Hn']. destruct Hcount as [Hg Hn].
    assert (forall g', gs' !! i = Some g' -> in_progress g' -> c_marks c' ≠ []) as Hmarks.
    { intros g' Hi' Hp. apply docs_marks_pos. rewrite Hn'. pose proof (running_lookup gs' i g' Hi') as Hl. destruct g'; cbn in *; [done|lia|done]. }
    destruct e as [ks|j|j|ks|new|d]; cbn [happen] in H.
    - injection H as <- <- <-. exists g. rewrite app_nil_r. split; [by apply lookup_app_l_Some|done].
    - destruct (gs !! j) as [h|] eqn:Ej; [|injection H as <- <- <-; exists g; by rewrite app_nil_r].
      destruct (next c h) as [[c1 g1] o1] eqn:En. injection H as <- <- <-. pose proof (running_lookup gs j h Ej).
      destruct (decide (i = j)) as [<-|Hij].
      + rewrite Ej in Hi. injection Hi as <-. exists g1. split; [apply list_lookup_insert; by eapply lookup_lt_Some|].
        destruct (next_step P c h c1 g1 o1 request out Hg ltac:(lia)) as (_ & _ & _ & Hr); [intros Hf; apply HP; eauto|done|done|].
        split; [|].
        * unfold yielded. rewrite Nat.eqb_refl. by destruct o1.
        * intros [r ->]. destruct h as [[ks|]|rest sc|r']; [by eexists|by eexists| |].
          -- exfalso. cbn [next] in En. unfold advance in En. destruct rest as [|k rest].
             ++ unfold finish in En. destruct (release "docs" c); by injection En as ? ? ?.
             ++ destruct (look c) as [d c2]. destruct (get d k); [by injection En as ? ? ?|]. unfold finish in En. destruct (release "docs" c2); by injection En as ? ? ?.
          -- exfalso. cbn [next] in En. by injection En as ? ? ?.
      + assert (<[j := g1]> gs !! i = Some g) as Hi' by (by rewrite list_lookup_insert_ne). exists g. split; [done|].
        replace (yielded i (Next j, o1)) with (@nil (K * V)); [|unfold yielded; destruct o1; try done; by destruct (Nat.eqb_spec j i)].
        rewrite app_nil_r. split; [|done]. destruct (moves_next c h c1 g1 o1 Hg ltac:(lia) En) as ([(_ & _ & Hk & _) _] & _).
        eapply iter_ok_keeps; [done|by apply Hmarks|done].
    - destruct (gs !! j) as [h|] eqn:Ej; [|injection H as <- <- <-; exists g; by rewrite app_nil_r].
      destruct (close c h) as [[c1 g1] o1] eqn:En. injection H as <- <- <-. pose proof (running_lookup gs j h Ej).
      replace (yielded i (Close j, o1)) with (@nil (K * V)) by (by destruct o1). rewrite app_nil_r.
      destruct (decide (i = j)) as [<-|Hij].
      + rewrite Ej in Hi. injection Hi as <-. exists g1. split; [apply list_lookup_insert; by eapply lookup_lt_Some|].
        destruct (close_step P c h c1 g1 o1 request out Hg ltac:(lia)) as (_ & _ & _ & Hr); [intros Hf; apply HP; eauto|done|done|]. split; [done|].
        intros [r ->]. destruct h as [ks|rest sc|r']; [by eexists| |]; cbn [close] in En; [destruct (release "docs" c)|]; by injection En as ? ? ?.
      + assert (<[j := g1]> gs !! i = Some g) as Hi' by (by rewrite list_lookup_insert_ne). exists g. split; [done|]. split; [|done].
        destruct (moves_close c h c1 g1 o1 Hg ltac:(lia) En) as ([(_ & _ & Hk & _) _] & _).
        eapply iter_ok_keeps; [done|by apply Hmarks|done].
    - destruct (render get render_mark c ks) as [c1 o1] eqn:Er. injection H as <- <- <-. exists g.
      replace (yielded i (Render ks, o1)) with (@nil (K * V)) by (by destruct o1). rewrite app_nil_r. split; [done|]. split; [|done].
      destruct (render_step c ks c1 o1 Hg Er) as ((_ & _ & Hk & _) & _). eapply iter_ok_keeps; [done|by apply Hmarks|done].
    - by destruct Hnr.
    - injection H as <- <- <-. exists g. rewrite app_nil_r. split; [done|]. split; [|done].
      eapply iter_ok_keeps; [done|by apply Hmarks|]. intros _ x Hx. by destruct (holds_lock c).
  Qed.

  (** ** Runs *)
  Notation no_replace tr := (Forall (fun x => ~ is_replace x.1) tr).
  Lemma iter_runs_started (P : D -> Prop) s tr fs s' i g request out : runs s tr fs s' -> no_replace tr -> counted s.1 s.2 ->
    s.2 !! i = Some g -> iter_ok P s.1 request out g -> (forall r, g ≠ Fresh r) ->
    exists g', s'.2 !! i = Some g' /\ iter_ok P s'.1 request (out ++ given tr i) g'.
  Proof.
    intros H. revert g out. induction H as [s|[c gs] e [c1 gs1] o tr fs s' He _ IH]; intros g out Hnr Hc Hi Hok Hf.
    - exists g. by rewrite app_nil_r.
    - apply Forall_cons in Hnr as [Hnr1 Hnr]. destruct (iter_step P c gs e c1 gs1 o i g request out Hc Hnr1 He Hi Hok) as (g1 & Hi1 & Hok1 & Hf1).
      { intros [r ->]. by destruct (Hf r). }
      rewrite given_cons, app_assoc. apply (IH g1); [done|by eapply counted_step|done|done|]. intros r ->. destruct (Hf1 ltac:(by eexists)) as [r' ->]. by destruct (Hf r').
  Qed.
  Section inv.
    Context (P P' : D -> Prop) (I : cstate -> Prop).
    Hypothesis HIP : forall c, I c -> P (file_or_seen c).
    Hypothesis HI : forall c gs e c' gs' o, counted c gs -> I c -> ~ is_replace e -> P' (c_file c') -> happen (c, gs) e = ((c', gs'), o) -> I c'.
    Lemma iter_runs s tr fs s' i g request out : runs s tr fs s' -> no_replace tr -> counted s.1 s.2 -> I s.1 -> Forall P' fs ->
      s.2 !! i = Some g -> iter_ok P s.1 request out g ->
      exists g', s'.2 !! i = Some g' /\ iter_ok P s'.1 request (out ++ given tr i) g'.
    Proof.
      intros H. revert g out. induction H as [s|[c gs] e [c1 gs1] o tr fs s' He _ IH]; intros g out Hnr Hc HIc Hfs Hi Hok.
      - exists g. by rewrite app_nil_r.
      - apply Forall_cons in Hnr as [Hnr1 Hnr]. apply Forall_cons in Hfs as [Hfs1 Hfs]. cbn in HIc, Hfs1.
        destruct (iter_step P c gs e c1 gs1 o i g request out Hc Hnr1 He Hi Hok) as (g1 & Hi1 & Hok1 & _); [intros _ _; by apply HIP|].
        rewrite given_cons, app_assoc. apply (IH g1); [done|by eapply counted_step| |done|done|done]. by eapply (HI c gs).
    Qed.
    Lemma happen_length c gs e c1 gs1 o : happen (c, gs) e = ((c1, gs1), o) -> length gs1 = length gs + match e with New _ => 1 | _ => 0 end.
    Proof.
      intros H. destruct e as [ks|i|i|ks|new|d]; cbn [happen] in H.
      - injection H as _ <- _. by rewrite app_length.
      - destruct (gs !! i) as [g|]; [|injection H as _ <- _; lia]. destruct (next c g) as [[? ?] ?]. injection H as _ <- _. rewrite insert_length. lia.
      - destruct (gs !! i) as [g|]; [|injection H as _ <- _; lia]. destruct (close c g) as [[? ?] ?]. injection H as _ <- _. rewrite insert_length. lia.
      - destruct (render get render_mark c ks) as [? ?]. injection H as _ <- _. lia.
      - destruct (replace _ new c) as [? ?]. injection H as _ <- _. lia.
      - injection H as _ <- _. lia.
    Qed.
    Lemma yielded_none c gs e c1 gs1 o i : happen (c, gs) e = ((c1, gs1), o) -> length gs <= i -> yielded i (e, o) = [].
    Proof.
      intros H Hi. destruct e as [ks|j|j|ks|new|d]; try by destruct o. cbn [happen] in H. unfold yielded. destruct (Nat.eqb_spec j i) as [->|]; [|by destruct o].
      rewrite lookup_ge_None_2 in H by done. injection H as _ _ <-. done.
    Qed.
    Lemma new_runs s tr fs s' j request : runs s tr fs s' -> no_replace tr -> counted s.1 s.2 -> I s.1 -> Forall P' fs ->
      requests tr !! j = Some request ->
      exists g', s'.2 !! (length s.2 + j) = Some g' /\ iter_ok P s'.1 request (given tr (length s.2 + j)) g'.
    Proof.
      intros H. revert j. induction H as [s|[c gs] e [c1 gs1] o tr fs s' He Hr IH]; intros j Hnr Hc HIc Hfs Hj; [done|].
      apply Forall_cons in Hnr as [Hnr1 Hnr]. apply Forall_cons in Hfs as [Hfs1 Hfs]. cbn [fst snd] in *.
      assert (counted c1 gs1) as Hc1 by (by eapply counted_step). assert (I c1) as HI1 by (by eapply (HI c gs)).
      pose proof (happen_length c gs e c1 gs1 o He) as Hlen. rewrite given_cons.
      rewrite (yielded_none c gs e c1 gs1 o _ He) by lia. rewrite app_nil_l.
      destruct e as [ks|i|i|ks|new|d]; try (rewrite Nat.add_0_r in Hlen; rewrite Hlen in IH; by apply IH).
      change (requests ((New ks, o) :: tr)) with (ks :: requests tr) in Hj. destruct j as [|j].
      - injection Hj as <-. cbn [happen] in He. injection He as <- <- <-. rewrite Nat.add_0_r.
        apply (iter_runs (c, gs ++ [Fresh ks]) tr fs s' (length gs) (Fresh ks) ks []); [done|done|done|done|done| |done].
        cbn. rewrite lookup_app_r by done. by rewrite Nat.sub_diag.
      - replace (length gs + S j) with (length gs1 + j) by lia. by apply IH.
    Qed.
  End inv.
  Lemma iter_ok_reads (P : D -> Prop) c request out g : (exists d, P d) -> iter_ok P c request out g -> exists d, P d /\ reads_request all_keys get d request out (ended g).
  Proof.
    intros [d0 H0]. destruct g as [r|rest sc|r]; cbn [iter_ok ended].
    - intros [_ ->]. exists d0. split; [done|apply reads_request_none].
    - intros (d & ks & HP & _ & Hk & E & Ho). exists d. split; [done|]. eapply reads_request_keys; [done|]. rewrite E. apply reads_app; [done|constructor].
    - done.
  Qed.

  (** What is seen is always something that was committed. *)
  Definition honest (P : D -> Prop) (c : cstate) : Prop := unlocked c /\ P (c_file c) /\ P (file_or_seen c).
  Lemma happen_keeps c gs e c' gs' o : counted c gs -> ~ is_replace e -> (forall d, e ≠ Other d) -> happen (c, gs) e = ((c', gs'), o) -> keeps c c'.
  Proof.
    intros [Hg Hn] Hnr Ho H. destruct e as [ks|i|i|ks|new|d]; cbn [happen] in H.
    - injection H as <- _ _. by apply keeps_refl.
    - destruct (gs !! i) as [g|] eqn:Ei; [|injection H as <- _ _; by apply keeps_refl]. destruct (next c g) as [[c1 g1] o1] eqn:En. injection H as <- <- _.
      pose proof (running_lookup gs i g Ei). apply (moves_next c g c1 g1 o1 Hg ltac:(lia) En).
    - destruct (gs !! i) as [g|] eqn:Ei; [|injection H as <- _ _; by apply keeps_refl]. destruct (close c g) as [[c1 g1] o1] eqn:En. injection H as <- <- _.
      pose proof (running_lookup gs i g Ei). apply (moves_close c g c1 g1 o1 Hg ltac:(lia) En).
    - destruct (render get render_mark c ks) as [c1 o1] eqn:Er. injection H as <- <- _. apply (render_step c ks c1 o1 Hg Er).
    - by destruct Hnr.
    - by destruct (Ho d).
  Qed.
  Lemma honest_step P c gs e c' gs' o : counted c gs -> honest P c -> ~ is_replace e -> P (c_file c') -> happen (c, gs) e = ((c', gs'), o) -> honest P c'.
  Proof.
    intros Hc (Hu & Hf & Hs) Hnr Hf' H. assert ((exists d, e = Other d) \/ forall d, e ≠ Other d) as [[d ->]|Ho].
    { destruct e as [| | | | |d]; [by right..|left; by exists d]. }
    - cbn [happen] in H. injection H as <- <- <-. destruct (holds_lock c); [done|]. split_and!; [exact Hu|done|].
      unfold file_or_seen in *. cbn in *. by destruct (c_view c).
    - destruct (happen_keeps c gs e c' gs' o Hc Hnr Ho H) as (_ & Hu' & _ & Hv). destruct (Hu' Hu) as [Hu1 Ef]. split_and!; [done|done|].
      unfold file_or_seen in *. destruct Hv as [->|[->|[E1 ->]]]; [|done|done]. by destruct (c_view c).
  Qed.

  (** ** A savepoint that is never released *)
  Definition stuck (m : string) (d : D) (c : cstate) : Prop := last (c_marks c) = Some m /\ exists v, c_view c = Some (d, v, false).
  Lemma stuck_step m d c gs e c' gs' o : m ≠ "docs" -> counted c gs -> stuck m d c -> ~ is_replace e -> True -> happen (c, gs) e = ((c', gs'), o) -> stuck m d c'.
  Proof.
    intros Hm Hc [Hl [v Hv]] Hnr _ H. assert ((exists d, e = Other d) \/ forall d, e ≠ Other d) as [[d' ->]|Ho].
    { destruct e as [| | | | |d']; [by right..|left; by exists d']. }
    - cbn [happen] in H. injection H as <- <- <-. destruct (holds_lock c); split; try done; by exists v.
    - destruct (happen_keeps c gs e c' gs' o Hc Hnr Ho H) as (_ & _ & Hk & _).
      assert (last (c_marks c') = Some m) as Hl'; [|split; [done|]; exists v; apply Hk; [intros E; by rewrite E in Hl'|done]]. destruct Hc as [Hg Hn].
      destruct e as [ks|i|i|ks|new|d']; cbn [happen] in H.
      + by injection H as <- _ _.
      + destruct (gs !! i) as [g|] eqn:Ei; [|by injection H as <- _ _]. destruct (next c g) as [[c1 g1] o1] eqn:En. injection H as <- <- _.
        pose proof (running_lookup gs i g Ei). destruct (moves_next c g c1 g1 o1 Hg ltac:(lia) En) as ([_ [_ Hb]] & _). by apply Hb.
      + destruct (gs !! i) as [g|] eqn:Ei; [|by injection H as <- _ _]. destruct (close c g) as [[c1 g1] o1] eqn:En. injection H as <- <- _.
        pose proof (running_lookup gs i g Ei). destruct (moves_close c g c1 g1 o1 Hg ltac:(lia) En) as ([_ [_ Hb]] & _). by apply Hb.
      + destruct (render get render_mark c ks) as [c1 o1] eqn:Er. injection H as <- <- _.
        destruct (render_step c ks c1 o1 Hg Er) as (_ & _ & _ & [->|(m' & e & _ & _ & ->)]); [done|]. destruct (c_marks c); [done|exact Hl].
      + by destruct Hnr.
      + by destruct (Ho d').
  Qed.
  Lemma stuck_runs m d s tr fs s' : runs s tr fs s' -> m ≠ "docs" -> counted s.1 s.2 -> stuck m d s.1 -> no_replace tr ->
    forall ks o, (Render ks, o) ∈ tr -> o = match gets get d ks with Ok l => Rendered l | Err e => Raised e end.
  Proof.
    induction 1 as [s|[c gs] e [c1 gs1] o1 tr fs s' He _ IH]; intros Hm Hc Hs Hnr ks o Hin; [by apply elem_of_nil in Hin|].
    apply Forall_cons in Hnr as [Hnr1 Hnr]. apply elem_of_cons in Hin as [[= <- <-]|Hin].
    - cbn [happen] in He. destruct (render get render_mark c ks) as [c2 o2] eqn:Er. injection He as _ _ <-.
      destruct (render_step c ks c2 o2 (proj1 Hc) Er) as (_ & _ & -> & _). destruct Hs as [_ [v Hv]]. unfold file_or_seen. cbn in Hv. by rewrite Hv.
    - apply IH; [done|by eapply counted_step|by eapply stuck_step|done|done].
  Qed.
End proofs.
