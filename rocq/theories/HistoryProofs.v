(** HistoryProofs.v *)
From Verif Require Export SpecHistory RefineFacts IndexCalls SpecIndexing.

(** ** Nested programs *)
Lemma contained_exec p : contained (exec p).
Proof.
  induction p; cbn [exec].
  - apply contained_on_db.
  - apply contained_bind; [done|]. by intros.
  - apply contained_fail.
  - intros c Ht Hl. specialize (IHp1 c Ht Hl). destruct (exec p1 c) as [c1 [u|e]]; [done|]. cbn in IHp1.
    eapply same_txn_trans; [done|]. apply IHp2.
    + by rewrite (in_txn_same _ _ IHp1).
    + by rewrite (st_level _ _ IHp1).
  - by apply contained_atomic.
Qed.

Lemma exec_meaning p c : in_txn c = true -> 1 <= level c ->
  exec p c = (set_changed (changed c || wrote p (cur c)) (set_cur (meaning p (cur c)).1 c), (meaning p (cur c)).2).
Proof.
  revert c. induction p as [m|p IHp q IHq|e|p IHp q IHq|name w p IHp]; intros c Ht Hl; cbn [exec meaning wrote].
  - rewrite on_db_run by done. rewrite orb_false_r. by destruct c.
  - unfold pbind. rewrite (IHp c Ht Hl). destruct (meaning p (cur c)) as [d1 [u|e]] eqn:E; cbn [fst snd]; [|done].
    rewrite IHq; [|done|done]. cbn [cur changed set_changed set_cur]. rewrite orb_assoc. done.
  - unfold pfail. rewrite orb_false_r. by destruct c.
  - rewrite (IHp c Ht Hl). destruct (meaning p (cur c)) as [d1 [u|e]] eqn:E; cbn [fst snd]; [done|].
    rewrite IHq; [|done|done]. cbn [cur changed set_changed set_cur]. rewrite orb_assoc. done.
  - rewrite atomic_nested; [|apply contained_exec|done|done].
    rewrite (IHp (pushed name c)); [|apply in_txn_pushed|cbn; lia].
    change (cur (pushed name c)) with (cur c). change (changed (pushed name c)) with (changed c).
    destruct (meaning p (cur c)) as [d1 [u|e]] eqn:E; cbn [fst snd changed cur set_changed set_cur].
    + rewrite orb_assoc. done.
    + by destruct c.
Qed.

(** ** Single calls *)
Definition write_outcome (m : M unit) (c : conn) : Prop :=
  (exists e, call_raises m c e) \/ call_succeeds m c tt (fun _ _ => True).


Lemma outcome_ignore {A} (m : M A) c :
  (exists e, call_raises m c e) \/ (exists a, call_succeeds m c a (fun _ _ => True)) -> write_outcome (ignore m) c.
Proof.
  intros [(e & c' & H & ?)|(a & c' & H & ?)]; unfold write_outcome, ignore, pbind.
  - left. exists e, c'. unfold pbind. by rewrite H.
  - right. exists c'. unfold pbind. by rewrite H.
Qed.

Lemma outcome_body {A} name (body : dbm A) c : idle c -> pool_works c ->
  (forall d1 a, body (disk c) = (d1, Ok a) -> usable d1 /\ same_index (disk c) d1) ->
  (exists e, call_raises (atomic name true (on_db body)) c e) \/
  (exists a, call_succeeds (atomic name true (on_db body)) c a (fun _ _ => True)).
Proof.
  intros Hid Hp Hb. destruct (body (disk c)) as [d1 [a|e]] eqn:E.
  - right. exists a. destruct (Hb d1 a eq_refl). by eapply call_ok.
  - left. exists e. by eapply call_err.
Qed.

Lemma outcome_unit (m : M unit) c :
  (exists e, call_raises m c e) \/ (exists a, call_succeeds m c a (fun _ _ => True)) -> write_outcome m c.
Proof. intros [?|([] & ?)]; [by left|by right]. Qed.

Lemma outcome_weaken {A} (m : M A) c a post : call_succeeds m c a post -> exists a, call_succeeds m c a (fun _ _ => True).
Proof. intros (c' & H1 & H2 & H3 & H4 & _ & H6). exists a, c'. split_and!; done. Qed.


Lemma run_write_outcome w c : idle c -> usable (disk c) -> pool_works c -> write_outcome (run_write w) c.
Proof.
  intros Hid Hu Hp. destruct w as [n md fields g|cs|cs|fs|fs|fs p|cs p|a g]; cbn [run_write].
  - apply outcome_unit, outcome_body; [done|done|]. intros d1 u E.
    pose proof (initialise_clusters_body_spec n md fields g (disk c) Hu) as H. rewrite E in H. destruct H as [S _].
    split; [apply S|]. eapply same_index_trans; [|apply S]. repeat split.
  - apply outcome_unit. right. eapply outcome_weaken, delete_clusters_call; done.
  - apply outcome_ignore. destruct cs as [|m rest]; [left|right].
    + exists IndexError. by eapply call_err.
    + eapply outcome_weaken, merge_clusters_call; done.
  - apply outcome_unit. right. eapply outcome_weaken, delete_features_call; done.
  - apply outcome_ignore. destruct (decide (Forall (fun f => is_Some (inverted_index (disk c) !! f)) fs)) as [Hf|Hf].
    + right. destruct (create_call fs c Hid Hu Hp) as (id & _ & H); [by apply Forall_forall|]. by eapply outcome_weaken.
    + left. exists IntegrityError. apply create_call_err; [done|done|].
      apply not_Forall_Exists in Hf; [|apply _]. apply Exists_exists in Hf as (f & Hin & Hn). exists f. split; [done|].
      by apply eq_None_not_Some.
  - apply outcome_unit. right. eapply outcome_weaken, pin_features_call; done.
  - apply outcome_unit. right. eapply outcome_weaken, pin_clusters_call; done.
  - destruct (refine_conserves a g c Hid Hu Hp) as [?|H]; [by left|right].
    destruct H as (c' & H1 & H2 & H3 & H4 & _ & H6). exists c'. split_and!; done.
Qed.

(** ** Invariant of histories *)
Record steady (c : conn) : Prop := Steady {
  sy_idle : idle c; sy_quiet : quiet (disk c); sy_unique : features_unique (inverted_index (disk c));
  sy_pool : forall n, pool c n = None }.

Lemma steady_ready c : steady c -> index_ready c.
Proof. intros [H1 H2 H3 _]. split_and!; [done| |done]. destruct H2 as [??]. by apply summaries_winv. Qed.

(** No call changes the pool. *)
Lemma pool_on_db {A} (m : dbm A) c : pool (on_db m c).1 = pool c.
Proof. unfold on_db. destruct (m (cur c)). unfold autocommit. by destruct (in_txn _). Qed.
Lemma pool_housekeeping c : pool (update_changed_clusters c).1 = pool c.
Proof.
  unfold update_changed_clusters, autocommit. destruct (pool c (pool_pos c)).
  - by destruct (in_txn _).
  - rewrite pool_on_db. by destruct (in_txn _).
Qed.
Lemma pool_release name c : pool (sql_release name c).1 = pool c.
Proof.
  unfold sql_release, autocommit. destruct (find_savepoint name (stack c)) as [[d r]|]; [|done]. by destruct (in_txn _).
Qed.
Lemma pool_rollback_to name c : pool (sql_rollback_to name c).1 = pool c.
Proof. unfold sql_rollback_to. by destruct (find_savepoint name (stack c)) as [[d r]|]. Qed.
Lemma pool_finally {A} name (r : res A) c : pool (atomic_finally name r c).1 = pool c.
Proof.
  unfold atomic_finally. set (c1 := set_level _ c). change (pool c) with (pool c1).
  destruct ((level c1 =? 0) && changed c1).
  - pose proof (pool_housekeeping c1) as H. destruct (update_changed_clusters c1) as [c2 [u|e]]; [|done].
    cbn in H. pose proof (pool_release name (set_changed false c2)) as H2.
    destruct (sql_release name (set_changed false c2)) as [c3 [u'|e]]; cbn in *; congruence.
  - pose proof (pool_release name c1) as H2. destruct (sql_release name c1) as [c3 [u'|e]]; cbn in *; congruence.
Qed.
Definition keeps_pool {A} (m : M A) : Prop := forall c, pool (m c).1 = pool c.
Lemma pool_atomic {A} name w (body : M A) : keeps_pool body -> keeps_pool (atomic name w body).
Proof.
  intros Hb c. unfold atomic, pbind, sql_savepoint.
  match goal with |- context [body ?X] => pose proof (Hb X) as H; destruct (body X) as [c2 [a|e]] end; cbn in H.
  - rewrite pool_finally. by destruct w.
  - pose proof (pool_rollback_to name c2) as H2. destruct (sql_rollback_to name c2) as [c3 [u|e']]; rewrite pool_finally; cbn in H2; congruence.
Qed.
Lemma pool_ignore {A} (m : M A) : keeps_pool m -> keeps_pool (ignore m).
Proof. intros Hm c. unfold ignore, pbind. specialize (Hm c). by destruct (m c) as [c1 [a|e]]. Qed.
Lemma pool_run_write w : keeps_pool (run_write w).
Proof.
  destruct w; cbn [run_write]; try apply pool_ignore; apply pool_atomic; intros c; try apply pool_on_db.
  destruct (refine_plan a g (disk c) (cur c)); [|done]. unfold update_cluster_feature. apply pool_atomic.
  intros c'. apply pool_on_db.
Qed.
Lemma pool_run_index bsz pos cp s : keeps_pool (run_index bsz pos cp s).
Proof.
  intros c. unfold run_index.
  assert (forall b c, pool (sql_foreign_keys b c).1 = pool c) as Hfk.
  { intros b c'. unfold sql_foreign_keys. cbn. by destruct (in_txn c'). }
  assert (keeps_pool sql_begin) as Hb. { intros c'. unfold sql_begin. by destruct (in_txn c'). }
  assert (keeps_pool sql_commit) as Hc. { intros c'. unfold sql_commit. by destruct (in_txn c'). }
  assert (keeps_pool sql_rollback) as Hr. { intros c'. unfold sql_rollback. by destruct (in_txn c'). }
  assert (forall A B (m : M A) (k : A -> M B), keeps_pool m -> (forall a, keeps_pool (k a)) -> keeps_pool (pbind m k)) as Hbd.
  { intros A B m k Hm Hk c'. unfold pbind. specialize (Hm c'). destruct (m c') as [c1 [a|e]]; [|done].
    rewrite Hk. done. }
  pose proof (Hfk false c) as H0. destruct (sql_foreign_keys false c) as [cn0 u0]. cbn in H0.
  pose proof (Hb cn0) as H1. destruct (sql_begin cn0) as [cn1 [u1|e1]]; cbn in H1; [|cbn; congruence].
  match goal with |- context [pbind ?m ?k cn1] => assert (pool (pbind m k cn1).1 = pool cn1) as H2;
    [|destruct (pbind m k cn1) as [cn2 [u2|e2]]] end.
  { apply Hbd; [intros c'; apply pool_on_db|intros _]. apply Hbd; [done|intros _]. apply Hbd; [done|intros _].
    apply Hbd; [intros c'; apply pool_housekeeping|done]. }
  - pose proof (Hfk true cn2) as H3. destruct (sql_foreign_keys true cn2). cbn in *. congruence.
  - pose proof (Hr cn2) as H4. destruct (sql_rollback cn2) as [cn3 [u3|e3]].
    all: pose proof (Hfk true cn3) as H3; destruct (sql_foreign_keys true cn3); cbn in *; congruence.
Qed.

(** Histories in which the process does not stop in the middle of [index]. *)
Definition no_index_crash (es : list event) : Prop :=
  forall bsz pos cp s, CrashDuringIndex bsz pos cp s ∉ es.

Lemma steady_happens e c c' : (forall bsz pos cp s, e ≠ CrashDuringIndex bsz pos cp s) ->
  steady c -> happens e c c' -> steady c'.
Proof.
  intros Hno Hs Hh. pose proof (steady_ready c Hs) as (_ & Hu & _). destruct Hs as [Hid Hq Hf Hp].
  destruct Hh as [w c|bsz pos cp s c Hc|w c d Hd|bsz pos cp s c d Hc Hd|c].
  - pose proof (pool_run_write w c) as Hpl.
    destruct (run_write_outcome w c Hid Hu (Hp _)) as [(e & c' & H & Hi & Hd & _)|(c' & H & Hi & Hq' & Hsame & _)]; rewrite H in *; cbn in *.
    + split; [done|by rewrite Hd|by rewrite Hd|by rewrite Hpl].
    + split; [done|done| |by rewrite Hpl]. destruct Hsame as (_ & -> & _). done.
  - pose proof (pool_run_index bsz pos cp s c) as Hpl.
    destruct (index_cases bsz pos cp s c Hid Hu Hf Hc) as [(e & d & _ & H)|(bs & segs & Hpm & HF & _ & Hcond & Hu1 & Hcase)].
    + rewrite H. by split.
    + destruct Hcase as [(k & Hk & _)|(_ & d2 & Hd2 & H)]; [by rewrite Hp in Hk|]. rewrite H in Hpl |- *. cbn [fst] in *.
      assert (features_unique (inverted_index d2)) as Hfd2.
      { pose proof Hd2 as (_ & _ & (_ & -> & _) & _). exact (ie_unique _ _ _ (merge_exact _ _ _ _ _ _ Hf Hpm HF)). }
      destruct Hd2 as (R1 & R2 & R3 & _). split; [by constructor|by split|exact Hfd2|]. cbn. exact Hp.
  - assert (quiet d /\ features_unique (inverted_index d)) as [Hqd Hfd]; [|split; [apply idle_open|done..]].
    destruct (run_write_outcome w c Hid Hu (Hp _)) as [(e & c' & H & Hi & _ & Hcr)|(c' & H & Hi & Hq' & Hsame & _ & Hcr)];
      rewrite H in Hd; cbn in Hd; specialize (Hcr d Hd).
    + by subst d.
    + destruct Hcr as [->| ->]; [done|]. split; [done|]. by destruct Hsame as (_ & -> & _).
  - by destruct (Hno bsz pos cp s).
  - split; [apply idle_open|done..].
Qed.

Lemma steady_history es c c' : no_index_crash es -> steady c -> history es c c' -> steady c'.
Proof.
  intros Hno Hs Hh. induction Hh as [|e es c1 c2 c3 Hh Hr IH]; [done|]. apply IH.
  - intros bsz pos cp s Hin. apply (Hno bsz pos cp s). by right.
  - eapply steady_happens; [|done|done]. intros bsz pos cp s ->. apply (Hno bsz pos cp s). by left.
Qed.

(** ** Transactions that stay open *)
Definition write_shape (run : M unit) : Prop := exists A name wr (body : M A), contained body /\
  (forall c c' a, in_txn c = true -> 1 <= level c -> body c = (c', Ok a) -> changed c' || wr = true) /\
  (forall c c' e, in_txn c = true -> 1 <= level c -> changed c = false -> body c = (c', Err e) -> changed c' = false) /\
  (forall c c' r, atomic name wr body c = (c', r) ->
     exists r', run c = (c', r') /\ (forall e, r = Err e -> r' = Err e)).

Lemma shape_db_ignore {A} name (m : dbm A) : write_shape (ignore (atomic name true (on_db m))).
Proof.
  exists A, name, true, (on_db m). split; [apply contained_on_db|]. split; [intros; by rewrite orb_true_r|]. split.
  - intros c c' e Ht _ Hch. rewrite on_db_run by done. by intros [= <- _].
  - intros c c' r Hr. unfold ignore, pbind. rewrite Hr. destruct r; eexists; split; [reflexivity|done|reflexivity|]. by intros e' [= ->].
Qed.
Lemma shape_db name (m : dbm unit) : write_shape (atomic name true (on_db m)).
Proof.
  exists unit, name, true, (on_db m). split; [apply contained_on_db|]. split; [intros; by rewrite orb_true_r|]. split.
  - intros c c' e Ht _ Hch. rewrite on_db_run by done. by intros [= <- _].
  - intros c c' r Hr. by exists r.
Qed.

Lemma contained_body_write w : write_shape (run_write w).
Proof.
  destruct w as [n md fields g|cs|cs|fs|fs|fs p|cs p|a g]; cbn [run_write];
    [apply shape_db|apply shape_db|apply shape_db_ignore|apply shape_db|apply shape_db_ignore|apply shape_db|apply shape_db|].
  eexists _, "refine_clusters", false, (refine_body a g). split; [apply contained_refine|]. split; [|split].
  - intros c c' u Ht Hl. unfold refine_body. destruct (refine_plan a g (disk c) (cur c)) as [x|e]; [|done].
    unfold update_cluster_feature. rewrite atomic_nested; [|apply contained_on_db|done|done].
    match goal with |- context [match ?X with _ => _ end] => destruct X as [c2 [u'|e]] end; [|done].
    intros [= <- _]. cbn. by rewrite !orb_true_r.
  - intros c c' e Ht Hl Hch. unfold refine_body. destruct (refine_plan a g (disk c) (cur c)) as [x|e']; [|by intros [= <- _]].
    unfold update_cluster_feature. rewrite atomic_nested; [|apply contained_on_db|done|done].
    rewrite on_db_run by apply in_txn_pushed.
    match goal with |- context [dmany ?f ?l] => generalize (dmany f l) end. intros m. generalize (cur (pushed "_update_cluster_feature" c)).
    intros d. destruct (m d) as [d2 [u'|e']]; cbn [fst snd]; [done|]. by intros [= <- _].
  - intros c c' r Hr. exists r. split; [exact Hr|done].
Qed.

Lemma stuck_write w c : stuck c ->
  let c' := (run_write w c).1 in stuck c' /\ disk c' = disk c /\ commits c' = commits c.
Proof.
  intros Hs. destruct (contained_body_write w) as (A & name & wr & body & Hb & _ & _ & Heq).
  pose proof (atomic_stuck name wr body c Hb Hs) as H.
  destruct (atomic name wr body c) as [c1 r] eqn:E. destruct (Heq _ _ _ E) as (r' & -> & _). done.
Qed.

Lemma stuck_index bsz pos cp s c : stuck c ->
  run_index bsz pos cp s c = (c, Err IndexingError).
Proof. intros [_ Ht]. by apply index_in_txn. Qed.

(** Only calls on this [Index] object: no crash, no reopening. *)
Definition is_call (e : event) : Prop := match e with Write _ | IndexCorpus _ _ _ _ => True | _ => False end.
Definition calls_only (es : list event) : Prop := forall e, e ∈ es -> is_call e.

Lemma stuck_history es c c' : calls_only es -> stuck c -> history es c c' ->
  stuck c' /\ disk c' = disk c /\ commits c' = commits c.
Proof.
  intros Hco Hs Hh. induction Hh as [|e es c1 c2 c3 Hh Hr IH]; [done|].
  assert (stuck c2 /\ disk c2 = disk c1 /\ commits c2 = commits c1) as (S2 & D2 & C2).
  { destruct Hh as [w c|bsz pos cp s c Hc|w c d Hd|bsz pos cp s c d Hc Hd|c].
    - by apply stuck_write.
    - by rewrite (stuck_index _ _ _ _ _ Hs).
    - destruct (Hco (CrashDuring w)). by left.
    - destruct (Hco (CrashDuringIndex bsz pos cp s)). by left.
    - destruct (Hco Reopen). by left. }
  destruct IH as (S3 & D3 & C3); [|done|].
  - intros e' Hin. apply (Hco e'). by right.
  - split_and!; [done|congruence|congruence].
Qed.

Lemma begin_stuck c c' : idle c -> enter c = (c', Ok tt) -> stuck c' /\ disk c' = disk c /\ commits c' = commits c.
Proof.
  intros Hid. rewrite (idle_eq c Hid). unfold enter, sql_begin. cbn. intros [= <-]. split; [|done]. by split.
Qed.


(** ** The pool fails *)
Lemma write_pool_fails w c k : idle c -> pool c (pool_pos c) = Some k ->
  (exists e, call_raises (run_write w) c e) \/
  exists c', run_write w c = (c', Err PoolError) /\ stuck c' /\ disk c' = disk c /\ commits c' = commits c.
Proof.
  intros Hid Hp. destruct (contained_body_write w) as (A & name & wr & body & Hb & Hok & Herr & Heq).
  destruct (body (pushed name c)) as [c2 [a|e]] eqn:E.
  - right. pose proof (Hok _ _ _ (in_txn_pushed name c) ltac:(cbn; lia) E) as Hch.
    destruct (atomic_outer_pool name wr body c c2 a k Hid Hb E Hch Hp) as (d & Hr).
    destruct (Heq _ _ _ Hr) as (r' & Hr' & He). rewrite (He _ eq_refl) in Hr'. eexists. split; [exact Hr'|].
    split; [split; done|]. done.
  - left. exists e. pose proof (Herr _ _ _ (in_txn_pushed name c) ltac:(cbn; lia) (idle_changed _ Hid) E) as Hch.
    pose proof (atomic_outer_err name wr body c c2 e Hid Hb E Hch) as Hr.
    destruct (Heq _ _ _ Hr) as (r' & Hr' & He). rewrite (He _ eq_refl) in Hr'.
    exists (committed_conn (disk c) (pool_pos c) c). split; [exact Hr'|]. split; [apply idle_committed|]. split; [done|].
    intros d Hd. by destruct (crash_committed _ _ _ _ Hd).
Qed.

(** ** Whatever fails: the committed database stays usable *)
Record robust (c : conn) : Prop := Robust {
  ro_usable : usable (disk c); ro_unique : features_unique (inverted_index (disk c));
  ro_state : idle c \/ stuck c }.

Lemma crash_same c c' d : commits c' = commits c -> crash_states c c' d -> d = disk c.
Proof.
  intros Hc [->|(new & old & H & -> & Hx)]; [done|]. rewrite Hc in H.
  assert (new = []) as -> by (apply (app_inv_tail (commits c)); by rewrite <- H).
  by apply elem_of_nil in Hx.
Qed.

Lemma write_cases w c : robust c ->
  exists c' r, run_write w c = (c', r) /\ robust c' /\
    forall d, crash_states c c' d -> usable d /\ features_unique (inverted_index d).
Proof.
  intros [Hu Hf [Hid|Hs]].
  - destruct (pool c (pool_pos c)) as [k|] eqn:Ep.
    + destruct (write_pool_fails w c k Hid Ep) as [(e & c' & H & Hi & Hd & Hcr)|(c' & H & Hst & Hd & Hco)];
        exists c'; eexists; (split; [exact H|]); (split; [split; [by rewrite Hd|by rewrite Hd|by (left + right)]|]); intros d Hx.
      * by rewrite (Hcr d Hx).
      * by rewrite (crash_same _ _ _ Hco Hx).
    + destruct (run_write_outcome w c Hid Hu Ep) as [(e & c' & H & Hi & Hd & Hcr)|(c' & H & Hi & Hq' & Hsame & _ & Hcr)].
      * exists c', (Err e). split; [done|]. split; [split; [by rewrite Hd|by rewrite Hd|by left]|]. intros d Hx. by rewrite (Hcr d Hx).
      * assert (features_unique (inverted_index (disk c'))) as Hf' by (destruct Hsame as (_ & -> & _); done).
        assert (usable (disk c')) as Hu' by (destruct Hq'; by apply summaries_winv).
        exists c', (Ok tt). split; [done|]. split; [split; [done|done|by left]|]. intros d Hx. by destruct (Hcr d Hx) as [-> | ->].
  - destruct (stuck_write w c Hs) as (H1 & H2 & H3). destruct (run_write w c) as [c' r] eqn:E. cbn in *.
    exists c', r. split; [done|]. split; [split; [by rewrite H2|by rewrite H2|by right]|]. intros d Hx. by rewrite (crash_same _ _ _ H3 Hx).
Qed.

Lemma index_robust bsz pos cp s c : robust c -> complete s (length (batches bsz cp)) ->
  exists c' r, run_index bsz pos cp s c = (c', r) /\ robust c' /\
    forall d, crash_states c c' d -> usable d /\ features_unique (inverted_index d).
Proof.
  intros [Hu Hf [Hid|Hs]] Hc.
  - destruct (index_cases bsz pos cp s c Hid Hu Hf Hc) as [(e & d & _ & H)|(bs & segs & Hpm & HF & _ & Hcond & Hu1 & Hcase)].
    + exists c, (Err e). split; [done|]. split; [split; [done|done|by left]|]. intros x Hx. by rewrite (crash_same c c x eq_refl Hx).
    + pose proof (ie_unique _ _ _ (merge_exact _ _ _ _ _ _ Hf Hpm HF)) as Hf1.
      change (features_unique (inverted_index (rebuilt cp.*1 segs (disk c)))) in Hf1.
      set (d1 := rebuilt cp.*1 segs (disk c)) in *. clearbody d1.
      destruct Hcase as [(k & Hk & H)|(_ & d2 & Hd2 & H)].
      * eexists _, _. split; [exact H|]. split; [split; [done|done|left; by constructor]|].
        intros d [->|(new & old & Hco & -> & Hx)]; [done|]. cbn [commits] in Hco.
        change (d1 :: commits c) with ([d1] ++ commits c) in Hco. apply app_inv_tail in Hco. subst new.
        by apply elem_of_list_singleton in Hx as ->.
      * assert (usable d2 /\ features_unique (inverted_index d2)) as [Hu2 Hf2].
        { destruct Hd2 as (R1 & R2 & R3 & _). split; [by apply summaries_winv|]. by destruct R3 as (_ & -> & _). }
        eexists _, _. split; [exact H|]. split; [split; [done|done|left; by constructor]|].
        intros d [->|(new & old & Hco & -> & Hx)]; [done|]. cbn [commits] in Hco.
        change (d2 :: d1 :: commits c) with ([d2; d1] ++ commits c) in Hco. apply app_inv_tail in Hco. subst new.
        apply elem_of_cons in Hx as [->|Hx]; [done|]. by apply elem_of_list_singleton in Hx as ->.
  - exists c, (Err IndexingError). split; [by apply stuck_index|]. split; [split; [done|done|by right]|].
    intros d Hx. by rewrite (crash_same c c d eq_refl Hx).
Qed.

Lemma robust_history es c c' : robust c -> history es c c' -> robust c'.
Proof.
  intros Hr Hh. induction Hh as [|e es c1 c2 c3 Hh _ IH]; [done|]. apply IH.
  destruct Hh as [w c|bsz pos cp s c Hc|w c d Hd|bsz pos cp s c d Hc Hd|c].
  - destruct (write_cases w c Hr) as (c' & r & -> & H & _). done.
  - destruct (index_robust bsz pos cp s c Hr Hc) as (c' & r & -> & H & _). done.
  - destruct (write_cases w c Hr) as (c' & r & H & _ & Hcr). rewrite H in Hd. destruct (Hcr d Hd).
    split; [done|done|left; apply idle_open].
  - destruct (index_robust bsz pos cp s c Hr Hc) as (c' & r & H & _ & Hcr). rewrite H in Hd. destruct (Hcr d Hd).
    split; [done|done|left; apply idle_open].
  - destruct Hr as [Hu Hf _]. split; [done|done|left; apply idle_open].
Qed.
