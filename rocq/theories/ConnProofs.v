(** ConnProofs.v: proofs about [atomic], savepoints and housekeeping. *)
From Verif Require Export ClusterOps SpecConn BaseProofs ClusterProofs.

(** ** Connections between public calls *)
Lemma idle_eq c : idle c ->
  c = Conn (disk c) (disk c) false [] 0 false true (pool c) (pool_pos c) (commits c).
Proof. destruct c. intros []. simpl in *. by subst. Qed.

Lemma idle_reopen c : idle (reopen c).
Proof. by constructor. Qed.
Lemma idle_open d p : idle (open_index d p).
Proof. by constructor. Qed.

(** ** Bodies that stay inside the enclosing transaction *)
Record same_txn (c c' : conn) : Prop := SameTxn {
  st_disk : disk c' = disk c; st_begun : begun c' = begun c; st_stack : stack c' = stack c;
  st_level : level c' = level c; st_fk : fk c' = fk c; st_pool : pool c' = pool c;
  st_pos : pool_pos c' = pool_pos c; st_commits : commits c' = commits c;
  st_changed : changed c = true -> changed c' = true }.

Lemma same_txn_eq c c' : same_txn c c' ->
  c' = Conn (disk c) (cur c') (begun c) (stack c) (level c) (changed c') (fk c) (pool c)
            (pool_pos c) (commits c).
Proof. destruct c, c'. intros []. simpl in *. by subst. Qed.

Lemma same_txn_refl c : same_txn c c.
Proof. by constructor. Qed.
Lemma same_txn_trans c1 c2 c3 : same_txn c1 c2 -> same_txn c2 c3 -> same_txn c1 c3.
Proof.
  intros H1 H2. destruct H1, H2. constructor; [congruence..|]. auto.
Qed.

Lemma in_txn_same c c' : same_txn c c' -> in_txn c' = in_txn c.
Proof. intros H. unfold in_txn. by rewrite (st_begun _ _ H), (st_stack _ _ H). Qed.

Definition contained {A} (m : M A) : Prop :=
  forall c, in_txn c = true -> 1 <= level c -> same_txn c (m c).1.

Lemma contained_ret {A} (a : A) : contained (pret a).
Proof. intros c _ _. apply same_txn_refl. Qed.
Lemma contained_fail {A} e : contained (@pfail A e).
Proof. intros c _ _. apply same_txn_refl. Qed.
Lemma contained_bind {A B} (m : M A) (k : A -> M B) :
  contained m -> (forall a, contained (k a)) -> contained (pbind m k).
Proof.
  intros Hm Hk c Ht Hl. unfold pbind. specialize (Hm c Ht Hl).
  destruct (m c) as [c1 [a|e]]; [|done]. simpl in Hm.
  eapply same_txn_trans; [done|]. apply Hk.
  - by rewrite (in_txn_same _ _ Hm).
  - by rewrite (st_level _ _ Hm).
Qed.

Lemma on_db_run {A} (m : dbm A) c : in_txn c = true ->
  on_db m c = (set_cur (m (cur c)).1 c, (m (cur c)).2).
Proof.
  intros Ht. unfold on_db. destruct (m (cur c)) as [d r]. unfold autocommit.
  change (in_txn (set_cur d c)) with (in_txn c). by rewrite Ht.
Qed.
Lemma contained_on_db {A} (m : dbm A) : contained (on_db m).
Proof. intros c Ht _. rewrite on_db_run by done. by constructor. Qed.

(** ** Nested [atomic] *)
Definition pushed (name : string) (c : conn) : conn :=
  set_stack ((name, cur c) :: stack c) (set_level (S (level c)) c).

Lemma in_txn_pushed name c : in_txn (pushed name c) = true.
Proof. unfold in_txn, pushed. simpl. by rewrite orb_true_r. Qed.

Lemma atomic_nested {A} name w (body : M A) c :
  contained body -> in_txn c = true -> 1 <= level c ->
  atomic name w body c =
    match body (pushed name c) with
    | (c', Ok a) => (set_changed (changed c' || w) (set_cur (cur c') c), Ok a)
    | (c', Err e) => (set_changed (changed c') c, Err e)
    end.
Proof.
  intros Hb Ht Hl. unfold atomic, pbind, sql_savepoint.
  change (set_stack ((name, cur (set_level (S (level c)) c)) :: stack (set_level (S (level c)) c))
            (set_level (S (level c)) c)) with (pushed name c).
  specialize (Hb (pushed name c) (in_txn_pushed name c) ltac:(simpl; lia)).
  destruct (body (pushed name c)) as [c' [a|e]]; simpl in Hb;
    rewrite (same_txn_eq _ _ Hb); cbn [cur changed];
    destruct c as [dsk cr bg stk lv ch f pl pp cm]; unfold in_txn in Ht; simpl in *;
    destruct lv as [|lv]; try lia.
  - unfold atomic_finally. destruct w; simpl.
    + unfold sql_release; simpl. rewrite bool_decide_true by done. unfold autocommit, in_txn; simpl.
      rewrite Ht. simpl. by rewrite orb_true_r.
    + unfold sql_release; simpl. rewrite bool_decide_true by done. unfold autocommit, in_txn; simpl.
      rewrite Ht. simpl. by rewrite orb_false_r.
  - unfold sql_rollback_to. simpl. rewrite bool_decide_true by done. unfold atomic_finally. simpl.
    unfold sql_release; simpl. rewrite bool_decide_true by done. unfold autocommit, in_txn; simpl.
    by rewrite Ht.
Qed.

Lemma contained_atomic {A} name w (body : M A) : contained body -> contained (atomic name w body).
Proof.
  intros Hb c Ht Hl. rewrite atomic_nested by done.
  pose proof (Hb (pushed name c) (in_txn_pushed name c) ltac:(simpl; lia)) as Hs.
  destruct (body (pushed name c)) as [c' [a|e]]; simpl in *; constructor; simpl; try done; intros Hc.
  - rewrite (st_changed _ _ Hs) by done. done.
  - by apply (st_changed _ _ Hs).
Qed.

(** ** Outermost [atomic] *)
Lemma union_run com b d :
  housekeeping_db com d = apply_unions com (housekeeping_jobs (update_feature_counts d)) (update_feature_counts d)
  /\ drop_empty b = dbind (dstmt (delete_clusters_where b (fun row => (c_feature_count row =? 0)%N)))
                   (fun _ => dstmt (fun d => Ok (set_changed_cluster ∅ d))).
Proof. done. Qed.

(** The state of an idle connection after a commit of [d]. *)
Definition committed_conn (d : db) (pos : nat) (c : conn) : conn :=
  Conn d d false [] 0 false true (pool c) pos (d :: commits c).

Lemma idle_committed d pos c : idle (committed_conn d pos c).
Proof. by constructor. Qed.

Lemma housekeeping_ok c : in_txn c = true -> pool c (pool_pos c) = None ->
  usable (cur c) -> inverted_index (disk c) = inverted_index (cur c) ->
  exists d, refreshed (cur c) d /\
    update_changed_clusters c = (set_cur d (set_pool_pos (S (pool_pos c)) c), Ok tt).
Proof.
  intros Ht Hp Hw Hi. destruct (drop_empty_refreshed (fk c) (disk c) (cur c) Hw Hi) as (d & Hd & Hr).
  exists d. split; [done|]. unfold update_changed_clusters. rewrite Hp.
  unfold autocommit.
  match goal with |- context [in_txn (set_cur ?x ?y)] => change (in_txn (set_cur x y)) with (in_txn c) end.
  rewrite Ht. rewrite on_db_run by done. cbn [cur set_cur].
  change (dbind _ _) with (drop_empty (fk c)).
  change (apply_unions _ _ _) with (housekeeping_db (disk c) (cur c)).
  rewrite Hd. done.
Qed.

Lemma atomic_outer_ok {A} name w (body : M A) c c' a :
  idle c -> contained body -> body (pushed name c) = (c', Ok a) ->
  changed c' || w = true -> usable (cur c') ->
  inverted_index (cur c') = inverted_index (disk c) -> pool c (pool_pos c) = None ->
  exists d, refreshed (cur c') d /\
    atomic name w body c = (committed_conn d (S (pool_pos c)) c, Ok a).
Proof.
  intros Hid Hb Hrun Hch Hw Hi Hp.
  pose proof (Hb (pushed name c) (in_txn_pushed name c) ltac:(simpl; lia)) as Hs.
  rewrite Hrun in Hs. simpl in Hs. pose proof (same_txn_eq _ _ Hs) as Ec.
  rewrite (idle_eq c Hid) in Ec |- *. cbn in Ec.
  set (c2 := Conn (disk c) (cur c') false [(name, disk c)] 0 true true (pool c) (pool_pos c) (commits c)).
  destruct (housekeeping_ok c2) as (d & Hr & Hu); [done|done|done|done|].
  exists d. split; [done|].
  unfold atomic, pbind, sql_savepoint. rewrite (idle_eq c Hid) in Hrun.
  unfold pushed in Hrun. cbn in Hrun |- *. rewrite Hrun.
  match goal with |- atomic_finally _ _ ?X = _ => assert (X =
    Conn (disk c) (cur c') false [(name, disk c)] 1 true true (pool c) (pool_pos c) (commits c)) as -> end.
  { rewrite Ec. destruct w; [done|]. rewrite orb_false_r in Hch. by rewrite Hch. }
  unfold atomic_finally. cbn [set_level level pred Nat.eqb andb changed].
  match goal with |- context [update_changed_clusters ?X] => change X with c2 end.
  rewrite Hu. unfold sql_release. cbn. rewrite bool_decide_true by done. done.
Qed.

Lemma atomic_outer_err {A} name w (body : M A) c c' e :
  idle c -> contained body -> body (pushed name c) = (c', Err e) -> changed c' = false ->
  atomic name w body c = (committed_conn (disk c) (pool_pos c) c, Err e).
Proof.
  intros Hid Hb Hrun Hch.
  pose proof (Hb (pushed name c) (in_txn_pushed name c) ltac:(simpl; lia)) as Hs.
  rewrite Hrun in Hs. simpl in Hs. pose proof (same_txn_eq _ _ Hs) as Ec.
  rewrite (idle_eq c Hid) in Ec |- *. cbn in Ec.
  unfold atomic, pbind, sql_savepoint. rewrite (idle_eq c Hid) in Hrun.
  unfold pushed in Hrun. cbn in Hrun |- *. rewrite Hrun.
  rewrite Ec, Hch. unfold sql_rollback_to. simpl. rewrite bool_decide_true by done.
  unfold atomic_finally. simpl. unfold sql_release. simpl. by rewrite bool_decide_true by done.
Qed.

(** The same with an inner writer having run before the error: housekeeping runs on
    the restored database. *)
Lemma atomic_outer_err_changed {A} name w (body : M A) c c' e :
  idle c -> contained body -> body (pushed name c) = (c', Err e) -> changed c' = true ->
  usable (disk c) -> pool c (pool_pos c) = None ->
  exists d, refreshed (disk c) d /\
  atomic name w body c = (committed_conn d (S (pool_pos c)) c, Err e).
Proof.
  intros Hid Hb Hrun Hch Hw Hp.
  pose proof (Hb (pushed name c) (in_txn_pushed name c) ltac:(simpl; lia)) as Hs.
  rewrite Hrun in Hs. simpl in Hs. pose proof (same_txn_eq _ _ Hs) as Ec.
  rewrite (idle_eq c Hid) in Ec |- *. cbn in Ec.
  set (c2 := Conn (disk c) (disk c) false [(name, disk c)] 0 true true (pool c) (pool_pos c) (commits c)).
  destruct (housekeeping_ok c2) as (d & Hr & Hu); [done|done|done|done|].
  exists d. split; [done|].
  unfold atomic, pbind, sql_savepoint. rewrite (idle_eq c Hid) in Hrun.
  unfold pushed in Hrun. cbn in Hrun |- *. rewrite Hrun.
  rewrite Ec, Hch. unfold sql_rollback_to. simpl. rewrite bool_decide_true by done.
  unfold atomic_finally. cbn [set_level level pred Nat.eqb andb changed set_stack set_cur].
  match goal with |- context [update_changed_clusters ?X] => change X with c2 end.
  rewrite Hu. unfold sql_release. cbn. rewrite bool_decide_true by done. done.
Qed.

(** Housekeeping failure: the exception reaches the caller, nothing is committed,
    but the savepoint stays open. *)
Lemma atomic_outer_pool {A} name w (body : M A) c c' a k :
  idle c -> contained body -> body (pushed name c) = (c', Ok a) ->
  changed c' || w = true -> pool c (pool_pos c) = Some k ->
  exists d, atomic name w body c =
    (Conn (disk c) d false [(name, disk c)] 0 true true (pool c) (S (pool_pos c)) (commits c), Err PoolError).
Proof.
  intros Hid Hb Hrun Hch Hp.
  pose proof (Hb (pushed name c) (in_txn_pushed name c) ltac:(simpl; lia)) as Hs.
  rewrite Hrun in Hs. simpl in Hs. pose proof (same_txn_eq _ _ Hs) as Ec.
  rewrite (idle_eq c Hid) in Ec |- *. cbn in Ec.
  unfold atomic, pbind, sql_savepoint. rewrite (idle_eq c Hid) in Hrun.
  unfold pushed in Hrun. cbn in Hrun |- *. rewrite Hrun.
  match goal with |- exists d, atomic_finally _ _ ?X = _ => assert (X =
    Conn (disk c) (cur c') false [(name, disk c)] 1 true true (pool c) (pool_pos c) (commits c)) as -> end.
  { rewrite Ec. destruct w; [done|]. rewrite orb_false_r in Hch. by rewrite Hch. }
  unfold atomic_finally. cbn [set_level level pred Nat.eqb andb changed].
  unfold update_changed_clusters. cbn [pool pool_pos set_level]. rewrite Hp. eexists.
  unfold autocommit. cbn. reflexivity.
Qed.

(** ** A transaction left open: nothing is ever committed again *)
Definition stuck (c : conn) : Prop := level c = 0 /\ in_txn c = true.

Lemma housekeeping_stuck c : in_txn c = true ->
  exists d, (update_changed_clusters c).1 = set_cur d (set_pool_pos (S (pool_pos c)) c).
Proof.
  intros Ht. unfold update_changed_clusters, autocommit.
  assert (forall x, in_txn (set_cur x (set_pool_pos (S (pool_pos c)) c)) = true) as Hx by done.
  destruct (pool c (pool_pos c)) as [k|]; rewrite Hx.
  - eexists. reflexivity.
  - rewrite on_db_run by done. eexists. reflexivity.
Qed.

Lemma atomic_stuck {A} name w (body : M A) c :
  contained body -> stuck c ->
  let c' := (atomic name w body c).1 in
  stuck c' /\ disk c' = disk c /\ commits c' = commits c.
Proof.
  intros Hb [Hl Ht].
  pose proof (Hb (pushed name c) (in_txn_pushed name c) ltac:(simpl; lia)) as Hs.
  assert (forall (r : res A) cr ch,
    let c1 := Conn (disk c) cr (begun c) ((name, cur c) :: stack c) 1 ch (fk c) (pool c) (pool_pos c) (commits c) in
    let c' := (atomic_finally name r c1).1 in
    stuck c' /\ disk c' = disk c /\ commits c' = commits c) as Hfin.
  { intros r cr ch c1. unfold atomic_finally. cbn [level set_level pred c1 Nat.eqb andb changed].
    assert (forall cr' ch' pp,
      let c2 := Conn (disk c) cr' (begun c) ((name, cur c) :: stack c) 0 ch' (fk c) (pool c) pp (commits c) in
      sql_release name c2 = (set_stack (stack c) c2, Ok tt)) as Hrel.
    { intros. unfold sql_release. cbn. rewrite bool_decide_true by done. unfold autocommit.
      unfold in_txn in Ht |- *. cbn. by rewrite Ht. }
    unfold c1. destruct ch.
    - match goal with |- context [update_changed_clusters ?X] => set (cc := X) end.
      destruct (housekeeping_stuck cc) as (d & Hd). { unfold cc, in_txn. cbn. by rewrite orb_true_r. }
      destruct (update_changed_clusters cc) as [c3 [u|e]]; cbn in Hd; subst c3.
      + unfold cc. cbn -[sql_release]. unfold set_changed, set_cur, set_pool_pos, set_level. cbn -[sql_release]. rewrite Hrel. cbn. split; [|done]. split; [done|]. exact Ht.
      + split; [|done]. split; [done|]. unfold in_txn. cbn. by rewrite orb_true_r.
    - cbn -[sql_release]. unfold set_changed, set_cur, set_pool_pos, set_level. cbn -[sql_release]. rewrite Hrel. cbn. split; [|done]. split; [done|]. exact Ht. }
  intros c'. subst c'. unfold atomic, pbind, sql_savepoint.
  change (set_stack ((name, cur (set_level (S (level c)) c)) :: stack (set_level (S (level c)) c))
            (set_level (S (level c)) c)) with (pushed name c).
  destruct (body (pushed name c)) as [c' [a|e]]; simpl in Hs; rewrite (same_txn_eq _ _ Hs);
    cbn; rewrite Hl.
  - destruct w; apply Hfin.
  - unfold sql_rollback_to. cbn. rewrite bool_decide_true by done. cbn. apply Hfin.
Qed.
