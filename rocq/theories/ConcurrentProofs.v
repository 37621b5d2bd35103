(** ConcurrentProofs.v: any interleaving is equivalent to some order. *)
From Verif Require Export SpecConcurrent.

Section proofs.
Context {A : Type}.
Implicit Types (w : world A) (e : entry A) (order : list (entry A)).

Lemma one_app d l1 l2 d2 : one_at_a_time d (l1 ++ l2) d2 <->
  exists d1, one_at_a_time d l1 d1 /\ @one_at_a_time A d1 l2 d2.
Proof.
  revert d. induction l1 as [|e l1 IH]; intros d; cbn.
  - split; [intros H; exists d; split; [constructor|done]|]. intros (d1 & H1 & H2). by inversion H1; subst.
  - split.
    + intros H. inversion H as [|? ? d1 ? ? He Hr]; subst. apply IH in Hr as (d3 & H1 & H2). exists d3. split; [by econstructor|done].
    + intros (d3 & H1 & H2). inversion H1 as [|? ? d1 ? ? He Hr]; subst. econstructor; [exact He|]. apply IH. by exists d3.
Qed.
Lemma one_snoc d l e d1 d2 : one_at_a_time d l d1 -> t_alone (e_txn e) d1 = (d2, e_result e) -> @one_at_a_time A d (l ++ [e]) d2.
Proof. intros H1 H2. apply one_app. exists d1. split; [done|]. econstructor; [done|constructor]. Qed.

(** What is known of an open session, given the order so far. *)
Record session_ok (d0 : db) (order : list (entry A)) (w : world A) (s : session A) : Prop := {
  so_split : exists pre post, order = pre ++ post /\ one_at_a_time d0 pre (s_sees s) /\
    one_at_a_time (s_sees s) post (w_disk w) /\ Forall (fun e => s_start s <= e_finish e) post;
  so_version : s_version s <= w_version w;
  so_current : s_version s = w_version w -> s_sees s = w_disk w /\ Forall (fun x => s_sees s = x) (s_seen s);
  so_locked : s_locked s = true -> s_version s = w_version w;
  so_workers : t_workers (s_txn s) = false -> s_seen s = [];
  so_start : s_start s < w_clock w }.

Record good (d0 : db) (order : list (entry A)) (w : world A) : Prop := {
  g_run : one_at_a_time d0 order (w_disk w);
  g_log : order ≡ₚ filter coherent (w_log w);
  g_sessions : forall i s, w_sessions w !! i = Some s -> session_ok d0 order w s;
  g_exclusive : forall i j si sj, w_sessions w !! i = Some si -> w_sessions w !! j = Some sj ->
    s_locked si = true -> s_locked sj = true -> i = j;
  g_times : Forall (fun e => e_start e <= e_finish e < w_clock w) order;
  g_order : in_time_order order;
  g_coherent : Forall (fun e => e_locked e = true \/ t_workers (e_txn e) = false -> coherent e = true) (w_log w) }.

Lemma good_start d : good d [] (start d).
Proof.
  split; cbn; try done; constructor.
Qed.

Lemma session_ok_clock d0 order w w' s : session_ok d0 order w s ->
  w_disk w' = w_disk w -> w_version w' = w_version w -> w_clock w <= w_clock w' -> session_ok d0 order w' s.
Proof. intros [H1 H2 H3 H4 H5 H6] E1 E2 E3. split; rewrite ?E1, ?E2; try done. lia. Qed.

Lemma run_seen (t : txn A) d seen : Forall (fun x => d = x) seen -> t_run t d seen = t_alone t d.
Proof. intros H. unfold t_run. by rewrite bool_decide_true. Qed.

Lemma filter_snoc (l : list (entry A)) e : filter coherent (l ++ [e]) = filter coherent l ++ (if coherent e then [e] else []).
Proof.
  rewrite filter_app. f_equal. destruct (coherent e) eqn:E.
  - rewrite filter_cons_True; [done|]. by rewrite E.
  - rewrite filter_cons_False; [done|]. rewrite E. by intros [].
Qed.

(** Inserting an entry in the order. *)
Lemma in_time_insert pre post e : in_time_order (pre ++ post) ->
  Forall (fun x => e_start e <= e_finish x) post -> Forall (fun x => e_start x <= e_finish e) pre ->
  e_start e <= e_finish e -> @in_time_order A (pre ++ e :: post).
Proof.
  intros Ho Hpost Hpre He i j e1 e2 H1 H2 Hlt.
  destruct (decide (i < length pre)) as [Hi|Hi], (decide (j < length pre)) as [Hj|Hj].
  - apply (Ho i j e1 e2); [rewrite lookup_app_l in H1 |- * by done; done|rewrite lookup_app_l in H2 |- * by done; done|done].
  - lia.
  - exfalso. rewrite lookup_app_l in H2 by done. rewrite lookup_app_r in H1 by lia.
    destruct (i - length pre) as [|k] eqn:Ek.
    + injection H1 as <-. rewrite Forall_lookup in Hpre. specialize (Hpre _ _ H2). cbn in *. lia.
    + assert (i - 1 < j); [|lia]. apply (Ho (i - 1) j e1 e2); [|by rewrite lookup_app_l by done|done].
      rewrite lookup_app_r by lia. cbn in H1. by replace (i - 1 - length pre) with k by lia.
  - rewrite lookup_app_r in H1, H2 by lia.
    destruct (i - length pre) as [|k] eqn:Ek, (j - length pre) as [|m] eqn:Em; cbn in H1, H2.
    + injection H1 as <-. injection H2 as <-. lia.
    + lia.
    + injection H2 as <-. rewrite Forall_lookup in Hpost. specialize (Hpost _ _ H1). cbn in Hpost. lia.
    + assert (i - 1 < j - 1); [|lia].
      apply (Ho (i - 1) (j - 1) e1 e2); [| |done]; rewrite lookup_app_r by lia.
      * by replace (i - 1 - length pre) with k by lia.
      * by replace (j - 1 - length pre) with m by lia.
Qed.

Lemma split_insert d0 pre post e d x dd sees st : one_at_a_time d0 pre d -> one_at_a_time d post dd ->
  t_alone (e_txn e) d = (d, e_result e) -> st <= e_finish e ->
  (exists pre' post', pre ++ post = pre' ++ post' /\ one_at_a_time d0 pre' sees /\
     one_at_a_time sees post' dd /\ Forall (fun y => st <= e_finish y) post') -> x = pre ++ e :: post ->
  exists pre' post', x = pre' ++ post' /\ one_at_a_time d0 pre' sees /\
     @one_at_a_time A sees post' dd /\ Forall (fun y => st <= e_finish y) post'.
Proof.
  intros H1 H2 He Hst (pre' & post' & E & H3 & H4 & Hf) ->.
  assert (one_at_a_time d (e :: post) dd) as H5 by (econstructor; done).
  apply app_eq_inv in E as [(k & E1 & E2)|(k & E1 & E2)]; subst.
  - (* the other session's split is at or before *)
    exists pre', (k ++ e :: post). split_and!; [by rewrite <- app_assoc|done| |].
    + apply one_app in H1 as (d1 & Ha & Hb).
      assert (exists d2, one_at_a_time sees k d2 /\ one_at_a_time d2 post dd) as (d2 & Hc & Hd) by by apply one_app.
      assert (forall l y z1 z2, one_at_a_time y l z1 -> @one_at_a_time A y l z2 -> z1 = z2) as Hdet.
      { intros l. induction l as [|? ? IH]; intros y z1 z2 Hy1 Hy2; inversion Hy1; inversion Hy2; subst; [done|].
        eapply IH; [|eassumption]. congruence. }
      assert (d1 = sees) as -> by by eapply Hdet. assert (d2 = d) as -> by by eapply Hdet.
      apply one_app. by exists d.
    + apply Forall_app in Hf as [Hf1 Hf2]. apply Forall_app. split; [done|]. by constructor.
  - exists (pre ++ e :: k), post'. split_and!; [by rewrite <- app_assoc| |done|done].
    apply one_app in H3 as (d1 & Ha & Hb).
    assert (forall l y z1 z2, one_at_a_time y l z1 -> @one_at_a_time A y l z2 -> z1 = z2) as Hdet.
    { intros l. induction l as [|? ? IH]; intros y z1 z2 Hy1 Hy2; inversion Hy1; inversion Hy2; subst; [done|].
      eapply IH; [|eassumption]. congruence. }
    assert (d1 = d) as -> by by eapply Hdet.
    apply one_app. exists d. split; [done|]. econstructor; done.
Qed.

Lemma good_step d0 order a w w' : good d0 order w -> step a w w' -> exists order', good d0 order' w'.
Proof.
  intros G Hs. destruct G as [Grun Glog Gses Gexc Gtimes Gord Gcoh].
  assert (Forall (fun e => e_start e <= e_finish e < S (w_clock w)) order) as Gtimes'
    by (eapply Forall_impl; [exact Gtimes|]; cbn; lia).
  inversion Hs as [i t w1 Hi|i w1 s Hi Hw|i w1 s Hi Hu Hv|i w1 s Hi Hl Hc|i w1|i w1 s r Hi Hl Hr|i w1 s r d v Hi Hl Hr Hv]; subst; clear Hs.
  - exists order. split; cbn [w_disk w_version w_sessions w_log w_clock]; try done.
    + intros j s. destruct (decide (i = j)) as [<-|Hne].
      * rewrite lookup_insert. intros [= <-]. split; cbn [w_disk w_version w_sessions w_log w_clock s_txn s_sees s_version s_seen s_locked s_start]; try done; [|lia].
        exists order, []. rewrite app_nil_r. split_and!; [done|done|constructor|constructor].
      * rewrite lookup_insert_ne by done. intros Hj. eapply session_ok_clock; [by eapply Gses| | |]; cbn; [done..|lia].
    + intros j k sj sk. destruct (decide (i = j)) as [<-|Hj], (decide (i = k)) as [<-|Hk];
        rewrite ?lookup_insert, ?lookup_insert_ne by done; try done; try (intros [= <-] ?; done).
      * intros ? [= <-]. done.
      * apply Gexc.
  - destruct (Gses _ _ Hi) as [H1 H2 H3 H4 H5 H6].
    exists order. split; cbn [w_disk w_version w_sessions w_log w_clock]; try done.
    + intros j s'. destruct (decide (i = j)) as [<-|Hne].
      * rewrite lookup_insert. intros [= <-]. split; cbn [w_disk w_version w_sessions w_log w_clock s_txn s_sees s_version s_seen s_locked s_start]; try done.
        -- intros E. destruct (H3 E) as [E1 E2]. split; [done|]. apply Forall_app. split; [done|]. by repeat constructor.
        -- intros E. by rewrite E in Hw.
        -- lia.
      * rewrite lookup_insert_ne by done. intros Hj. eapply session_ok_clock; [by eapply Gses| | |]; cbn; [done..|lia].
    + intros j k sj sk. destruct (decide (i = j)) as [<-|Hj], (decide (i = k)) as [<-|Hk];
        rewrite ?lookup_insert, ?lookup_insert_ne by done; try done.
      * intros [= <-] Hk1. cbn. intros L1 L2. by eapply Gexc.
      * intros Hj1 [= <-]. cbn. intros L1 L2. by eapply Gexc.
      * apply Gexc.
  - destruct (Gses _ _ Hi) as [H1 H2 H3 H4 H5 H6].
    exists order. split; cbn [w_disk w_version w_sessions w_log w_clock]; try done.
    + intros j s'. destruct (decide (i = j)) as [<-|Hne].
      * rewrite lookup_insert. intros [= <-]. split; cbn [w_disk w_version w_sessions w_log w_clock s_txn s_sees s_version s_seen s_locked s_start]; try done. lia.
      * rewrite lookup_insert_ne by done. intros Hj. eapply session_ok_clock; [by eapply Gses| | |]; cbn; [done..|lia].
    + intros j k sj sk. destruct (decide (i = j)) as [<-|Hj], (decide (i = k)) as [<-|Hk];
        rewrite ?lookup_insert, ?lookup_insert_ne by done; try done.
      * intros _ Hk1 _ L2. by rewrite (Hu _ _ Hk1) in L2.
      * intros Hj1 _ L1 _. by rewrite (Hu _ _ Hj1) in L1.
      * apply Gexc.
  - exists order. split; cbn [w_disk w_version w_sessions w_log w_clock]; try done.
    + intros j s' Hj. apply lookup_delete_Some in Hj as [_ Hj]. eapply session_ok_clock; [by eapply Gses| | |]; cbn; [done..|lia].
    + intros j k sj sk Hj Hk. apply lookup_delete_Some in Hj as [_ Hj]. apply lookup_delete_Some in Hk as [_ Hk]. by apply (Gexc j k).
  - exists order. split; cbn [w_disk w_version w_sessions w_log w_clock]; try done.
    + intros j s' Hj. apply lookup_delete_Some in Hj as [_ Hj]. eapply session_ok_clock; [by eapply Gses| | |]; cbn; [done..|lia].
    + intros j k sj sk Hj Hk. apply lookup_delete_Some in Hj as [_ Hj]. apply lookup_delete_Some in Hk as [_ Hk]. by apply (Gexc j k).
  - (* a reading transaction ends *)
    destruct (Gses _ _ Hi) as [(pre & post & -> & S1 & S2 & S3) H2 H3 H4 H5 H6].
    set (e := Entry i (s_txn s) r (s_start s) (w_clock w) false (s_sees s) (s_seen s)).
    destruct (decide (Forall (fun x => s_sees s = x) (s_seen s))) as [Ew|Ew]; cycle 1.
    + exists (pre ++ post). split; cbn [w_disk w_version w_sessions w_log w_clock]; try done.
      * rewrite filter_snoc. fold e. assert (coherent e = false) as -> by (unfold coherent; by apply bool_decide_eq_false). by rewrite app_nil_r.
      * intros j s' Hj. apply lookup_delete_Some in Hj as [_ Hj]. eapply session_ok_clock; [by eapply Gses| | |]; cbn; [done..|lia].
      * intros j k sj sk Hj Hk. apply lookup_delete_Some in Hj as [_ Hj]. apply lookup_delete_Some in Hk as [_ Hk]. by apply (Gexc j k).
      * apply Forall_app. split; [done|]. constructor; [|constructor]. intros [?|E]; [done|]. exfalso. apply Ew.
        cbn in E. rewrite (H5 E). constructor.
    + rewrite run_seen in Hr by done.
      assert (t_alone (e_txn e) (s_sees s) = (s_sees s, e_result e)) as He by done.
      exists (pre ++ e :: post). split; cbn [w_disk w_version w_sessions w_log w_clock].
      * apply one_app. exists (s_sees s). split; [done|]. by econstructor.
      * rewrite filter_snoc, <- Glog. fold e. assert (coherent e = true) as -> by (unfold coherent; by apply bool_decide_eq_true).
        rewrite <- Permutation_middle. by rewrite (Permutation_app_comm _ [e]).
      * intros j s' Hj. apply lookup_delete_Some in Hj as [_ Hj]. destruct (Gses _ _ Hj) as [K1 K2 K3 K4 K5 K6].
        split; cbn [w_disk w_version w_sessions w_log w_clock]; try done; [|lia].
        eapply (split_insert d0 pre post e (s_sees s)); try done. cbn. lia.
      * intros j k sj sk Hj Hk. apply lookup_delete_Some in Hj as [_ Hj]. apply lookup_delete_Some in Hk as [_ Hk]. by apply (Gexc j k).
      * apply Forall_app in Gtimes' as [T1 T2]. apply Forall_app. split; [done|]. constructor; [cbn; lia|done].
      * apply in_time_insert; [done|exact S3| |cbn; lia].
        apply Forall_app in Gtimes as [T1 _]. eapply Forall_impl; [exact T1|]. cbn. lia.
      * apply Forall_app. split; [done|]. constructor; [|constructor]. intros _. unfold coherent. by apply bool_decide_eq_true.
  - (* a writing transaction commits *)
    destruct (Gses _ _ Hi) as [Hsp H2 H3 H4 H5 H6]. destruct (H3 (H4 Hl)) as [E1 E2].
    rewrite run_seen in Hr by done. rewrite E1 in Hr.
    set (e := Entry i (s_txn s) r (s_start s) (w_clock w) true (s_sees s) (s_seen s)).
    exists (order ++ [e]). split; cbn [w_disk w_version w_sessions w_log w_clock].
    + by eapply one_snoc.
    + rewrite filter_snoc, <- Glog. fold e. assert (coherent e = true) as -> by (unfold coherent; by apply bool_decide_eq_true). done.
    + intros j s' Hj. apply lookup_delete_Some in Hj as [Hne Hj]. destruct (Gses _ _ Hj) as [K1 K2 K3 K4 K5 K6].
      split; cbn [w_disk w_version w_sessions w_log w_clock]; try done.
      * destruct K1 as (pre & post & -> & P1 & P2 & P3). exists pre, (post ++ [e]). split_and!; [by rewrite app_assoc|done| |].
        -- by eapply one_snoc.
        -- apply Forall_app. split; [done|]. constructor; [cbn; lia|constructor].
      * lia.
      * destruct Hv as [->|[-> ->]]; [lia|done].
      * intros L. exfalso. apply Hne. by eapply Gexc.
      * lia.
    + intros j k sj sk Hj Hk. apply lookup_delete_Some in Hj as [_ Hj]. apply lookup_delete_Some in Hk as [_ Hk]. by apply (Gexc j k).
    + apply Forall_app. split; [done|]. constructor; [cbn; lia|constructor].
    + apply in_time_insert; [by rewrite app_nil_r|constructor| |cbn; lia].
      eapply Forall_impl; [exact Gtimes|]. cbn. lia.
    + apply Forall_app. split; [done|]. constructor; [|constructor]. intros _. unfold coherent. by apply bool_decide_eq_true.
Qed.

Lemma good_execution d0 tr : forall order w w', good d0 order w -> execution tr w w' -> exists order', good d0 order' w'.
Proof.
  induction tr as [|a tr IH]; intros order w w' G H; inversion H as [|? ? ? w2 ? Ha Hr]; subst; [by exists order|].
  destruct (good_step _ _ _ _ _ G Ha) as (order2 & G2). by eapply IH.
Qed.
Lemma serialisable d tr w : execution tr (start d) w -> exists order, good d order w.
Proof. intros H. eapply good_execution; [apply good_start|done]. Qed.

(** Every transaction that ended was started. *)
Lemma log_only (P : nat -> txn A -> Prop) tr : forall w w', execution tr w w' -> (forall i t, Begin i t ∈ tr -> P i t) ->
  Forall (fun e => P (e_client e) (e_txn e)) (w_log w) -> (forall i s, w_sessions w !! i = Some s -> P i (s_txn s)) ->
  Forall (fun e : entry A => P (e_client e) (e_txn e)) (w_log w').
Proof.
  induction tr as [|a tr IH]; intros w w' H Ho Hl Hs; inversion H as [|? ? ? w2 ? Ha Hr]; subst; [done|].
  apply (IH w2 w' Hr); [intros i t Hin; apply (Ho i t); by right| |]; clear Hr IH H;
    inversion Ha as [i t w1 Hi|i w1 s Hi Hw|i w1 s Hi Hu Hv|i w1 s Hi Hl0 Hc|i w1|i w1 s r Hi Hl0 Hr|i w1 s r d v Hi Hl0 Hr Hv]; subst; cbn; try done.
  - apply Forall_app. split; [done|]. constructor; [by eapply Hs|constructor].
  - apply Forall_app. split; [done|]. constructor; [by eapply Hs|constructor].
  - intros j s. destruct (decide (i = j)) as [<-|Hne]; [rewrite lookup_insert|rewrite lookup_insert_ne by done; apply Hs].
    intros [= <-]. apply (Ho i t). by left.
  - intros j s'. destruct (decide (i = j)) as [<-|Hne]; [rewrite lookup_insert|rewrite lookup_insert_ne by done; apply Hs].
    intros [= <-]. cbn. eapply Hs; exact Hi.
  - intros j s'. destruct (decide (i = j)) as [<-|Hne]; [rewrite lookup_insert|rewrite lookup_insert_ne by done; apply Hs].
    intros [= <-]. cbn. eapply Hs; exact Hi.
  - intros j s' Hj. apply lookup_delete_Some in Hj as [_ Hj]. by apply (Hs j).
  - intros j s' Hj. apply lookup_delete_Some in Hj as [_ Hj]. by apply (Hs j).
  - intros j s' Hj. apply lookup_delete_Some in Hj as [_ Hj]. by apply (Hs j).
  - intros j s' Hj. apply lookup_delete_Some in Hj as [_ Hj]. by apply (Hs j).
Qed.
Lemma log_started_by tr d w : execution tr (start d) w -> Forall (fun e : entry A => Begin (e_client e) (e_txn e) ∈ tr) (w_log w).
Proof. intros H. eapply (log_only (fun i t => Begin i t ∈ tr)); [done|done|constructor|]. intros i s Hs. cbn in Hs. by rewrite lookup_empty in Hs. Qed.
Lemma log_started P tr d w : execution tr (start d) w -> only P tr -> Forall (fun e : entry A => P (e_txn e)) (w_log w).
Proof. intros H Ho. eapply Forall_impl; [by eapply log_started_by|]. intros e. apply Ho. Qed.
End proofs.

(** ** Carrying out a given list of actions, for the examples *)
Section play.
Context {A : Type}.
Definition lock_free (w : world A) : bool :=
  forallb (fun kv : nat * session A => negb (s_locked kv.2)) (map_to_list (w_sessions w)).
Definition put (w : world A) (i : nat) (s : session A) : world A :=
  World (w_disk w) (w_version w) (<[i := s]> (w_sessions w)) (w_log w) (S (w_clock w)).
Definition play_one (a : action A) (w : world A) : option (world A) :=
  match a with
  | Begin i t => match w_sessions w !! i with
                 | None => Some (put w i (Session t (w_disk w) (w_version w) [] false (w_clock w)))
                 | Some _ => None
                 end
  | WorkerRead i => match w_sessions w !! i with
                    | Some s => if t_workers (s_txn s) then
                        Some (put w i (Session (s_txn s) (s_sees s) (s_version s) (s_seen s ++ [w_disk w]) (s_locked s) (s_start s)))
                        else None
                    | None => None
                    end
  | TakeLock i => match w_sessions w !! i with
                  | Some s => if lock_free w && (s_version s =? w_version w) then
                      Some (put w i (Session (s_txn s) (s_sees s) (s_version s) (s_seen s) true (s_start s)))
                      else None
                  | None => None
                  end
  | Refused i => match w_sessions w !! i with
                 | Some s => if negb (s_locked s) && (negb (lock_free w) || negb (s_version s =? w_version w)) then
                     Some (World (w_disk w) (w_version w) (delete i (w_sessions w)) (w_log w) (S (w_clock w)))
                     else None
                 | None => None
                 end
  | GiveUp i => Some (World (w_disk w) (w_version w) (delete i (w_sessions w)) (w_log w) (S (w_clock w)))
  | End i => match w_sessions w !! i with
             | Some s =>
                 let '(d, r) := t_run (s_txn s) (s_sees s) (s_seen s) in
                 let e := Entry i (s_txn s) r (s_start s) (w_clock w) (s_locked s) (s_sees s) (s_seen s) in
                 if s_locked s then Some (World d (S (w_version w)) (delete i (w_sessions w)) (w_log w ++ [e]) (S (w_clock w)))
                 else if bool_decide (d = s_sees s) then
                   Some (World (w_disk w) (w_version w) (delete i (w_sessions w)) (w_log w ++ [e]) (S (w_clock w)))
                 else None
             | None => None
             end
  end.
Fixpoint play (tr : list (action A)) (w : world A) : option (world A) :=
  match tr with
  | [] => Some w
  | a :: tr' => match play_one a w with Some w1 => play tr' w1 | None => None end
  end.

Lemma lock_free_iff w : lock_free w = true <-> unlocked w.
Proof.
  unfold lock_free. rewrite forallb_forall. split.
  - intros H j s Hj. apply elem_of_map_to_list, elem_of_list_In in Hj. apply H in Hj. cbn in Hj. by apply negb_true_iff in Hj.
  - intros H [j s] Hin. apply elem_of_list_In, elem_of_map_to_list in Hin. cbn. by rewrite (H _ _ Hin).
Qed.
Lemma lock_held w : lock_free w = false -> exists j s, w_sessions w !! j = Some s /\ s_locked s = true.
Proof.
  unfold lock_free. intros H.
  assert (exists kv, kv ∈ map_to_list (w_sessions w) /\ s_locked kv.2 = true) as ([j s] & Hin & Hl).
  { induction (map_to_list (w_sessions w)) as [|kv l IH]; [done|]. cbn in H. destruct (s_locked kv.2) eqn:E.
    - exists kv. split; [by left|done].
    - destruct (IH H) as (x & Hx & Hl). exists x. split; [by right|done]. }
  exists j, s. split; [by apply elem_of_map_to_list|done].
Qed.
Lemma play_one_step a w w' : play_one a w = Some w' -> step a w w'.
Proof.
  destruct a as [i t|i|i|i|i|i]; cbn; intros H.
  - destruct (w_sessions w !! i) eqn:E; [done|]. injection H as <-. by apply step_begin.
  - destruct (w_sessions w !! i) as [s|] eqn:E; [|done]. destruct (t_workers _) eqn:Ew; [|done]. injection H as <-. by apply step_worker.
  - destruct (w_sessions w !! i) as [s|] eqn:E; [|done]. destruct (lock_free w) eqn:Ef; [|done].
    destruct (Nat.eqb_spec (s_version s) (w_version w)); [|done]. injection H as <-. apply step_lock; [done|by apply lock_free_iff|done].
  - destruct (w_sessions w !! i) as [s|] eqn:E; [|done]. destruct (s_locked s) eqn:El; [done|]. cbn in H.
    destruct (negb (lock_free w) || _) eqn:Ec; [|done]. injection H as <-. apply (step_refused i w s); [done|done|].
    apply orb_true_iff in Ec as [Ec|Ec]; apply negb_true_iff in Ec.
    + left. intros Hu. apply lock_free_iff in Hu. congruence.
    + right. by apply Nat.eqb_neq in Ec.
  - injection H as <-. apply step_give_up.
  - destruct (w_sessions w !! i) as [s|] eqn:E; [|done]. destruct (t_run _ _ _) as [d r] eqn:Er. destruct (s_locked s) eqn:El.
    + injection H as <-. eapply step_end_write; [done|done|done|by left].
    + destruct (bool_decide_reflect (d = s_sees s)) as [->|]; [|done]. injection H as <-. by eapply step_end_read.
Qed.
Lemma play_execution tr : forall w w', play tr w = Some w' -> execution tr w w'.
Proof.
  induction tr as [|a tr IH]; intros w w' H; cbn in H; [injection H as <-; constructor|].
  destruct (play_one a w) as [w1|] eqn:E; [|done]. econstructor; [by apply play_one_step|by apply IH].
Qed.
End play.
