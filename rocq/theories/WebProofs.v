(** WebProofs.v: proofs about Web.v. *)
From Verif Require Import SpecWeb HistoryProofs QueryProofs.

(** ** Navigation *)
Lemma position_of_lookup (l : list Z) i c : NoDup l -> l !! i = Some c -> position_of c l = Some i.
Proof.
  intros Hnd Hi. unfold position_of.
  destruct (list_find (fun x => x = c) l) as [[j x]|] eqn:E.
  - apply list_find_Some in E as (Hj & -> & _). cbn. f_equal. by eapply NoDup_lookup.
  - apply list_find_None in E. rewrite Forall_forall in E. exfalso. eapply E; [|reflexivity].
    by eapply elem_of_list_lookup_2.
Qed.
Lemma position_of_None (l : list Z) c : position_of c l = None <-> c ∉ l.
Proof.
  unfold position_of. destruct (list_find (fun x => x = c) l) as [[j x]|] eqn:E.
  - apply list_find_Some in E as (Hj & -> & _). split; [done|]. intros H. exfalso. apply H. by eapply elem_of_list_lookup_2.
  - apply list_find_None in E. rewrite Forall_forall in E. split; [|done]. intros _ H. by eapply E.
Qed.

Lemma neighbours_at (l : list Z) i c : NoDup l -> l !! i = Some c ->
  exists p n, l !! ((i + length l - 1) mod length l) = Some p /\ l !! ((i + 1) mod length l) = Some n /\
    neighbours l c = Some (p, n).
Proof.
  intros Hnd Hi. pose proof (lookup_lt_Some _ _ _ Hi) as Hlt.
  assert (is_Some (l !! ((i + length l - 1) mod length l))) as [p Hp] by (apply lookup_lt_is_Some_2, Nat.mod_upper_bound; lia).
  assert (is_Some (l !! ((i + 1) mod length l))) as [n Hn] by (apply lookup_lt_is_Some_2, Nat.mod_upper_bound; lia).
  exists p, n. split_and!; [done|done|]. unfold neighbours. rewrite (position_of_lookup l i c) by done. do 2 f_equal.
  - destruct (Nat.eqb_spec i 0) as [->|Hne].
    + rewrite last_lookup. rewrite Nat.mod_small in Hp by lia.
      replace (pred (length l)) with (0 + length l - 1) by lia. by rewrite Hp.
    + replace (i + length l - 1) with (i - 1 + 1 * length l) in Hp by lia. rewrite Nat.mod_add in Hp by lia.
      rewrite Nat.mod_small in Hp by lia. by rewrite Hp.
  - destruct (Nat.ltb_spec i (length l - 1)).
    + rewrite Nat.mod_small in Hn by lia. by rewrite Hn.
    + replace (i + 1) with (length l) in Hn by lia. rewrite Nat.mod_same in Hn by lia. by rewrite Hn.
Qed.

Lemma neighbours_inverse (l : list Z) c p n : NoDup l -> neighbours l c = Some (p, n) ->
  (exists n', neighbours l p = Some (n', c)) /\ (exists p', neighbours l n = Some (c, p')).
Proof.
  intros Hnd H. assert (c ∈ l) as [i Hi]%elem_of_list_lookup.
  { destruct (decide (c ∈ l)) as [|Hn]; [done|]. apply position_of_None in Hn. unfold neighbours in H. by rewrite Hn in H. }
  destruct (neighbours_at l i c Hnd Hi) as (p0 & n0 & Hp & Hn & E). rewrite H in E. injection E as <- <-.
  pose proof (lookup_lt_Some _ _ _ Hi) as Hlt. split.
  - destruct (neighbours_at l _ p Hnd Hp) as (a & b & _ & Hb & ->). exists a. do 2 f_equal.
    rewrite <- Nat.add_mod_idemp_l in Hb by lia. rewrite Nat.mod_mod in Hb by lia. rewrite Nat.add_mod_idemp_l in Hb by lia.
    replace (i + length l - 1 + 1) with (i + 1 * length l) in Hb by lia. rewrite Nat.mod_add, Nat.mod_small in Hb by lia. congruence.
  - destruct (neighbours_at l _ n Hnd Hn) as (a & b & Ha & _ & ->). exists b. do 2 f_equal.
    replace ((i + 1) mod length l + length l - 1) with ((i + 1) mod length l + (length l - 1)) in Ha by lia.
    rewrite Nat.add_mod_idemp_l in Ha by lia. replace (i + 1 + (length l - 1)) with (i + 1 * length l) in Ha by lia.
    rewrite Nat.mod_add, Nat.mod_small in Ha by lia. congruence.
Qed.

Lemma follow_at (l : list Z) k i c : NoDup l -> l !! i = Some c ->
  follow (fun x => snd <$> neighbours l x) k c = l !! ((i + k) mod length l).
Proof.
  intros Hnd. revert i c. induction k as [|k IH]; intros i c Hi; pose proof (lookup_lt_Some _ _ _ Hi) as Hlt; cbn [follow].
  - rewrite Nat.add_0_r, Nat.mod_small by lia. done.
  - destruct (neighbours_at l i c Hnd Hi) as (p & n & _ & Hn & ->). cbn.
    rewrite (IH _ _ Hn). f_equal. rewrite Nat.add_mod_idemp_l by lia. f_equal. lia.
Qed.

Lemma mod_injective n i j k : j < n -> k < n -> (i + j) mod n = (i + k) mod n -> j = k.
Proof.
  intros Hj Hk H. pose proof (Nat.div_mod (i + j) n ltac:(lia)). pose proof (Nat.div_mod (i + k) n ltac:(lia)).
  pose proof (Nat.mod_upper_bound (i + j) n ltac:(lia)).
  assert ((i + j) / n = (i + k) / n \/ (i + j) / n < (i + k) / n \/ (i + k) / n < (i + j) / n) as [?|[?|?]] by lia; nia.
Qed.

Lemma follow_visits (l : list Z) c : NoDup l -> c ∈ l ->
  follow (fun x => snd <$> neighbours l x) (length l) c = Some c /\
  omap (fun k => follow (fun x => snd <$> neighbours l x) k c) (seq 0 (length l)) ≡ₚ l.
Proof.
  intros Hnd [i Hi]%elem_of_list_lookup. pose proof (lookup_lt_Some _ _ _ Hi) as Hlt. split.
  - rewrite (follow_at l _ i c Hnd Hi). replace (i + length l) with (i + 1 * length l) by lia.
    rewrite Nat.mod_add, Nat.mod_small by lia. done.
  - set (f := fun k => default 0%Z (l !! ((i + k) mod length l))).
    assert (forall ks, omap (fun k => follow (fun x => snd <$> neighbours l x) k c) ks = f <$> ks) as ->.
    { induction ks as [|k ks IH]; [done|]. cbn. rewrite (follow_at l k i c Hnd Hi).
      assert (is_Some (l !! ((i + k) mod length l))) as [y Hy] by (apply lookup_lt_is_Some_2, Nat.mod_upper_bound; lia).
      unfold f at 1. rewrite Hy. cbn. by f_equal. }
    apply NoDup_Permutation_bis.
    + apply NoDup_ListNoDup, (NoDup_alt (f <$> seq 0 (length l))). intros a b x Ha Hb.
      rewrite list_lookup_fmap in Ha, Hb.
      destruct (seq 0 (length l) !! a) as [a'|] eqn:Ea; [|done]. destruct (seq 0 (length l) !! b) as [b'|] eqn:Eb; [|done].
      apply lookup_seq in Ea as [-> Ha2], Eb as [-> Hb2]. cbn in Ha, Hb. unfold f in Ha, Hb.
      assert (is_Some (l !! ((i + a) mod length l))) as [y Hy] by (apply lookup_lt_is_Some_2, Nat.mod_upper_bound; lia).
      assert (is_Some (l !! ((i + b) mod length l))) as [z Hz] by (apply lookup_lt_is_Some_2, Nat.mod_upper_bound; lia).
      rewrite Hy in Ha. rewrite Hz in Hb. cbn in Ha, Hb. assert (y = z) as -> by congruence.
      pose proof (NoDup_lookup _ _ _ _ Hnd Hy Hz) as Hm. by apply (mod_injective (length l) i).
    + rewrite fmap_length, seq_length. done.
    + intros x [a [-> Ha]]%elem_of_list_In%elem_of_list_fmap. unfold f.
      assert (is_Some (l !! ((i + a) mod length l))) as [y Hy] by (apply lookup_lt_is_Some_2, Nat.mod_upper_bound; lia).
      rewrite Hy. apply elem_of_list_In. by eapply elem_of_list_lookup_2.
Qed.

(** ** Parameters *)
Lemma ensure_one_ok key conv ps ps' : ensure_one ps (key, conv) = Ok ps' ->
  exists l, ps' = <[key := Several l]> ps /\ Forall2 (fun x y => conv x = Ok y) (given ps key) l.
Proof.
  unfold ensure_one, given. destruct (ps !! key) as [[x|l]|].
  - destruct (conv x) as [y|] eqn:E; [|done]. intros [= <-]. exists [y]. split; [done|]. by repeat constructor.
  - destruct (rtraverse conv l) as [l'|] eqn:E; [|done]. intros [= <-]. exists l'. split; [done|].
    by apply rtraverse_ok_iff.
  - intros [= <-]. exists []. split; [done|constructor].
Qed.
Lemma ensure_one_err key conv ps e : ensure_one ps (key, conv) = Err e ->
  exists x, x ∈ given ps key /\ conv x = Err e.
Proof.
  unfold ensure_one, given. destruct (ps !! key) as [[x|l]|]; [| |done].
  - destruct (conv x) as [y|] eqn:E; [done|]. intros [= <-]. exists x. split; [by left|done].
  - destruct (rtraverse conv l) as [l'|] eqn:E; [done|]. intros [= <-].
    induction l as [|x l IH]; [done|]. cbn in E. destruct (conv x) as [y|e'] eqn:Ex; cbn in E.
    + destruct (rtraverse conv l); [done|]. cbn in E. destruct (IH E) as (z & Hz & Hc). exists z. split; [by right|done].
    + injection E as ->. exists x. split; [by left|done].
Qed.

Lemma ensure_list_ok kw ps ps' : NoDup kw.*1 -> ensure_list kw ps = Ok ps' ->
  (forall key, key ∉ kw.*1 -> ps' !! key = ps !! key) /\
  (forall key conv, (key, conv) ∈ kw -> exists l, ps' !! key = Some (Several l) /\
     Forall2 (fun x y => conv x = Ok y) (given ps key) l).
Proof.
  revert ps. induction kw as [|[key conv] kw IH]; intros ps Hnd H.
  - injection H as <-. split; [done|]. intros key conv []%elem_of_nil.
  - cbn in Hnd. apply NoDup_cons in Hnd as [Hni Hnd]. unfold ensure_list in H. cbn [rfold] in H.
    destruct (ensure_one ps (key, conv)) as [ps1|] eqn:E1; [|done]. cbn [rbind] in H.
    destruct (ensure_one_ok _ _ _ _ E1) as (l & -> & Hl). destruct (IH _ Hnd H) as [H1 H2]. split.
    + intros k Hk. cbn in Hk. apply not_elem_of_cons in Hk as [Hk1 Hk2]. rewrite (H1 k Hk2). apply lookup_insert_ne. congruence.
    + intros k cv [[= -> ->]|Hin]%elem_of_cons.
      * exists l. split; [|done]. rewrite (H1 key Hni). apply lookup_insert.
      * destruct (H2 _ _ Hin) as (l' & Hl' & HF). exists l'. split; [done|].
        assert (given (<[key:=Several l]> ps) k = given ps k) as <-; [|done].
        unfold given. replace ((<[key:=Several l]> ps : params) !! k) with (ps !! k); [done|]. symmetry. apply lookup_insert_ne.
        intros ->. apply Hni. apply elem_of_list_fmap. exists (k, cv). done.
Qed.
Lemma ensure_list_err kw ps e : NoDup kw.*1 -> ensure_list kw ps = Err e ->
  exists key conv x, (key, conv) ∈ kw /\ x ∈ given ps key /\ conv x = Err e.
Proof.
  revert ps. induction kw as [|[key conv] kw IH]; intros ps Hnd H; [done|].
  cbn in Hnd. apply NoDup_cons in Hnd as [Hni Hnd]. unfold ensure_list in H. cbn [rfold] in H.
  destruct (ensure_one ps (key, conv)) as [ps1|e1] eqn:E1; cbn [rbind] in H.
  - destruct (ensure_one_ok _ _ _ _ E1) as (l & -> & Hl). destruct (IH _ Hnd H) as (k & cv & x & Hin & Hx & Hc).
    exists k, cv, x. split; [by right|]. split; [|done].
    assert (given (<[key:=Several l]> ps) k = given ps k) as <-; [|done].
    unfold given. replace ((<[key:=Several l]> ps : params) !! k) with (ps !! k); [done|]. symmetry. apply lookup_insert_ne.
        intros ->. apply Hni. apply elem_of_list_fmap. exists (k, cv). done.
  - injection H as ->. destruct (ensure_one_err _ _ _ _ E1) as (x & Hx & Hc). exists key, conv, x. split; [by left|done].
Qed.

Lemma ensure_ints parse key ps ps' : ensure_list [(key, int_item parse)] ps = Ok ps' ->
  numbers parse ps key = Some (ints ps' key) /\ forall k, k ≠ key -> ps' !! k = ps !! k.
Proof.
  intros H. apply ensure_list_ok in H as [H1 H2]; [|cbn; apply NoDup_singleton]. split.
  - destruct (H2 key (int_item parse)) as (l & Hl & HF); [by left|]. unfold numbers, ints. rewrite Hl. apply mapM_Some.
    clear Hl H1 H2. induction HF as [|x y xs ys Hxy HF IH]; [constructor|]. destruct x as [s|z]; cbn in Hxy.
    + destruct (parse s) as [z|] eqn:Es; [|done]. injection Hxy as <-. cbn. by constructor.
    + injection Hxy as <-. cbn. by constructor.
  - intros k Hk. apply H1. cbn. by intros ->%elem_of_list_singleton.
Qed.
Lemma ensure_ints_err parse key ps e : ensure_list [(key, int_item parse)] ps = Err e ->
  e = ValueError /\ numbers parse ps key = None.
Proof.
  intros H. apply ensure_list_err in H as (k & conv & x & Hin & Hx & Hc); [|cbn; apply NoDup_singleton].
  apply elem_of_list_singleton in Hin as [= -> ->]. destruct x as [s|z]; [|done]. cbn in Hc.
  destruct (parse s) eqn:Es; [done|]. injection Hc as <-. split; [done|].
  destruct (numbers parse ps key) as [l|] eqn:E; [|done]. apply mapM_Some in E.
  apply elem_of_list_lookup in Hx as [i Hi]. destruct (Forall2_lookup_l _ _ _ _ _ E Hi) as (y & _ & Hy). cbn in Hy. congruence.
Qed.

(** ** Requests *)
Lemma call_cases w c : idle c -> usable (disk c) ->
  (exists e c', run_write w c = (c', Err e) /\ disk c' = disk c) \/
  (pool_works c /\ call_succeeds (run_write w) c tt (fun _ _ => True)).
Proof.
  intros Hid Hu. destruct (pool c (pool_pos c)) as [k|] eqn:Ep.
  - left. destruct (write_pool_fails w c k Hid Ep) as [(e & c' & H & _ & Hd & _)|(c' & H & _ & Hd & _)]; eauto.
  - destruct (run_write_outcome w c Hid Hu Ep) as [(e & c' & H & _ & Hd & _)|H]; [left; eauto|right; done].
Qed.
Lemma ignore_inv {A} (m : M A) c c' r : ignore m c = (c', r) ->
  match r with Err e => m c = (c', Err e) | Ok _ => exists a, m c = (c', Ok a) end.
Proof.
  unfold ignore, pbind, pret. destruct (m c) as [c1 [a|e]]; intros [= <- <-]; eauto.
Qed.

(** A call that changes the clustering, as a step of a handler. *)
Definition step_ok {A} (m : M A) (c : conn) : Prop :=
  (exists e c', m c = (c', Err e) /\ disk c' = disk c) \/
  (exists a c', m c = (c', Ok a) /\ idle c' /\ quiet (disk c') /\ same_index (disk c) (disk c')).
Lemma step_write w c : idle c -> usable (disk c) -> step_ok (run_write w) c.
Proof.
  intros Hid Hu. destruct (call_cases w c Hid Hu) as [(e & c' & H)|(_ & c' & H1 & H2 & H3 & H4 & _)]; [left|right]; eauto 10.
Qed.
Lemma step_ignored {A} (m : M A) c : step_ok (ignore m) c -> step_ok m c.
Proof.
  intros [(e & c' & H & Hd)|(a & c' & H & ?)]; apply ignore_inv in H; [left; eauto|].
  destruct H as [b H]. right. eauto 10.
Qed.

Definition handle_outcome (c : conn) (r : route) (ps : params) (c' : conn) (x : res target) : Prop :=
  (exists e, x = Err e /\ disk c' = disk c) \/
  (exists t, x = Ok t /\ quiet (disk c') /\ same_index (disk c) (disk c')) \/
  ((r = RRefine \/ r = RPinClusters) /\ ints ps "cluster_id" = [] /\ x = Err IndexError /\
     quiet (disk c') /\ same_index (disk c) (disk c')) \/
  (r = RRecreate /\ quiet (disk c') /\ same_index (disk c) (disk c')).

Lemma handle_cases parse g1 g2 r ps c : idle c -> usable (disk c) ->
  exists c' x, handle parse g1 g2 r ps c = (c', x) /\ handle_outcome c r ps c' x.
Proof.
  intros Hid Hu. unfold handle_outcome.
  destruct r; cbn [handle]; unfold pbind at 1; try unfold lift at 1.
  - destruct (step_write (DeleteClusters (ints ps "cluster_id")) c Hid Hu) as [(e & c' & H & Hd)|(a & c' & H & H2 & H3 & H4)];
      cbn [run_write] in H; rewrite H; eexists _, _; (split; [reflexivity|]); [left; eauto|right; left; eauto].
  - destruct (step_ignored _ _ (step_write (CreateCluster (feature_numbers ps "feature_id")) c Hid Hu)) as [(e & c' & H & Hd)|(a & c' & H & H2 & H3 & H4)];
      rewrite H; eexists _, _; (split; [reflexivity|]); [left; eauto|right; left; eauto].
  - destruct (step_ignored _ _ (step_write (MergeClusters (ints ps "cluster_id")) c Hid Hu)) as [(e & c' & H & Hd)|(a & c' & H & H2 & H3 & H4)];
      rewrite H; eexists _, _; (split; [reflexivity|]); [left; eauto|right; left; eauto].
  - destruct (target_param parse ps 0) as [t|e]; [|eexists _, _; split; [reflexivity|left; eauto]].
    unfold pbind at 1, lift at 1. destruct (int_param parse ps "minimum_cluster_features" 1) as [mcf|e]; [|eexists _, _; split; [reflexivity|left; eauto]].
    unfold pbind at 1, lift at 1. destruct (int_param parse ps "iterations" 10) as [it|e]; [|eexists _, _; split; [reflexivity|left; eauto]].
    unfold pbind at 1.
    destruct (step_write (RefineClusters (refine_with it (Some (ints ps "cluster_id")) mcf t) g1) c Hid Hu) as [(e & c' & H & Hd)|(a & c' & H & H2 & H3 & H4)];
      cbn [run_write] in H; rewrite H; [eexists _, _; split; [reflexivity|left; eauto]|].
    unfold return_to. destruct (ints ps "cluster_id") as [|x l] eqn:Ei.
    + eexists _, _. split; [reflexivity|]. right; right; left. eauto 10.
    + eexists _, _. split; [reflexivity|]. right; left. eauto 10.
  - destruct (int_param parse ps "pinned" 1) as [b|e]; [|eexists _, _; split; [reflexivity|left; eauto]].
    unfold pbind at 1.
    destruct (step_write (PinClusters (ints ps "cluster_id") (negb (b =? 0)%Z)) c Hid Hu) as [(e & c' & H & Hd)|(a & c' & H & H2 & H3 & H4)];
      cbn [run_write] in H; rewrite H; [eexists _, _; split; [reflexivity|left; eauto]|].
    unfold return_to. destruct (ints ps "cluster_id") as [|x l] eqn:Ei.
    + eexists _, _. split; [reflexivity|]. right; right; left. eauto 10.
    + eexists _, _. split; [reflexivity|]. right; left. eauto 10.
  - destruct (step_write (DeleteFeatures (feature_numbers ps "feature_id")) c Hid Hu) as [(e & c' & H & Hd)|(a & c' & H & H2 & H3 & H4)];
      cbn [run_write] in H; rewrite H; eexists _, _; (split; [reflexivity|]); [left; eauto|right; left; eauto].
  - destruct (int_param parse ps "pinned" 1) as [b|e]; [|eexists _, _; split; [reflexivity|left; eauto]].
    unfold pbind at 1.
    destruct (step_write (PinFeatures (feature_numbers ps "feature_id") (negb (b =? 0)%Z)) c Hid Hu) as [(e & c' & H & Hd)|(a & c' & H & H2 & H3 & H4)];
      cbn [run_write] in H; rewrite H; eexists _, _; (split; [reflexivity|]); [left; eauto|right; left; eauto].
  - destruct (int_param parse ps "clusters" 64) as [n|e]; [|eexists _, _; split; [reflexivity|left; eauto]].
    unfold pbind at 1, lift at 1. destruct (int_param parse ps "min_docs" 10) as [md|e]; [|eexists _, _; split; [reflexivity|left; eauto]].
    unfold pbind at 1.
    destruct (step_write (Initialise (Z.to_nat n) md (texts ps "include_fields") g1) c Hid Hu) as [(e & c1 & H & Hd)|(a & c1 & H & H2 & H3 & H4)];
      cbn [run_write] in H; rewrite H; [eexists _, _; split; [reflexivity|left; eauto]|].
    unfold pbind at 1, lift at 1. destruct (int_param parse ps "iterations" 10) as [it|e]; [|eexists _, _; split; [reflexivity|right; right; right; eauto]].
    unfold pbind at 1, lift at 1. destruct (int_param parse ps "minimum_cluster_features" 1) as [mcf|e]; [|eexists _, _; split; [reflexivity|right; right; right; eauto]].
    unfold pbind at 1.
    assert (usable (disk c1)) as Hu1 by (destruct H3; by apply summaries_winv).
    destruct (step_write (RefineClusters (refine_with it None mcf None) g2) c1 H2 Hu1) as [(e & c2 & H' & Hd)|(a2 & c2 & H' & H2' & H3' & H4')];
      cbn [run_write] in H'; rewrite H'; eexists _, _; (split; [reflexivity|]).
    + right; right; right. rewrite Hd. eauto.
    + right; left. eexists. split; [reflexivity|]. split; [done|]. by eapply same_index_trans.
  - destruct (target_param parse ps 0) as [t|e]; [|eexists _, _; split; [reflexivity|left; eauto]].
    unfold pbind at 1, lift at 1. destruct (int_param parse ps "iterations" 10) as [it|e]; [|eexists _, _; split; [reflexivity|left; eauto]].
    unfold pbind at 1, lift at 1. destruct (int_param parse ps "minimum_cluster_features" 1) as [mcf|e]; [|eexists _, _; split; [reflexivity|left; eauto]].
    unfold pbind at 1.
    destruct (step_write (RefineClusters (refine_with it None mcf t) g1) c Hid Hu) as [(e & c' & H & Hd)|(a & c' & H & H2 & H3 & H4)];
      cbn [run_write] in H; rewrite H; eexists _, _; (split; [reflexivity|]); [left; eauto|right; left; eauto].
Qed.

(** ** Pages *)
Lemma elem_of_cluster_ids d c : c ∈ cluster_ids d <-> c ∈ dom (cluster d).
Proof. unfold cluster_ids, z_list. by rewrite merge_sort_Permutation, elem_of_elements. Qed.
Lemma NoDup_cluster_ids d : NoDup (cluster_ids d).
Proof. unfold cluster_ids, z_list. rewrite merge_sort_Permutation. apply NoDup_elements. Qed.
Lemma rbind_ok {A B} (m : res A) (k : A -> res B) b : rbind m k = Ok b -> exists a, m = Ok a /\ k a = Ok b.
Proof. destruct m as [a|]; [|done]. cbn. eauto. Qed.

(** ** Serving *)
Lemma takes_all_iff r ps : takes_all r ps = true <->
  forall names, takes r = Some names -> forall key, is_Some (ps !! key) -> key ∈ names.
Proof.
  unfold takes_all. destruct (takes r) as [names|]; [|by split].
  rewrite bool_decide_eq_true. split.
  - intros H ? [= <-] key Hk. apply elem_of_dom, H, elem_of_list_to_set in Hk. done.
  - intros H key Hk%elem_of_dom. apply elem_of_list_to_set. by eapply H.
Qed.
Lemma serve_accepted parse p g1 g2 q d ps : accepted parse q ->
  ensure_list (list_params parse (q_route q)) (q_params q) = Ok ps ->
  serve parse p g1 g2 q d =
    (disk (handle parse g1 g2 (q_route q) ps (open_index d p)).1,
     match (handle parse g1 g2 (q_route q) ps (open_index d p)).2 with Ok t => Redirect t | Err e => Crashed e end).
Proof.
  intros (H1 & H2 & H3) H. apply (proj2 (takes_all_iff _ _)) in H3. unfold serve. rewrite H1, H2. cbn [negb Z.eqb]. rewrite H, H3. cbn [negb]. by destruct (handle _ _ _ _ _ _).
Qed.
Lemma serve_cases parse p g1 g2 q d d' a : serve parse p g1 g2 q d = (d', a) ->
  (d' = d /\ ~ success a) \/
  (accepted parse q /\ exists ps c x, ensure_list (list_params parse (q_route q)) (q_params q) = Ok ps /\
     handle parse g1 g2 (q_route q) ps (open_index d p) = (c, x) /\ d' = disk c /\
     a = match x with Ok t => Redirect t | Err e => Crashed e end).
Proof.
  unfold serve. intros H. destruct (q_post q) eqn:E1; cbn in H; [|injection H as <- <-; left; split; [done|intros []]].
  destruct (parse (q_index q)) as [i|] eqn:E2; [|injection H as <- <-; left; split; [done|intros []]].
  destruct (Z.eqb_spec i 0) as [->|]; cbn in H; [|injection H as <- <-; left; split; [done|intros []]].
  destruct (ensure_list _ _) as [ps|e] eqn:E3; [|injection H as <- <-; left; split; [done|intros []]].
  destruct (takes_all _ _) eqn:E5; cbn [negb] in H; [|injection H as <- <-; left; split; [done|intros []]]. pose proof (proj1 (takes_all_iff _ _) E5) as E6.
  destruct (handle _ _ _ _ _ _) as [c x] eqn:E4. injection H as <- <-. right. split; [done|]. eauto 10.
Qed.
Lemma serve_consistent parse p g1 g2 q d : usable d ->
  let d' := (serve parse p g1 g2 q d).1 in d' = d \/ (quiet d' /\ same_index d d').
Proof.
  intros Hu. destruct (serve parse p g1 g2 q d) as [d' a] eqn:E. cbn.
  destruct (serve_cases _ _ _ _ _ _ _ _ E) as [[-> _]|(_ & ps & c & x & _ & Hh & -> & _)]; [by left|].
  destruct (handle_cases parse g1 g2 (q_route q) ps (open_index d p) (idle_open d p) Hu) as (c' & x' & Hh' & Ho).
  rewrite Hh in Hh'. injection Hh' as <- <-. unfold handle_outcome in Ho. change (disk (open_index d p)) with d in Ho.
  destruct Ho as [(e & _ & ->)|[(t & _ & ?)|[(_ & _ & _ & ?)|(_ & ?)]]]; auto.
Qed.
Lemma succeeded {A} (m : M A) c a post : call_succeeds m c a post ->
  exists c', m c = (c', Ok a) /\ quiet (disk c') /\ same_index (disk c) (disk c') /\ post (disk c) (disk c').
Proof. intros (c' & H1 & _ & H2 & H3 & H4 & _). eauto 10. Qed.
Lemma int_param_flag parse ps key b : flag parse ps key b -> exists z, int_param parse ps key 1 = Ok z /\ b = negb (z =? 0)%Z.
Proof.
  unfold flag, int_param. destruct (ps !! key) as [[[s|z]|l]|]; cbn; [| |done|].
  - intros (z & -> & ->). eauto.
  - intros (z' & [= ->] & ->). eauto.
  - intros ->. eauto.
Qed.
Lemma numbers_ensure parse key ps l : numbers parse ps key = Some l ->
  exists ps', ensure_list [(key, int_item parse)] ps = Ok ps' /\ ints ps' key = l /\ forall k, k ≠ key -> ps' !! k = ps !! k.
Proof.
  intros H. destruct (ensure_list [(key, int_item parse)] ps) as [ps'|e] eqn:E.
  - exists ps'. split; [done|]. apply ensure_ints in E as [E1 E2]. split; [congruence|done].
  - apply ensure_ints_err in E as [_ E]. congruence.
Qed.
Lemma int_param_other parse ps ps' key k z : (forall k, k ≠ key -> ps' !! k = ps !! k) -> k ≠ key ->
  int_param parse ps' k z = int_param parse ps k z.
Proof. intros H Hk. unfold int_param. by rewrite (H k Hk). Qed.
Lemma int_param_setting parse ps key dflt z : setting parse ps key dflt z -> int_param parse ps key dflt = Ok z.
Proof.
  unfold setting, int_param. destruct (ps !! key) as [[[s|y]|l]|]; cbn; [| |done|].
  - by intros ->.
  - by intros [= ->].
  - by intros ->.
Qed.
Lemma ensure_texts key ps fields : given ps key = Text <$> fields ->
  exists ps', ensure_list [(key, str_item)] ps = Ok ps' /\ texts ps' key = fields /\ forall k, k ≠ key -> ps' !! k = ps !! k.
Proof.
  intros Hg. destruct (ensure_list [(key, str_item)] ps) as [ps'|e] eqn:E.
  - exists ps'. split; [done|]. apply ensure_list_ok in E as [H1 H2]; [|cbn; apply NoDup_singleton]. split.
    + destruct (H2 key str_item) as (l & Hl & HF); [by left|]. unfold texts. rewrite Hl. rewrite Hg in HF.
      clear Hl H1 H2 Hg. revert l HF. induction fields as [|s fields IH]; intros l HF; cbn in HF; inversion HF as [|x y xs ys Hxy HF' E1 E2]; subst; [done|].
      injection Hxy as <-. cbn. by rewrite (IH _ HF').
    + intros k Hk. apply H1. cbn. by intros ->%elem_of_list_singleton.
  - apply ensure_list_err in E as (k & conv & x & Hin & _ & Hc); [|cbn; apply NoDup_singleton].
    apply elem_of_list_singleton in Hin as [= -> ->]. done.
Qed.
