(** PositionProofs.v: the positional index written by the workers. *)
From Verif Require Export IndexCalls.

(** The sequences of field [F] in one document / in a batch, with their documents. *)
Definition doc_seqs (F : string) (doc : N) (fs : features) : list (N * list (option value)) :=
  omap (fun fv => if decide (fv.1 = F) then match fv.2 with Seq vs => Some (doc, vs) | Coll _ => None end
                  else None) fs.
Definition batch_seqs (F : string) (b : batch) : list (N * list (option value)) :=
  concat ((fun d => match d.2 with Ok fs => doc_seqs F d.1 fs | Err _ => [] end) <$> b).

(** Running totals. *)
Fixpoint scan (s : N) (ls : list nat) : list N :=
  s :: match ls with [] => [] | n :: r => scan (s + N.of_nat n) r end.
Definition lengths (l : list (N * list (option value))) : list nat := length <$> l.*2.
Definition total (ls : list nat) : N := N.of_nat (sum_list ls).

Lemma scan_snoc s ls n : scan s (ls ++ [n]) = scan s ls ++ [(s + total ls + N.of_nat n)%N].
Proof.
  revert s. induction ls as [|m ls IH]; intros s; cbn.
  - unfold total. cbn. do 2 f_equal. lia.
  - rewrite IH. f_equal. f_equal. unfold total. cbn. f_equal. lia.
Qed.
Lemma elem_of_scan s ls x : x ∈ scan s ls -> (s <= x <= s + total ls)%N.
Proof.
  revert s. induction ls as [|m ls IH]; intros s; cbn; rewrite elem_of_cons.
  - intros [->|?%elem_of_nil]; [|done]. unfold total. cbn. lia.
  - unfold total in *. cbn. intros [->|H]; [lia|]. apply IH in H. lia.
Qed.
Lemma scan_last s ls : (s + total ls)%N ∈ scan s ls.
Proof.
  revert s. induction ls as [|m ls IH]; intros s; cbn; rewrite elem_of_cons.
  - left. unfold total. cbn. lia.
  - right. unfold total in *. cbn.
    replace (s + N.of_nat (m + sum_list ls))%N with (s + N.of_nat m + N.of_nat (sum_list ls))%N by lia. apply IH.
Qed.

Lemma bm_last_max (b : bitmap) m : m ∈ b -> (forall x, x ∈ b -> (x <= m)%N) -> bm_last b = m.
Proof.
  intros Hm Hle. unfold bm_last. apply elem_of_bm_list in Hm.
  destruct (last (bm_list b)) as [y|] eqn:E.
  - cbn. apply last_Some in E as [l E]. pose proof (sorted_bm_list b) as Hs.
    assert (y ∈ b) as Hy. { apply elem_of_bm_list. rewrite E. set_solver. }
    apply Hle in Hy. rewrite E in Hm, Hs. apply elem_of_app in Hm as [Hm|Hm]; [|set_solver].
    exfalso. clear E. induction l as [|a l IH]; [by apply elem_of_nil in Hm|].
    cbn in Hs. inversion Hs as [|? ? Hs' Hf]; subst. apply elem_of_cons in Hm as [->|Hm]; [|auto].
    rewrite Forall_forall in Hf. specialize (Hf y ltac:(set_solver)). lia.
  - apply last_None in E. rewrite E in Hm. by apply elem_of_nil in Hm.
Qed.
Lemma bm_last_scan ls : bm_last (list_to_set (scan 0 ls)) = total ls.
Proof.
  apply bm_last_max.
  - apply elem_of_list_to_set. apply (scan_last 0).
  - intros x Hx%elem_of_list_to_set. apply elem_of_scan in Hx. lia.
Qed.

(** The invariant of the worker's tables for field [F] after the sequences [l]. *)
Record pos_inv (F : string) (l : list (N * list (option value))) (a : accum) : Prop := PosInv {
  pi_starts : get_starts F a =
     (list_to_set (filter (fun dv => dv.2 ≠ []) l).*1, list_to_set (scan 0 (lengths l)));
  pi_present : is_Some (a_starts a !! F) <-> l ≠ [];
  pi_pos : forall v p, p ∈ poss_in a (F, v) <-> concat l.*2 !! N.to_nat p = Some (Some v) }.

Lemma poss_starts_irrelevant a st k : poss_in (Accum (a_batch a) st) k = poss_in a k.
Proof. done. Qed.
Lemma length_concat_total (l : list (N * list (option value))) :
  N.of_nat (length (concat l.*2)) = total (lengths l).
Proof.
  unfold total, lengths. f_equal. induction l as [|[d vs] l IH]; [done|]. cbn. rewrite app_length. by rewrite IH.
Qed.

Lemma pos_inv_same F l a a' :
  a_starts a' !! F = a_starts a !! F -> (forall v, poss_in a' (F, v) = poss_in a (F, v)) ->
  pos_inv F l a -> pos_inv F l a'.
Proof.
  intros H1 H2 [I1 I2 I3]. constructor.
  - unfold get_starts in *. by rewrite H1.
  - by rewrite H1.
  - intros v p. by rewrite H2.
Qed.

Lemma doc_seqs_one F doc fv : doc_seqs F doc [fv] =
  match fv.2 with Seq vs => if decide (fv.1 = F) then [(doc, vs)] else [] | Coll _ => [] end.
Proof. unfold doc_seqs. cbn. case_decide; by destruct fv as [? []]. Qed.

Lemma index_field_pos F doc a fv a' l :
  pos_inv F l a -> index_field true doc a fv = Ok a' ->
  pos_inv F (l ++ doc_seqs F doc [fv]) a'.
Proof.
  intros Hi. destruct fv as [field values]. rewrite doc_seqs_one. cbn [fst snd].
  unfold index_field. destruct values as [vs|vs].
  2:{ intros [= <-]. rewrite app_nil_r. eapply pos_inv_same; [| |exact Hi].
      - by rewrite add_docs_starts.
      - intros v. by rewrite add_docs_poss. }
  destruct (get_starts field a) as [docs starts] eqn:Es.
  set (a0 := Accum (a_batch a) (<[field := (docs, starts)]> (a_starts a))).
  destruct (add_positions field vs (bm_last starts) a0) as [a1|e] eqn:Ea; [|done]. cbn [rbind].
  apply add_positions_spec in Ea as (H1 & _ & _ & H4).
  case_decide as HF.
  - subst field. destruct Hi as [I1 I2 I3]. rewrite Es in I1. injection I1 as -> ->.
    rewrite bm_last_scan in H4 |- *.
    assert (forall v p, p ∈ poss_in a1 (F, v) <-> concat (l ++ [(doc, vs)]).*2 !! N.to_nat p = Some (Some v)) as Hpos.
    { intros v p. rewrite H4. cbn [fst snd]. change (poss_in a0 (F, v)) with (poss_in a (F, v)).
      rewrite I3, fmap_app, concat_app. cbn. rewrite app_nil_r. rewrite lookup_app.
      pose proof (length_concat_total l) as Hlen.
      destruct (concat l.*2 !! N.to_nat p) as [w|] eqn:E.
      - split; [|by left]. intros [?|(_ & i & Hi & ->)]; [done|]. exfalso.
        apply lookup_lt_Some in E. lia.
      - apply lookup_ge_None in E. split.
        + intros [?|(_ & i & Hi & ->)]; [done|]. rewrite <- Hi. f_equal. lia.
        + intros Hv. right. split; [done|]. eexists. split; [exact Hv|]. lia. }
    destruct vs as [|v0 vs0].
    + intros [= <-]. constructor; [| |exact Hpos].
      * unfold get_starts. rewrite H1. cbn [a_starts a0]. rewrite lookup_insert. cbn [default option_map from_option id].
        rewrite filter_app, filter_cons_False by (intros H; by apply H). cbn. rewrite app_nil_r.
        f_equal. unfold lengths. rewrite !fmap_app. cbn. rewrite scan_snoc. rewrite list_to_set_app_L.
        cbn. rewrite (right_id_L ∅ (∪)). apply set_eq. intros x. rewrite elem_of_union.
        split; [by left|]. intros [?|Hx]; [done|]. apply elem_of_singleton in Hx as ->.
        apply elem_of_list_to_set. replace (0 + total (length <$> l.*2) + 0)%N with (0 + total (length <$> l.*2))%N by lia.
        apply scan_last.
      * rewrite H1. cbn [a_starts a0]. rewrite lookup_insert. split; [by intros _ []%app_nil|]. intros _. by eexists.
    + intros [= <-]. eapply pos_inv_same; [by rewrite add_docs_starts|intros v; by rewrite add_docs_poss|].
      constructor; [| |exact Hpos].
      * unfold get_starts. cbn [a_starts]. rewrite lookup_insert. cbn [default option_map from_option id].
        rewrite filter_app, filter_cons_True by done. rewrite fmap_app, list_to_set_app_L.
        f_equal.
        -- cbn. rewrite (right_id_L ∅ (∪)). by rewrite (comm_L (∪)).
        -- unfold lengths. rewrite !fmap_app. cbn [fmap list_fmap]. rewrite scan_snoc, list_to_set_app_L.
           rewrite (comm_L (∪)). f_equal. cbn [list_to_set snd]. rewrite (right_id_L ∅ (∪)). done.
      * cbn [a_starts]. rewrite lookup_insert. split; [by intros _ []%app_nil|]. intros _. by eexists.
  - rewrite app_nil_r.
    assert (forall v, poss_in a1 (F, v) = poss_in a (F, v)) as Hpos.
    { intros v. apply set_eq. intros p. rewrite H4. cbn [fst]. split; [|by left].
      intros [?|(-> & _)]; done. }
    destruct vs as [|v0 vs0]; intros [= <-].
    + eapply pos_inv_same; [|exact Hpos|exact Hi]. rewrite H1. cbn [a_starts a0]. by rewrite lookup_insert_ne.
    + eapply pos_inv_same; [by rewrite add_docs_starts|intros v; by rewrite add_docs_poss|].
      eapply pos_inv_same; [|exact Hpos|exact Hi]. cbn [a_starts]. rewrite lookup_insert_ne by done.
      rewrite H1. cbn [a_starts a0]. by rewrite lookup_insert_ne.
Qed.

Lemma doc_seqs_cons F doc fv fs : doc_seqs F doc (fv :: fs) = doc_seqs F doc [fv] ++ doc_seqs F doc fs.
Proof.
  unfold doc_seqs. cbn. destruct (if decide (fv.1 = F) then _ else _); done.
Qed.

Lemma index_doc_pos F a d a' l :
  pos_inv F l a -> index_doc true a d = Ok a' -> pos_inv F (l ++ batch_seqs F [d]) a'.
Proof.
  unfold index_doc, batch_seqs. destruct d as [doc [fs|e]]; cbn; [|done]. rewrite app_nil_r.
  revert a l. induction fs as [|fv fs IH]; intros a l Hi H; cbn in H.
  - injection H as <-. cbn. by rewrite app_nil_r.
  - destruct (index_field true doc a fv) as [a1|e] eqn:E; [|done]. cbn in H.
    rewrite doc_seqs_cons, app_assoc. apply (IH a1); [|done]. by eapply index_field_pos.
Qed.

Lemma index_batch_pos F b a a' l :
  pos_inv F l a -> rfold (index_doc true) b a = Ok a' -> pos_inv F (l ++ batch_seqs F b) a'.
Proof.
  revert a l. induction b as [|d b IH]; intros a l Hi H; cbn in H.
  - injection H as <-. by rewrite app_nil_r.
  - destruct (index_doc true a d) as [a1|e] eqn:E; [|done]. cbn in H.
    replace (batch_seqs F (d :: b)) with (batch_seqs F [d] ++ batch_seqs F b)
      by (unfold batch_seqs; cbn; by rewrite app_nil_r).
    rewrite app_assoc. apply (IH a1); [|done]. by eapply index_doc_pos.
Qed.

Lemma pos_inv_empty F : pos_inv F [] empty_accum.
Proof.
  constructor.
  - unfold get_starts. cbn. rewrite lookup_empty. cbn. by rewrite (right_id_L ∅ (∪)).
  - cbn. rewrite lookup_empty. split; [by intros []|done].
  - intros v p. unfold poss_in, get_pair. cbn. rewrite lookup_empty. cbn. split; [by intros ?%elem_of_empty|done].
Qed.

(** What one segment says about positions. *)
Record segment_pos (b : batch) (seg : segment) : Prop := SegmentPos {
  sp_map : forall F, (exists r, r ∈ seg.2 /\ b_field r = F) <-> batch_seqs F b ≠ [];
  sp_row : forall r, r ∈ seg.2 ->
     b_docs r = list_to_set (filter (fun dv => dv.2 ≠ []) (batch_seqs (b_field r) b)).*1 /\
     b_starts r = list_to_set (scan 0 (lengths (batch_seqs (b_field r) b))) /\
     b_docs_count r = N.of_nat (size (b_docs r)) /\ Some (b_last r) = last b.*1;
  sp_pos : forall r p, r ∈ seg.1 ->
     p ∈ s_positions r <-> concat (batch_seqs (s_field r) b).*2 !! N.to_nat p = Some (Some (s_value r));
  sp_count : forall r, r ∈ seg.1 -> s_position_count r = N.of_nat (size (s_positions r)) }.

Lemma index_docs_pos b seg : index_docs true b = Ok seg -> segment_pos b seg.
Proof.
  unfold index_docs. destruct (rfold (index_doc true) b empty_accum) as [a|e] eqn:E; [|done]. cbn.
  assert (forall F, pos_inv F (batch_seqs F b) a) as Hi.
  { intros F. by apply (index_batch_pos F b empty_accum a [] (pos_inv_empty F) E). }
  destruct b as [|[first r0] b0] eqn:Eb; [done|]. rewrite <- Eb in *. intros [= <-].
  constructor; cbn [fst snd].
  - intros F. rewrite <- (pi_present _ _ _ (Hi F)). split.
    + intros (r & (kv & -> & Hin)%elem_of_list_fmap & <-). destruct kv as [f ds]. cbn.
      apply elem_of_map_to_list in Hin. by rewrite Hin.
    + intros [x Hx]. eexists. split; [apply elem_of_list_fmap; exists (F, x);
        split; [reflexivity|by apply elem_of_map_to_list]|done].
  - intros r (kv & -> & Hin)%elem_of_list_fmap. destruct kv as [f [ds st]]. cbn.
    apply elem_of_map_to_list in Hin. pose proof (pi_starts _ _ _ (Hi f)) as Hs.
    unfold get_starts in Hs. rewrite Hin in Hs. cbn in Hs. injection Hs as -> ->.
    split_and!; [done|done|done|]. rewrite Eb. cbn. destruct (last b0.*1) eqn:El; by rewrite ?last_cons, ?El.
  - intros r p (kv & -> & Hin)%elem_of_list_fmap. destruct kv as [[f v] [ds ps]]. cbn.
    apply elem_of_map_to_list in Hin. rewrite <- (pi_pos _ _ _ (Hi f) v p). unfold poss_in, get_pair.
    by rewrite Hin.
  - intros r (kv & -> & Hin)%elem_of_list_fmap. done.
Qed.

(** ** Decoding *)
Lemma scan_lookup {A} (l : list (list A)) s i x : l !! i = Some x ->
  exists b, scan s (length <$> l) !! i = Some b /\
    scan s (length <$> l) !! S i = Some (b + N.of_nat (length x))%N /\
    (s <= b)%N /\
    forall j, j < length x -> concat l !! (N.to_nat (b - s) + j) = x !! j.
Proof.
  revert s i. induction l as [|y l IH]; intros s i; [done|]. destruct i as [|i]; cbn.
  - intros [= ->]. exists s. split_and!; [done| |lia|].
    + by destruct (length <$> l).
    + intros j Hj. rewrite N.sub_diag. cbn. by rewrite lookup_app_l.
  - intros Hi. destruct (IH (s + N.of_nat (length y))%N i Hi) as (b & H1 & H2 & H3 & H4).
    exists b. split_and!; [done|done|lia|]. intros j Hj.
    replace (N.to_nat (b - s) + j) with (length y + (N.to_nat (b - (s + N.of_nat (length y))) + j)) by lia.
    rewrite lookup_app_r by lia. rewrite Nat.add_comm, Nat.add_sub. by apply H4.
Qed.
Lemma concat_decomp {A} (l : list (list A)) s p y : concat l !! p = Some y ->
  exists i x b j, l !! i = Some x /\ scan s (length <$> l) !! i = Some b /\ j < length x /\
    (s + N.of_nat p = b + N.of_nat j)%N /\ x !! j = Some y.
Proof.
  revert s p. induction l as [|x l IH]; intros s p; [done|]. cbn. rewrite lookup_app.
  destruct (x !! p) as [z|] eqn:E.
  - intros [= ->]. exists 0, x, s, p. split_and!; [done|done| |done|done]. by eapply lookup_lt_Some.
  - intros H. apply lookup_ge_None in E. destruct (IH (s + N.of_nat (length x))%N _ H) as (i & x' & b & j & H1 & H2 & H3 & H4 & H5).
    exists (S i), x', b, j. split_and!; [done|done|done|lia|done].
Qed.
Lemma scan_sorted s ls : Forall (fun n => n <> 0) ls -> StronglySorted N.lt (scan s ls).
Proof.
  revert s. induction ls as [|n ls IH]; intros s HF; cbn.
  - constructor; constructor.
  - inversion HF; subst. constructor; [by apply IH|]. apply Forall_forall. intros x Hx.
    apply elem_of_scan in Hx. lia.
Qed.
Lemma scan_filter s ls x : x ∈ scan s ls <-> x ∈ scan s (filter (fun n => n <> 0) ls).
Proof.
  revert s. induction ls as [|n ls IH]; intros s; [done|]. rewrite filter_cons. case_decide as H.
  - cbn. rewrite !elem_of_cons. by rewrite IH.
  - replace n with 0 by lia. cbn. rewrite elem_of_cons. replace (s + 0)%N with s by lia. rewrite IH.
    split; [|by right]. intros [->|?]; [|done]. destruct (filter _ ls); left.
Qed.
Lemma scan_length s ls : length (scan s ls) = S (length ls).
Proof. revert s. induction ls as [|n ls IH]; intros s; cbn; [done|]. by rewrite IH. Qed.

(** ** Batches are runs of consecutive documents *)
Lemma concat_split {A} (ls : list (list A)) l : l ∈ ls -> exists p q, concat ls = p ++ l ++ q.
Proof.
  induction ls as [|x ls IH]; [by intros ?%elem_of_nil|]. intros [->|H]%elem_of_cons; cbn.
  - by exists [], (concat ls).
  - destruct (IH H) as (p & q & ->). exists (x ++ p), q. by rewrite <- app_assoc.
Qed.
Lemma batch_ids bsz c b : b ∈ batches bsz c -> exists s, b.*1 = N.of_nat <$> seq s (length b).
Proof.
  intros Hb. destruct (concat_split _ _ Hb) as (p & q & H). rewrite batches_concat in H.
  apply (f_equal (fmap fst)) in H. unfold corpus, batch in *. rewrite enumerate_fst, !fmap_app in H.
  exists (length p).
  assert (length c.*2 = length p + (length b + length q)) as Hl.
  { apply (f_equal length) in H. rewrite fmap_length, seq_length, !app_length, !fmap_length in H.
    by rewrite !fmap_length in *. }
  rewrite Hl, !seq_app, !fmap_app in H. cbn in H.
  apply app_inj_1 in H as [_ H]; [|by rewrite !fmap_length, seq_length].
  apply app_inj_1 in H as [H _]; [|by rewrite !fmap_length, seq_length]. done.
Qed.
Lemma batch_ids_sorted bsz c b : b ∈ batches bsz c -> StronglySorted N.lt b.*1.
Proof.
  intros Hb. destruct (batch_ids _ _ _ Hb) as [s ->]. generalize (length b) as n. clear. intros n.
  revert s. induction n as [|n IH]; intros s; cbn; [constructor|]. constructor; [apply IH|].
  apply Forall_forall. intros x (i & -> & Hi)%elem_of_list_fmap. apply elem_of_seq in Hi. lia.
Qed.

Lemma elem_of_batch_seqs F b doc vs :
  (doc, vs) ∈ batch_seqs F b <-> exists fs, (doc, Ok fs) ∈ b /\ (F, Seq vs) ∈ fs.
Proof.
  unfold batch_seqs. rewrite elem_of_concat. split.
  - intros (l & Hl & ([d [fs|e]] & -> & Hd)%elem_of_list_fmap); cbn in Hl; [|by apply elem_of_nil in Hl].
    unfold doc_seqs in Hl. apply elem_of_list_omap in Hl as ([f fv] & Hfv & H). cbn in H.
    case_decide; [|done]. destruct fv as [vs'|]; [|done]. subst. injection H as -> ->. eauto.
  - intros (fs & Hd & Hf). exists (doc_seqs F doc fs). split.
    + unfold doc_seqs. apply elem_of_list_omap. exists (F, Seq vs). split; [done|]. cbn. by rewrite decide_True.
    + apply elem_of_list_fmap. by exists (doc, Ok fs).
Qed.
Lemma doc_seqs_dict F doc fs : NoDup fs.*1 -> length (doc_seqs F doc fs) <= 1.
Proof.
  induction fs as [|fv fs IH]; intros Hnd; [cbn; lia|]. rewrite doc_seqs_cons, doc_seqs_one.
  cbn in Hnd. apply NoDup_cons in Hnd as [Hn Hnd]. specialize (IH Hnd).
  destruct fv as [f [vs|vs]]; cbn [fst snd]; [|done]. case_decide; [|done]. subst f.
  assert (doc_seqs F doc fs = []) as ->; [|done].
  destruct (doc_seqs F doc fs) as [|[d' vs'] l] eqn:E; [done|]. exfalso. apply Hn.
  assert ((d', vs') ∈ doc_seqs F doc fs) as Hin by (rewrite E; left).
  unfold doc_seqs in Hin. apply elem_of_list_omap in Hin as ([f fv] & Hfv & H). cbn in H.
  case_decide; [|done]. subst f. apply elem_of_list_fmap. by exists (F, fv).
Qed.
Lemma batch_seqs_sorted F b : StronglySorted N.lt b.*1 ->
  (forall d fs, (d, Ok fs) ∈ b -> NoDup fs.*1) -> StronglySorted N.lt (batch_seqs F b).*1.
Proof.
  induction b as [|[d r] b IH]; intros Hs Hd; [constructor|]. cbn in Hs. inversion Hs as [|? ? Hs' Hf]; subst.
  assert (StronglySorted N.lt (batch_seqs F b).*1) as IH'.
  { apply IH; [done|]. intros d' fs Hin. apply (Hd d'). by right. }
  unfold batch_seqs. cbn. fold (batch_seqs F b). destruct r as [fs|e]; [|done].
  assert (doc_seqs F d fs = [] \/ exists vs, doc_seqs F d fs = [(d, vs)]) as [->|[vs ->]].
  { pose proof (doc_seqs_dict F d fs (Hd d fs ltac:(left))) as Hl.
    destruct (doc_seqs F d fs) as [|[d' vs'] [|]] eqn:E; [by left| |cbn in Hl; lia]. right.
    assert ((d', vs') ∈ doc_seqs F d fs) as Hin by (rewrite E; left).
    unfold doc_seqs in Hin. apply elem_of_list_omap in Hin as ([f fv] & Hfv & H). cbn in H.
    case_decide; [|done]. destruct fv; [|done]. injection H as -> ->. eauto. }
  - done.
  - cbn. constructor; [done|]. apply Forall_forall. intros x ([x' vs'] & -> & Hin)%elem_of_list_fmap.
    apply elem_of_batch_seqs in Hin as (fs' & Hin & _). rewrite Forall_forall in Hf. apply Hf.
    apply elem_of_list_fmap. by exists (x', Ok fs').
Qed.
Lemma sorted_filter {A} (P : N * A -> Prop) `{!forall x, Decision (P x)} (l : list (N * A)) :
  StronglySorted N.lt l.*1 -> StronglySorted N.lt (filter P l).*1.
Proof.
  induction l as [|[n a] l IH]; intros Hs; [constructor|]. cbn in Hs. inversion Hs as [|? ? Hs' Hf]; subst.
  rewrite filter_cons. case_decide; [|by apply IH]. cbn. constructor; [by apply IH|].
  apply Forall_forall. intros x (y & -> & [_ Hy]%elem_of_list_filter)%elem_of_list_fmap.
  rewrite Forall_forall in Hf. apply Hf. apply elem_of_list_fmap. eauto.
Qed.
Lemma concat_nonempty (l : list (N * list (option value))) :
  concat l.*2 = concat (filter (fun dv => dv.2 ≠ []) l).*2.
Proof.
  induction l as [|[n vs] l IH]; [done|]. rewrite filter_cons. case_decide as H; cbn in *.
  - by rewrite IH.
  - assert (vs = []) as ->; [|done]. destruct vs; [done|]. exfalso. by (done || apply H).
Qed.
Lemma lengths_nonempty l :
  lengths (filter (fun dv => dv.2 ≠ []) l) = filter (fun n => n <> 0) (lengths l).
Proof.
  induction l as [|[n vs] l IH]; [done|]. change (lengths ((n, vs) :: l)) with (length vs :: lengths l).
  rewrite !filter_cons. cbn [snd]. destruct vs as [|v vs].
  - rewrite decide_False by (intros H; by apply H). rewrite decide_False by (cbn; lia). done.
  - rewrite decide_True by done. rewrite decide_True by (cbn; lia).
    change (length (v :: vs) :: lengths (filter (fun dv => dv.2 ≠ []) l) = length (v :: vs) :: filter (fun n => n <> 0) (lengths l)).
    by rewrite IH.
Qed.

(** ** The positional index of the rebuilt database *)
Lemma batch_unique (bs : list batch) i j b b' x :
  NoDup (concat bs).*1 -> bs !! i = Some b -> bs !! j = Some b' -> x ∈ b.*1 -> x ∈ b'.*1 -> i = j.
Proof.
  revert i j. induction bs as [|b0 bs IH]; intros i j Hnd Hi Hj Hx Hx'; [done|].
  cbn [concat] in Hnd. rewrite fmap_app in Hnd. apply NoDup_app in Hnd as (_ & Hdis & Hnd).
  assert (forall k b1, bs !! k = Some b1 -> x ∈ b1.*1 -> x ∈ (concat bs).*1) as Hc.
  { intros k b1 Hk (y & -> & Hy)%elem_of_list_fmap. apply elem_of_list_fmap. exists y. split; [done|].
    apply elem_of_concat. exists b1. split; [done|]. by eapply elem_of_list_lookup_2. }
  destruct i as [|i], j as [|j]; cbn in Hi, Hj.
  - done.
  - injection Hi as ->. exfalso. eapply Hdis; [exact Hx|]. by eapply Hc.
  - injection Hj as ->. exfalso. eapply Hdis; [exact Hx'|]. by eapply Hc.
  - f_equal. by eapply IH.
Qed.

Section lossless.
  Context (bsz : nat) (c : corpus) (bs : list batch) (segs : list segment) (d : db).
  Hypothesis (Hu : features_unique (inverted_index d)).
  Hypothesis (Hp : bs ≡ₚ batches bsz c).
  Hypothesis (HF : Forall2 (fun b seg => index_docs true b = Ok seg) bs segs).
  Hypothesis (Hcond : rebuild_conditions (fst <$> c) segs d).
  Hypothesis (Hdicts : dicts c).
  Let d1 := rebuilt (fst <$> c) segs d.

  Lemma lossless_ii : inverted_index d1 = merge_features (concat segs.*1) (zeroed (inverted_index d)).
  Proof. done. Qed.
  Lemma lossless_exact : index_exact c (inverted_index d) (inverted_index d1).
  Proof. rewrite lossless_ii. by eapply merge_exact. Qed.

  Lemma map_row F first pm : position_doc_map d1 !! (F, first) = Some pm <->
    exists i b seg r, bs !! i = Some b /\ segs !! i = Some seg /\ r ∈ seg.2 /\
      posmap_entry r = ((F, first), pm).
  Proof.
    cbn [d1 rebuilt position_doc_map set_changed_cluster write_field_summary set_field_summary refresh_docs_counts set_feature_cluster].
    rewrite <- elem_of_list_to_map by apply (rc_map _ _ _ Hcond). rewrite elem_of_list_fmap. split.
    - intros (r & He & Hr). apply elem_of_concat in Hr as (l & Hl & Hin).
      apply elem_of_list_fmap in Hin as (seg & -> & Hseg). apply elem_of_list_lookup in Hseg as [i Hi].
      destruct (Forall2_lookup_r _ _ _ _ _ HF Hi) as (b & Hb & _). by exists i, b, seg, r.
    - intros (i & b & seg & r & Hb & Hs & Hr & He). exists r. split; [done|]. apply elem_of_concat.
      exists seg.2. split; [done|]. apply elem_of_list_fmap. exists seg. split; [done|].
      by eapply elem_of_list_lookup_2.
  Qed.
  Lemma pos_row_iff f first row : position_index d1 !! (f, first) = Some row <->
    exists i b seg r, bs !! i = Some b /\ segs !! i = Some seg /\ r ∈ seg.1 /\ (0 < s_position_count r)%N /\
      find_feature (inverted_index d1) (seg_key r) = Some f /\ s_first r = first /\
      row = PosRow (s_position_count r) (s_positions r).
  Proof.
    cbn [d1 rebuilt position_index set_changed_cluster write_field_summary set_field_summary refresh_docs_counts set_feature_cluster].
    rewrite <- elem_of_list_to_map by apply (rc_pos _ _ _ Hcond). unfold position_rows at 1.
    rewrite elem_of_list_omap. rewrite lossless_ii. split.
    - intros (r & Hr & He). destruct (N.ltb_spec 0 (s_position_count r)) as [Hlt|]; [|done].
      destruct (find_feature _ (seg_key r)) as [g|] eqn:Ef; [|done]. cbn in He. injection He as -> <- <-.
      apply elem_of_concat in Hr as (l & Hl & Hin).
      apply elem_of_list_fmap in Hin as (seg & -> & Hseg). apply elem_of_list_lookup in Hseg as [i Hi].
      destruct (Forall2_lookup_r _ _ _ _ _ HF Hi) as (b & Hb & _). by exists i, b, seg, r.
    - intros (i & b & seg & r & Hb & Hs & Hr & Hlt & Hf & Hfi & ->). exists r. split.
      + apply elem_of_concat. exists seg.1. split; [done|]. apply elem_of_list_fmap. exists seg. split; [done|].
        by eapply elem_of_list_lookup_2.
      + destruct (N.ltb_spec 0 (s_position_count r)); [|lia]. rewrite Hf. cbn. by rewrite Hfi.
  Qed.

  Lemma holds_position_iff i b seg F first v p :
    bs !! i = Some b -> segs !! i = Some seg -> first ∈ b.*1 ->
    (exists d0, head b = Some d0 /\ d0.1 = first) ->
    holds_position d1 F first v p <-> concat (batch_seqs F b).*2 !! N.to_nat p = Some (Some v).
  Proof.
    intros Hb Hs Hfirst (d0 & Hd0 & <-).
    assert (index_docs true b = Ok seg) as Hok by exact (Forall2_lookup_lr _ _ _ _ _ _ HF Hb Hs).
    pose proof (index_docs_pos _ _ Hok) as Hsp. pose proof (index_docs_docs _ _ _ Hok) as [Hsd _].
    destruct (seg_first _ _ _ Hok) as (d0' & Hd0' & Hsf & _).
    assert (d0' = d0) as -> by congruence. clear Hd0'.
    unfold holds_position, lookup_feature_id. split.
    - intros (f & row & Hf & Hrow & Hin).
      destruct (find_feature (inverted_index d1) (F, v)) as [f'|] eqn:Ef; [|done]. injection Hf as ->.
      apply pos_row_iff in Hrow as (j & b' & seg' & r & Hb' & Hs' & Hr & Hlt & Hf & Hfi & ->).
      assert (index_docs true b' = Ok seg') as Hok' by exact (Forall2_lookup_lr _ _ _ _ _ _ HF Hb' Hs').
      destruct (seg_first _ _ _ Hok') as (d1' & Hd1' & Hsf' & _).
      assert (i = j) as <-.
      { eapply batch_unique; [by eapply batch_ids_nodup|exact Hb|exact Hb'|exact Hfirst|].
        rewrite <- Hfi, (Hsf' r Hr). apply elem_of_list_fmap. exists d1'. split; [done|].
        destruct b'; [done|]. injection Hd1' as ->. left. }
      assert (b' = b) as -> by (apply (inj Some); etrans; [symmetry; exact Hb'|exact Hb]). assert (seg' = seg) as -> by (apply (inj Some); etrans; [symmetry; exact Hs'|exact Hs]).
      apply find_feature_Some in Ef as (row1 & H1 & H2). apply find_feature_Some in Hf as (row2 & H3 & H4).
      rewrite H1 in H3. injection H3 as <-. rewrite H2 in H4. unfold seg_key in H4. injection H4 as HF' Hv'.
      cbn in Hin. apply (proj1 (sp_pos _ _ Hsp r p Hr)) in Hin. by rewrite <- HF', <- Hv' in Hin.
    - intros Hin.
      assert (exists doc fs, (doc, Ok fs) ∈ b /\ doc_has fs F v) as (doc & fs & Hdoc & Hhas).
      { apply elem_of_list_lookup_2, elem_of_concat in Hin as (vs & Hv & Hvs).
        apply elem_of_list_fmap in Hvs as ([doc vs'] & -> & Hvs).
        apply elem_of_batch_seqs in Hvs as (fs & H1 & H2). exists doc, fs. split; [done|]. by exists (Seq vs'). }
      destruct (sd_has _ _ Hsd doc fs F v Hdoc Hhas) as (r & Hr & Hk).
      assert (p ∈ s_positions r) as Hpr.
      { apply (sp_pos _ _ Hsp r p Hr). unfold seg_key in Hk. injection Hk as -> ->. done. }
      destruct (ie_has _ _ _ lossless_exact F v doc) as [f Hf].
      { assert ((doc, Ok fs) ∈ concat bs) as Hin'. { apply elem_of_concat. exists b. split; [done|]. by eapply elem_of_list_lookup_2. }
        apply (batch_docs bsz c doc (Ok fs) bs Hp) in Hin' as [key Hin']. by exists key, fs. }
      exists f, (PosRow (s_position_count r) (s_positions r)). split_and!.
      + by rewrite Hf.
      + apply pos_row_iff. exists i, b, seg, r. split_and!; [done|done|done| | |by apply Hsf|done].
        * rewrite (sp_count _ _ Hsp r Hr). destruct (size (s_positions r)) eqn:E; [|lia].
          apply size_empty_inv in E. set_solver.
        * by rewrite Hk.
      + done.
  Qed.

  Lemma all_some i b seg F vs : bs !! i = Some b -> segs !! i = Some seg -> vs ∈ (batch_seqs F b).*2 ->
    exists ws, vs = Some <$> ws.
  Proof.
    intros Hb Hs Hvs. assert (None ∉ vs) as Hn.
    { assert (index_docs true b = Ok seg) as Hok by exact (Forall2_lookup_lr _ _ _ _ _ _ HF Hb Hs).
      assert (b ≠ []) as Hne by (by intros ->).
      apply elem_of_list_fmap in Hvs as ([doc vs'] & -> & Hvs).
      apply elem_of_batch_seqs in Hvs as (fs & H1 & H2).
      destruct (proj2 (index_docs_total true b Hne) (ex_intro _ seg Hok) _ H1) as (fs' & [= <-] & H3). cbn.
      by eapply H3. }
    clear -Hn. induction vs as [|[v|] vs IH].
    - by exists [].
    - destruct IH as [ws ->]; [set_solver|]. by exists (v :: ws).
    - exfalso. apply Hn. left.
  Qed.

  Lemma rebuilt_lossless F first pm :
    position_doc_map d1 !! (F, first) = Some pm -> partition_lossless c d1 F first pm.
  Proof.
    intros Hpm. apply map_row in Hpm as (i & b & seg & r & Hb & Hs & Hr & He).
    assert (index_docs true b = Ok seg) as Hok by exact (Forall2_lookup_lr _ _ _ _ _ _ HF Hb Hs).
    pose proof (index_docs_pos _ _ Hok) as Hsp.
    unfold posmap_entry in He. injection He as Hbf Hfirst <-.
    destruct (sp_row _ _ Hsp r Hr) as (Hdocs & Hstarts & Hcount & Hlast).
    rewrite Hbf in Hdocs, Hstarts.
    destruct (seg_first _ _ _ Hok) as (d0 & Hd0 & _ & Hsf).
    assert (b ∈ batches bsz c) as Hbin by (rewrite <- Hp; by eapply elem_of_list_lookup_2).
    assert (d0.1 = first) as Hd0' by (rewrite <- Hfirst; symmetry; by apply Hsf).
    assert (first ∈ b.*1) as Hfin.
    { rewrite <- Hd0'. apply elem_of_list_fmap. exists d0. split; [done|].
      destruct b; [done|]. injection Hd0 as ->. left. }
    assert (forall v p, holds_position d1 F first v p <-> concat (batch_seqs F b).*2 !! N.to_nat p = Some (Some v)) as Hh.
    { intros v p. eapply holds_position_iff; eauto. }
    assert (forall x (rr : res features), (x, rr) ∈ b -> exists k, c !! N.to_nat x = Some (k, rr)) as Hbc.
    { intros x rr Hx. apply (batch_docs bsz c x rr bs Hp). apply elem_of_concat. exists b. split; [done|].
      by eapply elem_of_list_lookup_2. }
    assert (forall x fs, (x, Ok fs) ∈ b -> NoDup fs.*1) as Hbd.
    { intros x fs Hx. destruct (Hbc x _ Hx) as [k Hk]. eapply Hdicts. by eapply elem_of_list_lookup_2. }
    set (ne := filter (fun dv => dv.2 ≠ []) (batch_seqs F b)) in *.
    assert (StronglySorted N.lt ne.*1) as Hsort.
    { apply sorted_filter, batch_seqs_sorted; [by eapply batch_ids_sorted|done]. }
    assert (bm_list (b_docs r) = ne.*1) as Ebd.
    { apply bm_list_unique; [done|]. intros x. rewrite Hdocs. by rewrite elem_of_list_to_set. }
    assert (Forall (fun n => n <> 0) (lengths ne)) as Hpos.
    { unfold ne. rewrite lengths_nonempty. apply Forall_forall. by intros x [? _]%elem_of_list_filter. }
    assert (bm_list (b_starts r) = scan 0 (lengths ne)) as Ebs.
    { apply bm_list_unique; [by apply scan_sorted|]. intros x. rewrite Hstarts, elem_of_list_to_set.
      unfold ne. rewrite lengths_nonempty. symmetry. apply scan_filter. }
    rewrite (concat_nonempty (batch_seqs F b)) in Hh. fold ne in Hh.
    assert (forall doc vs, (doc, vs) ∈ ne -> exists ws, vs = Some <$> ws /\ doc_sequence c F doc ws) as Hne.
    { intros doc vs [Hv Hin]%elem_of_list_filter. cbn in Hv.
      destruct (all_some i b seg F vs Hb Hs) as [ws ->]. { apply elem_of_list_fmap. by exists (doc, vs). }
      exists ws. split; [done|]. apply elem_of_batch_seqs in Hin as (fs & H1 & H2).
      destruct (Hbc _ _ H1) as [k Hk]. exists k, fs. split_and!; [done|done|]. by intros ->. }
    assert (forall doc ws ws', doc_sequence c F doc ws -> doc_sequence c F doc ws' -> ws = ws') as Huniq.
    { intros doc ws ws' (k & fs & H1 & H2 & _) (k' & fs' & H1' & H2' & _).
      rewrite H1 in H1'. injection H1' as <- <-.
      assert (NoDup fs.*1) as Hnd. { eapply Hdicts. by eapply elem_of_list_lookup_2. }
      assert (Seq (Some <$> ws) = Seq (Some <$> ws')) as H.
      { clear -H2 H2' Hnd. induction fs as [|[f x] fs IH]; [by apply elem_of_nil in H2|].
        cbn in Hnd. apply NoDup_cons in Hnd as [Hn Hnd].
        apply elem_of_cons in H2 as [H2|H2]; apply elem_of_cons in H2' as [H2'|H2'].
        - congruence.
        - injection H2 as <- <-. exfalso. apply Hn. apply elem_of_list_fmap. by eexists (F, _).
        - injection H2' as <- <-. exfalso. apply Hn. apply elem_of_list_fmap. by eexists (F, _).
        - by apply IH. }
      injection H as H. by apply (inj (fmap Some)) in H. }
    constructor; cbn [pm_doc_ids pm_docs_count pm_boundaries pm_last_doc_id].
    - intros doc. rewrite <- elem_of_bm_list, Ebd. rewrite elem_of_list_fmap. split.
      + intros ([doc' vs] & -> & Hin). cbn. destruct (Hne _ _ Hin) as (ws & -> & Hws). split; [|by exists ws].
        apply elem_of_list_filter in Hin as [_ Hin]. apply elem_of_batch_seqs in Hin as (fs & H1 & _).
        assert (doc' ∈ b.*1) as Hd. { apply elem_of_list_fmap. by exists (doc', Ok fs). }
        destruct (batch_ids _ _ _ Hbin) as [s0 Hids].
        assert (first = N.of_nat s0 /\ b_last r = N.of_nat (s0 + length b - 1)) as [-> ->].
        { rewrite Hids in Hlast. destruct b as [|x0 b']; [done|]. cbn in Hd0, Hlast, Hids. injection Hd0 as ->.
          injection Hids as Hi1 Hi2. split; [congruence|]. cbn [length] in *.
          assert (S (length b') <> 0) as Hn0 by lia. 
          change (Some (b_last r) = last (N.of_nat <$> seq s0 (S (length b')))) in Hlast.
          rewrite seq_S, fmap_app in Hlast. cbn [fmap list_fmap] in Hlast. rewrite last_snoc in Hlast. injection Hlast as ->. lia. }
        rewrite Hids in Hd. apply elem_of_list_fmap in Hd as (n & -> & Hn). apply elem_of_seq in Hn. lia.
      + intros [Hrange (vs & key & fs & Hc & Hvs & Hnil)].
        exists (doc, Some <$> vs). split; [done|]. apply elem_of_list_filter. split; [by destruct vs|].
        apply elem_of_batch_seqs. exists fs. split; [|done].
        destruct (batch_ids _ _ _ Hbin) as [s0 Hids].
        assert (first = N.of_nat s0 /\ b_last r = N.of_nat (s0 + length b - 1) /\ length b <> 0) as (-> & Hbl & Hn0).
        { rewrite Hids in Hlast. destruct b as [|x0 b']; [done|]. cbn in Hd0, Hlast, Hids. injection Hd0 as ->.
          injection Hids as Hi1 Hi2. split; [congruence|]. cbn [length] in *. split; [|lia].
          change (Some (b_last r) = last (N.of_nat <$> seq s0 (S (length b')))) in Hlast.
          rewrite seq_S, fmap_app in Hlast. cbn [fmap list_fmap] in Hlast. rewrite last_snoc in Hlast. injection Hlast as ->. lia. }
        assert (doc ∈ b.*1) as Hd.
        { rewrite Hids. apply elem_of_list_fmap. exists (N.to_nat doc). split; [lia|]. apply elem_of_seq. lia. }
        apply elem_of_list_fmap in Hd as ([doc' rr] & -> & Hd). cbn in *.
        destruct (Hbc _ _ Hd) as [k' Hk']. rewrite Hc in Hk'. injection Hk' as _ <-. done.
    - done.
    - split.
      + rewrite <- !length_bm_list, Ebs, Ebd, scan_length. unfold lengths. by rewrite !fmap_length.
      + rewrite <- elem_of_bm_list, Ebs. destruct (lengths ne); left.
    - intros n doc vs Hn Hseq. rewrite Ebd in Hn. rewrite Ebs.
      apply list_lookup_fmap_Some in Hn as ([doc' ws'] & Hn & Hd). cbn in Hd. subst doc'.
      destruct (Hne doc ws') as (ws & -> & Hws); [by eapply elem_of_list_lookup_2|].
      assert (ws = vs) as -> by (by eapply Huniq).
      destruct (scan_lookup ne.*2 0 n (Some <$> vs)) as (s0 & H1 & H2 & _ & H4).
      { rewrite list_lookup_fmap, Hn. done. }
      rewrite fmap_length in H2, H4. exists s0, (s0 + N.of_nat (length vs))%N. split_and!; [done|done|done|].
      intros j v Hj. rewrite Hh. replace (N.to_nat (s0 + N.of_nat j)) with (N.to_nat (s0 - 0) + j) by lia.
      rewrite H4 by done. rewrite list_lookup_fmap. destruct (vs !! j); cbn; [|done].
      split; [intros E; by injection E as ->|intros E; by injection E as ->].
    - intros v p Hv. rewrite Hh in Hv. destruct (concat_decomp _ 0 _ _ Hv) as (n & x & s0 & j & H1 & H2 & H3 & H4 & H5).
      apply list_lookup_fmap_Some in H1 as ([doc ws'] & Hn & Hd). cbn in Hd. subst x.
      destruct (Hne doc ws') as (ws & -> & Hws); [by eapply elem_of_list_lookup_2|].
      rewrite fmap_length in H3. exists n, doc, ws, s0. rewrite Ebd, Ebs. split_and!.
      + by rewrite list_lookup_fmap, Hn.
      + done.
      + done.
      + lia.
      + lia.
  Qed.

  Lemma rebuilt_covered F doc vs : doc_sequence c F doc vs ->
    exists first pm, position_doc_map d1 !! (F, first) = Some pm /\ doc ∈ pm_doc_ids pm.
  Proof.
    intros (key & fs & Hc & Hvs & Hnil).
    assert ((doc, Ok fs) ∈ concat bs) as Hin by (apply (batch_docs bsz c doc (Ok fs) bs Hp); eauto).
    apply elem_of_concat in Hin as (b & Hin & Hb). apply elem_of_list_lookup in Hb as [i Hi].
    destruct (Forall2_lookup_l _ _ _ _ _ HF Hi) as (seg & Hseg & Hok).
    pose proof (index_docs_pos _ _ Hok) as Hsp.
    assert ((doc, Some <$> vs) ∈ batch_seqs F b) as Hbs by (apply elem_of_batch_seqs; eauto).
    destruct (proj2 (sp_map _ _ Hsp F)) as (r & Hr & Hf). { intros E. rewrite E in Hbs. by apply elem_of_nil in Hbs. }
    exists (b_first r), (posmap_entry r).2. split.
    - apply map_row. exists i, b, seg, r. split_and!; [done..|]. unfold posmap_entry. cbn. by rewrite Hf.
    - cbn. destruct (sp_row _ _ Hsp r Hr) as (-> & _). rewrite Hf. apply elem_of_list_to_set, elem_of_list_fmap.
      exists (doc, Some <$> vs). split; [done|]. apply elem_of_list_filter. split; [by destruct vs|done].
  Qed.

  Lemma rebuilt_disjoint F doc first first' pm pm' :
    position_doc_map d1 !! (F, first) = Some pm -> position_doc_map d1 !! (F, first') = Some pm' ->
    doc ∈ pm_doc_ids pm -> doc ∈ pm_doc_ids pm' -> first = first'.
  Proof.
    intros (i & b & seg & r & Hb & Hs & Hr & He)%map_row (j & b' & seg' & r' & Hb' & Hs' & Hr' & He')%map_row Hd Hd'.
    assert (index_docs true b = Ok seg) as Hok by exact (Forall2_lookup_lr _ _ _ _ _ _ HF Hb Hs).
    assert (index_docs true b' = Ok seg') as Hok' by exact (Forall2_lookup_lr _ _ _ _ _ _ HF Hb' Hs').
    unfold posmap_entry in He, He'. injection He as Hbf Hf <-. injection He' as Hbf' Hf' <-. cbn in Hd, Hd'.
    assert (forall b seg r, index_docs true b = Ok seg -> r ∈ seg.2 -> doc ∈ b_docs r -> doc ∈ b.*1) as Hx.
    { intros b0 seg0 r0 Hok0 Hr0. destruct (sp_row _ _ (index_docs_pos _ _ Hok0) r0 Hr0) as (-> & _).
      intros ([doc' vs] & -> & [_ Hin]%elem_of_list_filter)%elem_of_list_to_set%elem_of_list_fmap.
      apply elem_of_batch_seqs in Hin as (fs & Hin & _). apply elem_of_list_fmap. by exists (doc', Ok fs). }
    assert (i = j) as <-.
    { eapply batch_unique; [by eapply batch_ids_nodup|exact Hb|exact Hb'|by eapply Hx|by eapply Hx]. }
    assert (seg' = seg) as -> by (apply (inj Some); etrans; [symmetry; exact Hs'|exact Hs]). destruct (seg_first _ _ _ Hok) as (d0 & _ & _ & Hsf).
    rewrite <- Hf, <- Hf'. by rewrite !Hsf.
  Qed.

  Lemma rebuilt_positions f first row : position_index d1 !! (f, first) = Some row ->
    p_positions row ≠ ∅ /\ p_count row = N.of_nat (size (p_positions row)) /\
    exists F v pm, lookup_feature d1 f = Ok (F, v) /\ position_doc_map d1 !! (F, first) = Some pm.
  Proof.
    intros (i & b & seg & r & Hb & Hs & Hr & Hlt & Hf & Hfi & ->)%pos_row_iff. cbn.
    assert (index_docs true b = Ok seg) as Hok by exact (Forall2_lookup_lr _ _ _ _ _ _ HF Hb Hs).
    pose proof (index_docs_pos _ _ Hok) as Hsp. pose proof (sp_count _ _ Hsp r Hr) as Hc.
    assert (s_positions r ≠ ∅) as Hne. { intros E. rewrite E, size_empty in Hc. lia. }
    split_and!; [done|done|]. apply find_feature_Some in Hf as (row & H1 & H2).
    unfold lookup_feature. rewrite H1. unfold row_key, seg_key in H2. injection H2 as -> ->.
    exists (s_field r), (s_value r).
    apply set_choose_L in Hne as [p Hp']. apply (proj1 (sp_pos _ _ Hsp r p Hr)) in Hp'.
    destruct (proj2 (sp_map _ _ Hsp (s_field r))) as (br & Hbr & Hbf).
    { intros E. rewrite E in Hp'. done. }
    exists (posmap_entry br).2. split; [done|]. apply map_row. exists i, b, seg, br. split_and!; [done..|].
    unfold posmap_entry. cbn. rewrite Hbf. do 2 f_equal.
    destruct (seg_first _ _ _ Hok) as (d0 & _ & Hsf & Hsf'). rewrite Hsf' by done. rewrite <- Hfi. symmetry. by apply Hsf.
  Qed.
End lossless.

(** Stored position counts, with or without positions. *)
Lemma index_docs_pos_count pos b seg r : index_docs pos b = Ok seg -> r ∈ seg.1 ->
  s_position_count r = N.of_nat (size (s_positions r)).
Proof.
  unfold index_docs. destruct (rfold _ _ _) as [a|e]; [|done]. cbn. destruct b as [|[first r0] b0]; [done|].
  intros H Hr. injection H as <-. cbn in Hr. apply elem_of_list_fmap in Hr as (kv & -> & _). done.
Qed.
Lemma rebuilt_pos_count bsz pos c bs segs d :
  bs ≡ₚ batches bsz c -> Forall2 (fun b seg => index_docs pos b = Ok seg) bs segs ->
  rebuild_conditions (fst <$> c) segs d -> forall f first row,
  position_index (rebuilt (fst <$> c) segs d) !! (f, first) = Some row ->
  p_count row = N.of_nat (size (p_positions row)).
Proof.
  intros Hp HF Hcond f first row.
  cbn [rebuilt position_index set_changed_cluster write_field_summary set_field_summary refresh_docs_counts set_feature_cluster].
  rewrite <- elem_of_list_to_map by apply (rc_pos _ _ _ Hcond). unfold position_rows at 1.
  rewrite elem_of_list_omap. intros (r & Hr & He). destruct (N.ltb_spec 0 (s_position_count r)) as [Hlt|]; [|done].
  destruct (find_feature _ (seg_key r)) as [g|] eqn:Ef; [|done]. cbn in He. injection He as -> <- <-. cbn.
  apply elem_of_concat in Hr as (l & Hl & Hin).
  apply elem_of_list_fmap in Hin as (seg & -> & Hseg). apply elem_of_list_lookup in Hseg as [i Hi].
  destruct (Forall2_lookup_r _ _ _ _ _ HF Hi) as (b & Hb & Hok). by eapply index_docs_pos_count.
Qed.
