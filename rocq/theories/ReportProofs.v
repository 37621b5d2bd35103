(** ReportProofs.v: proofs about reports. *)
From Verif Require Export SpecReports RenderProofs SampleProofs WebProofs.

Lemma sampled_spec q sample g : (forall k, sample = Some k -> (0 <= k)%Z) ->
  exists s, sampled q sample g = Ok s /\ s ⊆ q /\ size s = sample_of sample (size q).
Proof.
  intros H. destruct sample as [k|]; cbn; [|by exists q].
  apply sample_bitmap_spec. by apply H.
Qed.

Lemma join_window_ok sep l : (forall x, Some x ∈ l -> exists s, x = VText s) ->
  join_window sep l = Ok (String.concat sep (texts l)).
Proof.
  intros H. unfold join_window.
  assert (rtraverse (fun v => match v with VText s => Ok s | VInt _ => Err TypeError end) (omap id l) = Ok (texts l)) as ->; [|done].
  induction l as [|[x|] l IH]; [done| |].
  - destruct (H x ltac:(by left)) as [s ->]. cbn. rewrite IH; [done|]. intros; apply H. by right.
  - cbn. apply IH. intros; apply H. by right.
Qed.

Lemma join_window_int sep l n : Some (VInt n) ∈ l -> join_window sep l = Err TypeError.
Proof.
  intros H. unfold join_window.
  assert (rtraverse (fun v => match v with VText s => Ok s | VInt _ => Err TypeError end) (omap id l) = Err TypeError) as ->; [|done].
  induction l as [|x l IH]; [by apply elem_of_nil in H|]. apply elem_of_cons in H as [<-|H]; [done|].
  destruct x as [[z|s]|]; cbn; [done| |by apply IH]. by rewrite IH.
Qed.

Lemma join_window_cases sep l : (exists s, join_window sep l = Ok s) \/ join_window sep l = Err TypeError.
Proof.
  destruct (decide (Exists (fun x => match x with Some (VInt _) => true | _ => false end = true) l)) as [He|Hn].
  - right. apply Exists_exists in He as ([[n|]|] & Hin & ?); try done. by eapply join_window_int.
  - left. eexists. apply join_window_ok. intros [n|s] Hin; [|by eexists]. destruct Hn. apply Exists_exists. by eexists.
Qed.

Lemma around_sub {A} (l : list A) w i x : x ∈ around l w i -> x ∈ l.
Proof. unfold around. intros (j & _ & H)%elem_of_list_omap. by eapply elem_of_list_lookup_2. Qed.
Lemma around_self {A} (l : list A) w i x : l !! i = Some x -> x ∈ around l w i.
Proof.
  intros H. unfold around. apply elem_of_list_omap. exists i. split; [|done]. apply elem_of_list_filter.
  split; [lia|]. apply elem_of_seq. apply lookup_lt_Some in H. lia.
Qed.

Definition join_all (sep : string) (ws : list (list (option value))) : list string :=
  (fun win => String.concat sep (texts win)) <$> ws.
Definition joined_field sep (x : string * gmap value (list (list (option value)))) : string * gmap value (list string) :=
  (x.1, fmap (M:=gmap value) (join_all sep) x.2).

Lemma field_joined sep (x : string * gmap value (list (list (option value)))) :
  (forall v ws win y, x.2 !! v = Some ws -> win ∈ ws -> Some y ∈ win -> exists s, y = VText s) ->
  (let '(field, m) := x in
   rmap (fun l => (field, list_to_map l)) (rtraverse (fun '(v, ws) =>
        rmap (fun l => (v, l)) (rtraverse (join_window sep) ws)) (map_to_list m))) = Ok (joined_field sep x).
Proof.
  destruct x as [F m]. cbn [snd]. intros H.
  rewrite (rtraverse_map _ (fun vw : value * list (list (option value)) => (vw.1, (fun win => String.concat sep (texts win)) <$> vw.2))).
  - cbn [rmap rbind]. unfold joined_field. cbn [fst snd]. do 2 f_equal.
    rewrite <- (list_to_map_to_list m) at 2.
    pose proof (NoDup_fst_map_to_list m) as Hnd.
    induction (map_to_list m) as [|[v ws] l IH]; [cbn; by rewrite fmap_empty|].
    cbn in Hnd |- *. apply NoDup_cons in Hnd as [_ Hnd]. rewrite IH by done. by rewrite fmap_insert.
  - intros [v ws] Hin. apply elem_of_map_to_list in Hin. cbn [fst snd].
    rewrite (rtraverse_map _ (fun win => String.concat sep (texts win))); [done|].
    intros win Hw. apply join_window_ok. intros y Hy. by eapply H.
Qed.

Lemma concordance_ok sep d c q refs w sample g :
  keys_distinct d -> available d c q -> (forall r, r ∈ refs -> exists F v, names d r F v) ->
  (forall k, sample = Some k -> (0 <= k)%Z) -> textual d c q refs ->
  exists out, concordance_table sep d c q refs w sample g = Ok out /\
    NoDup out.*1.*2 /\ (forall doc, doc ∈ out.*1.*2 -> doc ∈ q) /\ length out = sample_of sample (size q) /\
    forall k doc lines, (k, doc, lines) ∈ out ->
      doc_key d !! doc = Some k /\ exists fs, corpus_lookup c k = Some (Ok fs) /\
      concordance_lines d refs sep w fs lines.
Proof.
  intros Hk Ha Hr Hs Ht. unfold concordance_table, sampled_feature_windows.
  destruct (sampled_spec q sample g Hs) as (s & -> & Hsub & Hsz). cbn [rbind].
  destruct (feature_windows_spec d c s refs w Hk) as (out & -> & Hnd & Hdom & Hout).
  { intros doc Hd. apply Ha. by apply Hsub. }
  { exact Hr. }
  cbn [rbind].
  rewrite (rtraverse_map _ (fun x : value * N * list (string * gmap value (list (list (option value)))) =>
    (x.1, joined_field sep <$> x.2))).
  - eexists. split; [done|].
    assert (((fun x : value * N * list (string * gmap value (list (list (option value)))) => (x.1, joined_field sep <$> x.2)) <$> out).*1 = out.*1) as E1.
    { rewrite <- list_fmap_compose. by apply list_fmap_ext. }
    rewrite E1. split_and!; [done| | |].
    + intros doc Hd. apply Hsub. by apply Hdom.
    + rewrite fmap_length. rewrite <- Hsz.
      assert (size (list_to_set out.*1.*2 : gset N) = length out) as <-.
      { rewrite size_list_to_set by done. by rewrite !fmap_length. }
      f_equal. apply set_eq. intros doc. rewrite elem_of_list_to_set. symmetry. apply Hdom.
    + intros k doc lines Hin. apply elem_of_list_fmap in Hin as ([[k' doc'] wins] & [= -> -> ->] & Hin).
      destruct (Hout _ _ _ Hin) as (Hdk & fs & Hfs & Hwins). split; [done|]. exists fs. split; [done|].
      intros F v ls. split.
      * intros (m & Hm & Hls). apply elem_of_list_fmap in Hm as ([F' m'] & [= -> ->] & Hm).
        apply lookup_fmap_Some in Hls as (ws & <- & Hws).
        destruct (proj1 (Hwins F' v ws)) as (H1 & fv & Hfv & Hc); [by exists m'|].
        split; [done|]. exists fv. split; [done|]. destruct fv as [vs|vs].
        -- destruct Hc as [? ->]. split; [done|]. unfold join_all. by rewrite <- list_fmap_compose.
        -- destruct Hc as [? ->]. done.
      * intros (H1 & fv & Hfv & Hc).
        assert (exists ws, ls = (fun win => String.concat sep (texts win)) <$> ws /\
          match fv with Seq vs => positions_of vs (Some v) <> [] /\ ws = around vs w <$> positions_of vs (Some v)
                      | Coll vs => Some v ∈ vs /\ ws = [] end) as (ws & -> & Hws).
        { destruct fv as [vs|vs]; destruct Hc as [? ->].
          - eexists. split; [|split; [done|reflexivity]]. by rewrite <- list_fmap_compose.
          - exists []. done. }
        destruct (proj2 (Hwins F v ws)) as (m & Hm & Hmv); [split; [done|]; exists fv; split; [done|]; by destruct fv|].
        exists (fmap (M:=gmap value) (join_all sep) m). split.
        -- apply elem_of_list_fmap. by exists (F, m).
        -- by rewrite lookup_fmap, Hmv.
  - intros [[k doc] wins] Hin. cbn [fst snd]. destruct (Hout _ _ _ Hin) as (Hdk & fs & Hfs & Hwins).
    rewrite (rtraverse_map _ (joined_field sep)); [done|].
    intros [F m] HFm. apply (field_joined sep (F, m)). cbn [snd]. intros v ws win y Hv Hw Hy.
    destruct (proj1 (Hwins F v ws)) as (H1 & fv & Hfv & Hc); [by exists m|].
    destruct fv as [vs|vs].
    + destruct Hc as [_ ->]. apply elem_of_list_fmap in Hw as (i & -> & _). apply around_sub in Hy.
      eapply (Ht doc k fs F v vs y); try done. apply Hsub, Hdom. apply elem_of_list_fmap. exists (k, doc). split; [done|].
      apply elem_of_list_fmap. by exists (k, doc, wins).
    + destruct Hc as [_ ->]. by apply elem_of_nil in Hw.
Qed.



Lemma rtraverse_error {A B} (f : A -> res B) l e : (forall x, x ∈ l -> (exists y, f x = Ok y) \/ f x = Err e) ->
  (exists x, x ∈ l /\ f x = Err e) -> rtraverse f l = Err e.
Proof.
  induction l as [|x l IH]; intros H (y & Hy & E); [by apply elem_of_nil in Hy|]. cbn [rtraverse].
  apply elem_of_cons in Hy as [->|Hy]; [by rewrite E|].
  destruct (H x ltac:(by left)) as [[z ->]| ->]; [|done]. cbn [rbind].
  rewrite IH; [done|intros; apply H; by right|by exists y].
Qed.
Lemma rtraverse_cases {A B} (f : A -> res B) l e : (forall x, x ∈ l -> (exists y, f x = Ok y) \/ f x = Err e) ->
  (exists ys, rtraverse f l = Ok ys) \/ rtraverse f l = Err e.
Proof.
  induction l as [|x l IH]; intros H; [left; by eexists|]. cbn [rtraverse].
  destruct (H x ltac:(by left)) as [[y ->]| ->]; [|by right]. cbn [rbind].
  destruct IH as [[ys ->]| ->]; [intros; apply H; by right|left; by eexists|by right].
Qed.

(** An integer in a window makes the whole call raise. *)
Lemma concordance_int sep d c q refs w :
  keys_distinct d -> available d c q -> (forall r, r ∈ refs -> exists F v, names d r F v) ->
  (exists doc k fs F v vs i n, doc ∈ q /\ doc_key d !! doc = Some k /\ corpus_lookup c k = Some (Ok fs) /\
     (exists r, r ∈ refs /\ names d r F v) /\ (F, Seq vs) ∈ fs /\
     i ∈ positions_of vs (Some v) /\ Some (VInt n) ∈ around vs w i) ->
  forall g, concordance_table sep d c q refs w None g = Err TypeError.
Proof.
  intros Hk Ha Hr (doc & k & fs & F & v & vs & i & n & Hd & Hdk & Hfs & Hv & HF & Hi & Hn) g.
  unfold concordance_table, sampled_feature_windows. cbn [sampled rbind].
  destruct (feature_windows_spec d c q refs w Hk Ha Hr) as (out & -> & Hnd & Hdom & Hout). cbn [rbind].
  apply rtraverse_error.
  - intros [[k' doc'] wins] Hin.
    match goal with |- context [rtraverse ?f wins] => destruct (rtraverse_cases f wins TypeError) as [[y ->]| ->] end;
      [|left; by eexists|by right].
    intros [F' m] Hm.
    match goal with |- context [rtraverse ?f (map_to_list m)] => destruct (rtraverse_cases f (map_to_list m) TypeError) as [[y ->]| ->] end;
      [|left; by eexists|by right].
    intros [v' ws] Hv'.
    destruct (rtraverse_cases (join_window sep) ws TypeError) as [[y ->]| ->]; [|left; by eexists|by right].
    intros win _. apply join_window_cases.
  - apply Hdom in Hd as Hd'. apply elem_of_list_fmap in Hd' as ([k' doc'] & -> & Hd'). cbn [snd] in *.
    apply elem_of_list_fmap in Hd' as ([[k2 doc2] wins] & [= -> ->] & Hin).
    exists (k2, doc2, wins). split; [done|].
    destruct (Hout _ _ _ Hin) as (Hdk2 & fs2 & Hfs2 & Hw). rewrite Hdk in Hdk2. injection Hdk2 as <-.
    rewrite Hfs in Hfs2. injection Hfs2 as <-.
    destruct (proj2 (Hw F v (around vs w <$> positions_of vs (Some v)))) as (m & Hm & Hmv).
    { split; [done|]. exists (Seq vs). split; [done|]. split; [|done]. intros E. rewrite E in Hi. by apply elem_of_nil in Hi. }
    match goal with |- rmap _ (rtraverse ?f wins) = _ => assert (rtraverse f wins = Err TypeError) as ->; [|done] end.
    apply rtraverse_error.
    + intros [F' m'] Hm'.
      match goal with |- context [rtraverse ?f (map_to_list m')] => destruct (rtraverse_cases f (map_to_list m') TypeError) as [[y ->]| ->] end;
        [|left; by eexists|by right].
      intros [v' ws] Hv'.
      destruct (rtraverse_cases (join_window sep) ws TypeError) as [[y ->]| ->]; [|left; by eexists|by right].
      intros win _. apply join_window_cases.
    + exists (F, m). split; [done|].
      match goal with |- rmap _ (rtraverse ?f (map_to_list m)) = _ => assert (rtraverse f (map_to_list m) = Err TypeError) as ->; [|done] end.
      apply rtraverse_error.
      * intros [v' ws] Hv'.
        destruct (rtraverse_cases (join_window sep) ws TypeError) as [[y ->]| ->]; [|left; by eexists|by right].
        intros win _. apply join_window_cases.
      * eexists (v, _). split; [by apply elem_of_map_to_list|].
        rewrite (rtraverse_error (join_window sep) _ TypeError); [done| |].
        -- intros win _. apply join_window_cases.
        -- exists (around vs w i). split; [|by eapply join_window_int]. apply elem_of_list_fmap. by exists i.
Qed.

(** ** Sampled passages *)
Lemma sample_passages_spec scored k g :
  sample_passages scored k g ⊆+ scored /\ length (sample_passages scored k g) = min (Z.to_nat k) (length scored).
Proof. apply pick_spec. Qed.
