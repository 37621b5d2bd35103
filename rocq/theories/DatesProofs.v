(** DatesProofs.v: ISO dates sort like the dates they stand for. *)
From Verif Require Import SpecDates UtilitiesProofs QueryProofs LookupProofs PropertiesQuery.

Lemma sapp_assoc (a b c : string) : ((a ++ b) ++ c = a ++ (b ++ c))%string.
Proof.
  induction a as [|x a IH]; [reflexivity|]. change (String x ((a ++ b) ++ c) = String x (a ++ (b ++ c))). by rewrite IH.
Qed.

Lemma string_le_prefix p x y : string_le (p ++ x) (p ++ y) = string_le x y.
Proof.
  induction p as [|a p IH]; [reflexivity|]. change (string_le (String a (p ++ x)) (String a (p ++ y)) = string_le x y).
  cbn [string_le]. cbv zeta. rewrite N.ltb_irrefl. exact IH.
Qed.

Lemma digit_code n : (n < 10)%N -> Ascii.N_of_ascii (digit_of n) = (48 + n)%N.
Proof. intros H. unfold digit_of. apply Ascii.N_ascii_embedding. lia. Qed.

Lemma padded_app w n x : (padded (S w) n ++ x = padded w (n / 10) ++ String (digit_of (n mod 10)) x)%string.
Proof. cbn [padded]. by rewrite sapp_assoc. Qed.

Lemma padded_le w : forall n m x y, (n < 10 ^ N.of_nat w)%N -> (m < 10 ^ N.of_nat w)%N ->
  string_le (padded w n ++ x) (padded w m ++ y) = ((n <? m) || ((n =? m) && string_le x y))%N.
Proof.
  induction w as [|w IH]; intros n m x y Hn Hm.
  - cbn in Hn, Hm. replace n with 0%N by lia. replace m with 0%N by lia. reflexivity.
  - rewrite !padded_app. rewrite Nat2N.inj_succ, N.pow_succ_r' in Hn, Hm.
    rewrite IH by (apply N.div_lt_upper_bound; lia).
    cbn [string_le]. cbv zeta. rewrite !digit_code by (apply N.mod_lt; lia).
    pose proof (N.div_mod n 10 ltac:(lia)) as En. pose proof (N.div_mod m 10 ltac:(lia)) as Em.
    pose proof (N.mod_lt n 10 ltac:(lia)). pose proof (N.mod_lt m 10 ltac:(lia)).
    remember (n mod 10)%N as d eqn:E1. remember (m mod 10)%N as c eqn:E2.
    remember (n / 10)%N as b eqn:E3. remember (m / 10)%N as a eqn:E4. clear E1 E2 E3 E4 IH Hn Hm.
    destruct (N.ltb_spec b a), (N.eqb_spec b a), (N.ltb_spec (48 + d) (48 + c)), (N.ltb_spec (48 + c) (48 + d)),
      (N.ltb_spec n m), (N.eqb_spec n m); cbn; try reflexivity; lia.
Qed.

Definition nice_zone (z : string) : Prop :=
  match z with EmptyString => True | String a _ => (Ascii.N_of_ascii a < 46)%N end.

Lemma offset_nice z : utc_offset z -> nice_zone z.
Proof. intros [->|(r & [->| ->])]; [exact I|reflexivity|reflexivity]. Qed.

Lemma isoformat_le sep z a b : nice_zone z -> calendar a -> calendar b ->
  string_le (isoformat sep a ++ z) (isoformat sep b ++ z) = true <-> datetime_le a b.
Proof.
  intros Hz Ha Hb. unfold isoformat. rewrite !sapp_assoc.
  unfold calendar in Ha, Hb. destruct a as [y m d h mi s u], b as [y' m' d' h' mi' s' u'].
  cbn [dt_year dt_month dt_day dt_hour dt_minute dt_second dt_micro] in *.
  rewrite padded_le by (cbn; lia). rewrite string_le_prefix.
  rewrite padded_le by (cbn; lia). rewrite string_le_prefix.
  rewrite padded_le by (cbn; lia). rewrite string_le_prefix.
  rewrite padded_le by (cbn; lia). rewrite string_le_prefix.
  rewrite padded_le by (cbn; lia). rewrite string_le_prefix.
  rewrite padded_le by (cbn; lia).
  assert (string_le ((if (u =? 0)%N then "" else "." ++ padded 6 u) ++ z) ((if (u' =? 0)%N then "" else "." ++ padded 6 u') ++ z) = true
          <-> (u <= u')%N) as Hu.
  { destruct (N.eqb_spec u 0) as [->|Hu], (N.eqb_spec u' 0) as [->|Hu'].
    - split; [lia|]. intros _. change ("" ++ z)%string with z. destruct (string_le_total z z); done.
    - split; [lia|]. intros _. change ("" ++ z)%string with z. destruct z as [|c z]; [reflexivity|].
      cbn [nice_zone] in Hz. rewrite sapp_assoc. change (string_le (String c z) (String "." (padded 6 u' ++ String c z)) = true).
      cbn [string_le]. cbv zeta.
      change (Ascii.N_of_ascii ".") with 46%N. destruct (N.ltb_spec (Ascii.N_of_ascii c) 46); [reflexivity|lia].
    - split; [|lia]. change ("" ++ z)%string with z. rewrite sapp_assoc.
      change (string_le (String "." (padded 6 u ++ z)) z = true -> (u <= 0)%N). destruct z as [|c z]; [discriminate|].
      cbn [nice_zone] in Hz. cbn [string_le]. cbv zeta.
      change (Ascii.N_of_ascii ".") with 46%N.
      destruct (N.ltb_spec 46 (Ascii.N_of_ascii c)); [lia|]. destruct (N.ltb_spec (Ascii.N_of_ascii c) 46); [discriminate|lia].
    - rewrite !sapp_assoc, string_le_prefix, padded_le by (cbn; lia).
      destruct (string_le_total z z) as [Hzz|Hzz]; rewrite Hzz;
        rewrite andb_true_r, orb_true_iff, N.ltb_lt, N.eqb_eq; lia. }
  unfold datetime_le. cbn [dt_year dt_month dt_day dt_hour dt_minute dt_second dt_micro].
  repeat first [rewrite orb_true_iff | rewrite andb_true_iff | rewrite N.ltb_lt | rewrite N.eqb_eq]. rewrite Hu. tauto.
Qed.

Lemma datetime_le_antisym a b : datetime_le a b -> datetime_le b a -> a = b.
Proof. destruct a, b. unfold datetime_le. cbn. intros H1 H2. f_equal; lia. Qed.
Lemma datetime_le_refl a : datetime_le a a.
Proof. unfold datetime_le. lia. Qed.

Lemma isoformat_inj sep z a b : nice_zone z -> calendar a -> calendar b ->
  (isoformat sep a ++ z = isoformat sep b ++ z)%string -> a = b.
Proof.
  intros Hz Ha Hb E. apply datetime_le_antisym; apply (isoformat_le sep z); try assumption; rewrite E;
    destruct (string_le_total (isoformat sep b ++ z) (isoformat sep b ++ z)); done.
Qed.

Lemma calendar_valid d : calendar d -> valid_datetime d.
Proof. unfold calendar, valid_datetime. lia. Qed.
Lemma calendar_round d g : calendar d -> calendar (round_datetime d g).
Proof. unfold calendar. destruct d, g; cbn; lia. Qed.
Lemma round_idem d g : round_datetime (round_datetime d g) g = round_datetime d g.
Proof. by destruct d, g. Qed.

Lemma bucket_round g t t' : calendar t -> same_bucket g (round_datetime t g) t' <-> round_datetime t g = round_datetime t' g.
Proof.
  intros H. destruct (round_datetime_spec (round_datetime t g) g (calendar_valid _ (calendar_round _ g H))) as (_ & _ & _ & E).
  rewrite E, round_idem. done.
Qed.

Lemma vtext_inj a b : VText a = VText b -> a = b.
Proof. congruence. Qed.

Lemma choose_list {A B} (P : A -> B -> Prop) (l : list A) : (forall a, a ∈ l -> exists b, P a b) -> exists bs, Forall2 P l bs.
Proof.
  induction l as [|a l IH]; intros H; [by exists []|].
  destruct (H a (elem_of_list_here _ _)) as [b Hb]. destruct IH as [bs Hbs]; [intros; apply H; by right|].
  exists (b :: bs). by constructor.
Qed.

Section timeline.
  Context (d : db) (F : string) (g : granularity) (z : string) (made : N -> datetime -> Prop).
  Context (Hd : references_ok d) (Hu : features_unique (inverted_index d)) (Hz : nice_zone z).
  Context (Hmade : forall doc t, made doc t -> calendar t).
  Context (Hget : forall v, exists docs, getitem d (KFeature (F, v)) = Some docs /\
    forall doc, doc ∈ docs <-> exists t, made doc t /\ v = VText (isoformat "T" (round_datetime t g) ++ z)).

  Lemma row_docs f row doc : inverted_index d !! f = Some row -> f_field row = F ->
    doc ∈ f_doc_ids row <-> exists t, made doc t /\ f_value row = VText (isoformat "T" (round_datetime t g) ++ z).
  Proof.
    intros Hf HF. destruct (Hget (f_value row)) as (docs & Hg & Hiff). rewrite <- Hiff.
    unfold getitem in Hg. rewrite (proj2 (find_feature_iff _ (F, f_value row) f Hu)) in Hg.
    - rewrite Hf in Hg. by injection Hg as <-.
    - exists row. split; [exact Hf|]. by rewrite <- HF.
  Qed.

  Lemma listed_row v doc t : made doc t -> v = VText (isoformat "T" (round_datetime t g) ++ z) ->
    exists f row, inverted_index d !! f = Some row /\ f_field row = F /\ f_value row = v /\ f_doc_ids row ≠ ∅.
  Proof.
    intros Ht Ev. destruct (Hget v) as (docs & Hg & Hiff). assert (doc ∈ docs) as Hin by (apply Hiff; eauto).
    unfold getitem in Hg. destruct (find_feature (inverted_index d) (F, v)) as [f|] eqn:Ef.
    - apply (find_feature_iff _ _ f Hu) in Ef as (row & Hf & Ek). rewrite Hf in Hg. injection Hg as <-.
      unfold row_key in Ek. injection Ek as <- <-. exists f, row. split_and!; [done..|]. set_solver.
    - injection Hg as <-. set_solver.
  Qed.

  Lemma timeline_holds queries : is_timeline made g z queries (intersect_queries_with_field d queries F).
  Proof.
    destruct (intersect_queries_with_field d queries F) as [[values totals] overlaps] eqn:E.
    destruct (C41_field_intersections d queries F values totals overlaps Hd Hu E) as (Hs & Hv & Hlen & Ht & Hq & Ho).
    destruct (choose_list (fun v b => v = VText (isoformat "T" b ++ z) /\ exists doc t, made doc t /\ b = round_datetime t g) values) as [periods Hp].
    { intros v Hin. apply Hv in Hin as (f & row & Hf & HF & <- & Hne). apply set_choose_L in Hne as [doc Hdoc].
      apply (row_docs f row doc Hf HF) in Hdoc as (t & Ht' & Ev). exists (round_datetime t g). split; [exact Ev|eauto]. }
    assert (values = (fun b => VText (isoformat "T" b ++ z)) <$> periods) as Ev.
    { clear -Hp. induction Hp as [|v b vs bs [-> _] _ IH]; [reflexivity|]. cbn. by rewrite IH at 1. }
    assert (forall b, b ∈ periods -> exists doc t, made doc t /\ b = round_datetime t g) as Hb.
    { clear -Hp. induction Hp as [|v b vs bs [_ H] _ IH]; intros x Hx; [by apply elem_of_nil in Hx|].
      apply elem_of_cons in Hx as [->|Hx]; [exact H|by apply IH]. }
    exists periods. split_and!.
    - exact Ev.
    - rewrite Ev in Hs. clear -Hs Hb Hz Hmade. induction periods as [|b bs IH]; [constructor|].
      cbn in Hs. apply StronglySorted_inv in Hs as [Hs Hall]. constructor.
      + apply IH; [exact Hs|]. intros x Hx. apply Hb. by right.
      + apply list.Forall_forall. intros x Hx. pose proof (proj1 (list.Forall_forall _ _) Hall) as Hall2.
        destruct (Hall2 (VText (isoformat "T" x ++ z))) as [Hle Hne]; [apply elem_of_list_fmap; by exists x|].
        destruct (Hb b) as (doc & t & Ht & ->); [by left|]. destruct (Hb x) as (doc' & t' & Ht' & ->); [by right|].
        split; [|intros E; apply Hne; by rewrite E].
        apply (isoformat_le "T" z) in Hle; [exact Hle|exact Hz|apply calendar_round; eauto..].
    - rewrite Hlen, Ev. apply fmap_length.
    - intros doc t Hd'. destruct (listed_row _ doc t Hd' eq_refl) as (f & row & H). destruct H as (H1 & H2 & H3 & H4).
      assert (VText (isoformat "T" (round_datetime t g) ++ z) ∈ values) as Hin by (apply Hv; eauto 10).
      rewrite Ev in Hin. apply elem_of_list_fmap in Hin as (b & Eb & Hin). apply vtext_inj in Eb.
      destruct (Hb b Hin) as (doc' & t' & Ht' & ->). exists (round_datetime t' g). split; [exact Hin|].
      apply bucket_round; [eauto|]. symmetry. apply (isoformat_inj "T" z) in Eb; [exact Eb|exact Hz|apply calendar_round; eauto..].
    - intros Hne. apply Hq. rewrite Ev. intros E'. apply fmap_nil_inv in E'. by apply Hne.
    - intros i b Hi. assert (values !! i = Some (VText (isoformat "T" b ++ z))) as Hvi by (rewrite Ev, list_lookup_fmap, Hi; reflexivity).
      assert (VText (isoformat "T" b ++ z) ∈ values) as Hin by by eapply elem_of_list_lookup_2.
      apply Hv in Hin as (f & row & Hf & HF & HV & Hne). exists (f_doc_ids row). split_and!.
      + exact Hne.
      + intros doc. rewrite (row_docs f row doc Hf HF), HV.
        destruct (Hb b) as (doc0 & t0 & Ht0 & ->); [by eapply elem_of_list_lookup_2|].
        split; intros (t & Ht1 & H); exists t; (split; [exact Ht1|]).
        * apply vtext_inj in H. apply bucket_round; [eauto|]. apply (isoformat_inj "T" z) in H; [exact H|exact Hz|apply calendar_round; eauto..].
        * apply bucket_round in H; [|eauto]. by rewrite H.
      + exact (Ht i _ f row Hvi Hf HF HV).
      + intros j name q Hj. assert (values <> []) as Hnn by (intros E'; rewrite E' in Hvi; discriminate Hvi).
        specialize (Hq Hnn). assert (overlaps.*1 !! j = Some name) as Hoj by (rewrite Hq, list_lookup_fmap, Hj; reflexivity).
        apply list_lookup_fmap_inv in Hoj as ([name' counts] & -> & Hoj). exists counts. split; [exact Hoj|].
        destruct (Ho j _ _ Hoj) as (_ & q' & Hq' & Hc). cbn in Hq'. assert (q' = q) as -> by congruence.
        exact (Hc i _ f row Hvi Hf HF HV).
  Qed.
End timeline.
