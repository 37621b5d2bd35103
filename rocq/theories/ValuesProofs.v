(** ValuesProofs.v: renaming values does not change what the worker does. *)
From Verif Require Import SpecValues DatesProofs BaseProofs IndexingProofs RebuildProofs IndexCalls.

Definition ren_field (g : value -> value) (x : field_values) : field_values :=
  match x with Seq vs => Seq ((fmap (M := option) g) <$> vs) | Coll vs => Coll ((fmap (M := option) g) <$> vs) end.
Definition ren_doc (g : value -> value) (r : res features) : res features :=
  rmap (fmap (M := list) (fun fv => (fv.1, ren_field g fv.2))) r.
Definition ren_batch (g : value -> value) (b : batch) : batch := (fun d => (d.1, ren_doc g d.2)) <$> b.
Definition ren_corpus (g : value -> value) (c : corpus) : corpus := (fun kr => (kr.1, ren_doc g kr.2)) <$> c.
Definition ren_row (g : value -> value) (r : seg_row) : seg_row :=
  SegRow (s_field r) (g (s_value r)) (s_docs_count r) (s_docs r) (s_position_count r) (s_positions r) (s_first r).

Section ren.
  Context (g : value -> value) (D : string -> value -> Prop).
  Context (Hinj : forall f v w, D f v -> D f w -> g v = g w -> v = w).

  Definition related (a a' : accum) : Prop :=
    a_starts a = a_starts a' /\
    (forall f v, D f v -> a_batch a' !! (f, g v) = a_batch a !! (f, v)) /\
    (forall f v, is_Some (a_batch a !! (f, v)) -> D f v) /\
    (forall f v', is_Some (a_batch a' !! (f, v')) -> exists v, D f v /\ v' = g v).
  Definition rrel (r r' : res accum) : Prop :=
    match r, r' with Ok a, Ok a' => related a a' | Err e, Err e' => e = e' | _, _ => False end.

  Lemma related_pair a a' f v : related a a' -> D f v -> get_pair (f, g v) a' = get_pair (f, v) a.
  Proof. intros (_ & H & _) Hd. unfold get_pair. by rewrite H. Qed.
  Lemma related_insert a a' f v x : related a a' -> D f v ->
    related (Accum (<[(f, v) := x]> (a_batch a)) (a_starts a)) (Accum (<[(f, g v) := x]> (a_batch a')) (a_starts a')).
  Proof.
    intros (H1 & H2 & H3 & H4) Hd. split_and!; [done| | |]; cbn.
    - intros f' w Hw. destruct (decide ((f, v) = (f', w))) as [[= <- <-]|Hne]; [by rewrite !lookup_insert|].
      rewrite !lookup_insert_ne; [by apply H2|done|]. intros [= <- E]. apply Hne. f_equal. by apply (Hinj f).
    - intros f' w. destruct (decide ((f, v) = (f', w))) as [[= <- <-]|Hne]; [done|]. rewrite lookup_insert_ne by done. apply H3.
    - intros f' w. destruct (decide ((f, g v) = (f', w))) as [[= <- <-]|Hne]; [eauto|]. rewrite lookup_insert_ne by done. apply H4.
  Qed.
  Lemma related_starts a a' st : related a a' -> related (Accum (a_batch a) st) (Accum (a_batch a') st).
  Proof. intros (H1 & H2 & H3 & H4). by split_and!. Qed.

  Lemma related_add_positions f vs : forall p a a', related a a' -> (forall v, Some v ∈ vs -> D f v) ->
    rrel (add_positions f vs p a) (add_positions f ((fmap (M := option) g) <$> vs) p a').
  Proof.
    induction vs as [|[v|] vs IH]; intros p a a' H Hd; [done| |done]. cbn. apply IH; [|intros; apply Hd; by right].
    unfold add_position. assert (D f v) as Hv by (apply Hd; left). rewrite (related_pair a a' f v H Hv).
    replace (a_starts a') with (a_starts a') by done. by apply related_insert.
  Qed.
  Lemma related_add_docs f doc vs : forall a a', related a a' -> (forall v, v ∈ vs -> D f v) ->
    related (foldl (add_doc f doc) a vs) (foldl (add_doc f doc) a' (g <$> vs)).
  Proof.
    induction vs as [|v vs IH]; intros a a' H Hd; [done|]. cbn. apply IH; [|intros; apply Hd; by right].
    unfold add_doc. assert (D f v) as Hv by (apply Hd; left). rewrite (related_pair a a' f v H Hv). by apply related_insert.
  Qed.
  Lemma omap_ren (vs : list (option value)) : omap id ((fmap (M := option) g) <$> vs) = g <$> omap id vs.
  Proof. induction vs as [|[v|] vs IH]; [done| |done]. cbn. by rewrite IH. Qed.

  Lemma related_field pos doc a a' fv : related a a' -> (forall v, Some v ∈ values_of fv.2 -> D fv.1 v) ->
    rrel (index_field pos doc a fv) (index_field pos doc a' (fv.1, ren_field g fv.2)).
  Proof.
    destruct fv as [f x]. cbn [fst snd]. intros H Hd.
    assert (forall a a', related a a' -> related (foldl (add_doc f doc) a (omap id (values_of x)))
       (foldl (add_doc f doc) a' (omap id (values_of (ren_field g x))))) as Hfin.
    { intros b b' Hb. replace (omap id (values_of (ren_field g x))) with (g <$> omap id (values_of x)) by (destruct x; cbn; by rewrite omap_ren).
      apply related_add_docs; [done|]. intros v Hv. apply Hd. by apply elem_of_omap_id. }
    unfold index_field. destruct pos, x as [vs|vs]; cbn [ren_field] in *; try (apply Hfin; done).
    unfold get_starts. rewrite <- (proj1 H). destruct (default (∅, {[0%N]}) (a_starts a !! f)) as [docs starts].
    pose proof (related_add_positions f vs (bm_last starts) (Accum (a_batch a) (<[f:=(docs, starts)]> (a_starts a)))
      (Accum (a_batch a') (<[f:=(docs, starts)]> (a_starts a))) (related_starts a a' _ H) Hd) as Hp.
    revert Hp. match goal with |- rrel ?x ?y -> _ => destruct x as [b|], y as [b'|]; cbn [rrel rbind]; try done end.
    intros Hb. destruct vs as [|v vs]; [done|]. rewrite <- (proj1 Hb). rewrite fmap_length.
    cbn [fmap list_fmap]. apply (Hfin (Accum (a_batch b) _) (Accum (a_batch b') _)). by apply related_starts.
  Qed.
  Lemma related_fields pos doc fs : forall a a', related a a' -> (forall f x v, (f, x) ∈ fs -> Some v ∈ values_of x -> D f v) ->
    rrel (rfold (index_field pos doc) fs a) (rfold (index_field pos doc) ((fun fv => (fv.1, ren_field g fv.2)) <$> fs) a').
  Proof.
    induction fs as [|fv fs IH]; intros a a' H Hd; [done|]. cbn [rfold fmap list_fmap].
    assert (forall v, Some v ∈ values_of fv.2 -> D fv.1 v) as Hv by (intros v Hv; eapply Hd; [|exact Hv]; destruct fv; left).
    pose proof (related_field pos doc a a' fv H Hv) as Hf. revert Hf.
    match goal with |- rrel ?x ?y -> _ => destruct x as [b|], y as [b'|]; cbn [rrel rbind]; try done end.
    intros Hb. apply IH; [done|]. intros f x v Hi. apply Hd. by right.
  Qed.
  Definition batch_in (b : batch) : Prop := forall n fs f x v, (n, Ok fs) ∈ b -> (f, x) ∈ fs -> Some v ∈ values_of x -> D f v.
  Lemma related_docs pos b : forall a a', related a a' -> batch_in b ->
    rrel (rfold (index_doc pos) b a) (rfold (index_doc pos) (ren_batch g b) a').
  Proof.
    induction b as [|[n r] b IH]; intros a a' H Hd; [done|]. cbn [rfold ren_batch fmap list_fmap].
    unfold index_doc at 1 3. cbn [fst snd]. destruct r as [fs|e]; [|done]. cbn [ren_doc rmap rbind].
    assert (forall f x v, (f, x) ∈ fs -> Some v ∈ values_of x -> D f v) as Hv by (intros f x v; eapply Hd; left).
    pose proof (related_fields pos n fs a a' H Hv) as Hf. revert Hf.
    match goal with |- rrel ?x ?y -> _ => destruct x as [c|], y as [c'|]; cbn [rrel rbind]; try done end.
    intros Hc. apply IH; [done|]. intros m gs f x v Hi. eapply Hd. right. exact Hi.
  Qed.

  Lemma related_rows a a' : related a a' ->
    map_to_list (a_batch a') ≡ₚ (fun kv => ((kv.1.1, g kv.1.2), kv.2)) <$> map_to_list (a_batch a).
  Proof.
    intros (_ & H2 & H3 & H4). apply NoDup_Permutation.
    - apply NoDup_map_to_list.
    - apply NoDup_fmap_2_strong; [|apply NoDup_map_to_list]. intros [[f v] x] [[f' w] y] Hx Hy [= <- E <-].
      apply elem_of_map_to_list in Hx, Hy. do 2 f_equal. eapply Hinj; [apply H3; eauto..|done].
    - intros [[f v'] x]. rewrite elem_of_map_to_list, elem_of_list_fmap. split.
      + intros Hx. destruct (H4 f v') as (v & Hv & ->); [eauto|]. exists ((f, v), x). split; [done|]. apply elem_of_map_to_list. by rewrite <- H2.
      + intros ([[f2 v] y] & [= -> -> ->] & Hy). apply elem_of_map_to_list in Hy. cbn. rewrite H2; [done|]. apply H3. eauto.
  Qed.

  Lemma index_docs_ren pos b : batch_in b ->
    match index_docs pos b, index_docs pos (ren_batch g b) with
    | Ok (rows, bp), Ok (rows', bp') => rows' ≡ₚ ren_row g <$> rows /\ bp = bp' /\ forall r, r ∈ rows -> D (s_field r) (s_value r)
    | Err e, Err e' => e = e'
    | _, _ => False
    end.
  Proof.
    intros Hd. assert (related empty_accum empty_accum) as H0.
    { split_and!; [done|done|by intros f v [? H]|by intros f v [? H]]. }
    pose proof (related_docs pos b _ _ H0 Hd) as H. revert H. unfold index_docs.
    match goal with |- rrel ?x ?y -> _ => destruct x as [c|], y as [c'|]; cbn [rrel rbind]; try done end.
    intros H. assert ((ren_batch g b).*1 = b.*1) as -> by (unfold ren_batch; rewrite <- list_fmap_compose; by apply list_fmap_ext).
    destruct b as [|[n r] b]; [done|]. cbn [ren_batch fmap list_fmap fst snd]. cbv zeta.
    rewrite <- (proj1 H). split; [|split; [done|]].
    - rewrite (related_rows _ _ H), <- !list_fmap_compose. done.
    - intros r' ([[f v] x] & -> & Hx%elem_of_map_to_list)%elem_of_list_fmap. destruct H as (_ & _ & H & _). apply H. by exists x.
  Qed.
End ren.

Lemma make_batches_ren g n l : forall p, make_batches n (ren_batch g p) (ren_batch g l) = ren_batch g <$> make_batches n p l.
Proof.
  induction l as [|x l IH]; intros p.
  - destruct p; done.
  - change (ren_batch g (x :: l)) with ((x.1, ren_doc g x.2) :: ren_batch g l). cbn [make_batches]. assert (ren_batch g p ++ [(x.1, ren_doc g x.2)] = ren_batch g (p ++ [x])) as E by (unfold ren_batch; by rewrite fmap_app).
    rewrite E. cbv zeta.
    assert (length (ren_batch g (p ++ [x])) = length (p ++ [x])) as -> by apply fmap_length.
    destruct (n <=? length (p ++ [x])); [|apply IH]. cbn [fmap list_fmap]. f_equal. apply (IH []).
Qed.
Lemma enumerate_fmap {A B} (f : A -> B) l : enumerate (f <$> l) = (fun x => (x.1, f x.2)) <$> enumerate l.
Proof.
  unfold enumerate. rewrite fmap_length. generalize (N.of_nat <$> seq 0 (length l)). induction l as [|a l IH]; intros [|k ks]; [done..|].
  cbn. f_equal. apply IH.
Qed.
Lemma batches_ren g n c : batches n (ren_corpus g c) = ren_batch g <$> batches n c.
Proof.
  unfold batches, ren_corpus. assert (((fun kr : value * res features => (kr.1, ren_doc g kr.2)) <$> c).*2 = ren_doc g <$> c.*2) as ->.
  { rewrite <- !list_fmap_compose. done. }
  rewrite enumerate_fmap. change ((fun x : N * res features => (x.1, ren_doc g x.2)) <$> enumerate c.*2) with (ren_batch g (enumerate c.*2)).
  apply (make_batches_ren g n _ []).
Qed.

(** ** Equal rows up to order are merged alike *)
Definition same_work (w w' : res (list segment)) : Prop :=
  match w, w' with
  | Ok segs, Ok segs' => concat segs.*1 ≡ₚ concat segs'.*1 /\ concat segs.*2 = concat segs'.*2 /\ length segs = length segs'
  | Err e, Err e' => e = e'
  | _, _ => False
  end.
Lemma insert_positions_perm rows rows' d : rows ≡ₚ rows' -> insert_positions rows d = insert_positions rows' d.
Proof.
  intros P1. unfold insert_positions. assert (position_rows rows (inverted_index d) ≡ₚ position_rows rows' (inverted_index d)) as Hp.
  { unfold position_rows. by rewrite P1. }
  case_bool_decide as H1; case_bool_decide as H2.
  - do 3 f_equal. by apply list_to_map_proper.
  - destruct H2. by rewrite <- Hp.
  - destruct H1. by rewrite Hp.
  - done.
Qed.
Lemma dbind_ext {A B} (m m' : dbm A) (k k' : A -> dbm B) : (forall d, m d = m' d) -> (forall a d, k a d = k' a d) -> forall d, dbind m k d = dbind m' k' d.
Proof. intros H1 H2 d. unfold dbind. rewrite H1. by destruct (m' d) as [d1 [a|e]]. Qed.
Lemma rebuild_with_same keys w w' d : same_work w w' -> rebuild_with keys w d = rebuild_with keys w' d.
Proof.
  destruct w as [segs|e], w' as [segs'|e']; [|done..|by intros ->]. intros (P1 & P2 & PL). unfold rebuild_with.
  apply dbind_ext; [done|]. intros _ d0. unfold dbind at 1 9. cbn [dres]. apply dbind_ext; [done|]. intros _ d1.
  apply dbind_ext; [by destruct segs, segs'|]. intros _ d2. cbv zeta. apply dbind_ext.
  { intros d3. unfold dstmt. by rewrite (merge_features_perm _ _ _ P1). }
  intros _ d3. apply dbind_ext; [intros d4; unfold dstmt; by rewrite (insert_positions_perm _ _ _ P1)|]. intros _ d4.
  by rewrite P2.
Qed.
Lemma run_index_with_same keys w w' cn : same_work w w' -> run_index_with keys w cn = run_index_with keys w' cn.
Proof.
  intros H. unfold run_index_with. destruct (sql_foreign_keys false cn) as [cn0 ?]. destruct (sql_begin cn0) as [cn1 [?|?]]; [|done].
  unfold pbind at 1 5. unfold on_db. rewrite (rebuild_with_same keys w w' _ H). done.
Qed.

(** ** Storing values *)
Definition stored (v : pvalue) : value := match adapt v with Ok w => w | Err _ => VInt 0 end.
Lemma py_eq_key a b : py_eq a b <-> dict_key a = dict_key b.
Proof.
  split; [by destruct 1|]. destruct a as [[]| | | | |], b as [[]| | | | |]; cbn; intros E; try discriminate E; try (injection E; intros; subst; constructor); constructor.
Qed.
Lemma adapt_key v : adapt (dict_key v) = adapt v.
Proof. by destruct v as [[]| | | | |]. Qed.
Lemma decoded_code v : decoded (code v) = dict_key v.
Proof. unfold decoded, code. by rewrite decode_encode. Qed.
Lemma storable_ok v : storable v -> adapt v = Ok (stored v).
Proof.
  unfold stored. destruct v as [b|z|s|y m d|t|n]; cbn; try done. intros H.
  destruct ((- 2 ^ 63 <=? z)%Z && (z <? 2 ^ 63)%Z) eqn:E; [done|]. apply andb_false_iff in E as [E|E]; [apply Z.leb_gt in E|apply Z.ltb_ge in E]; lia.
Qed.

Lemma slength_app (a b : string) : String.length (a ++ b) = String.length a + String.length b.
Proof. induction a as [|x a IH]; [done|]. change (S (String.length (a ++ b)) = S (String.length a) + String.length b). rewrite IH. lia. Qed.
Lemma slength_padded w : forall n, String.length (padded w n) = w.
Proof. induction w as [|w IH]; intros n; [done|]. cbn [padded]. rewrite slength_app, IH. cbn. lia. Qed.
Lemma date_datetime y m d t : (padded 4 y ++ "-" ++ padded 2 m ++ "-" ++ padded 2 d)%string <> isoformat " " t.
Proof.
  intros E. apply (f_equal String.length) in E. unfold isoformat in E. rewrite !slength_app, !slength_padded in E.
  change (String.length "-") with 1 in E. change (String.length " ") with 1 in E. change (String.length ":") with 1 in E. lia.
Qed.
Lemma date_iso y m d : isoformat "" (DateTime y m d 0 0 0 0) = ((padded 4 y ++ "-" ++ padded 2 m ++ "-" ++ padded 2 d) ++ "00:00:00")%string.
Proof. unfold isoformat. cbn [dt_year dt_month dt_day dt_hour dt_minute dt_second dt_micro]. rewrite !sapp_assoc. reflexivity. Qed.

Lemma stored_inj a b : storable a -> storable b -> ~ text_and_date a b -> stored a = stored b -> dict_key a = dict_key b.
Proof.
  intros Ha Hb Hn E. pose proof (storable_ok a Ha) as Ea. pose proof (storable_ok b Hb) as Eb. pose proof Ea as E0. rewrite E, <- Eb in Ea. clear E Eb.
  destruct a as [x|z|s|y m d|t|n], b as [x'|z'|s'|y' m' d'|t'|n']; cbn [storable] in Ha, Hb; try contradiction; try (by destruct (Hn I));
    cbn [adapt] in Ea, E0; repeat match type of Ea with context [if ?c then Ok _ else Err _] => destruct c; try discriminate Ea; try discriminate E0 end;
    clear E0; try discriminate Ea; cbn [dict_key];
    try (exfalso; assert (forall u v, (Ok (VText u) : res value) = Ok (VText v) -> u = v) as Hx by (intros ? ?; congruence);
      first [exact (date_datetime _ _ _ _ (Hx _ _ Ea)) | exact (date_datetime _ _ _ _ (eq_sym (Hx _ _ Ea)))]).
  - injection Ea as E. by rewrite E.
  - injection Ea as E. by rewrite E.
  - injection Ea as E. by rewrite E.
  - injection Ea as E. by rewrite E.
  - injection Ea as E. by rewrite E.
  - assert (DateTime y m d 0 0 0 0 = DateTime y' m' d' 0 0 0 0) as [= -> -> ->]; [|done].
    apply (isoformat_inj "" ""); [exact I|done..|]. rewrite !date_iso.
    assert (forall u v, (Ok (VText u) : res value) = Ok (VText v) -> u = v) as Hx by (intros ? ?; congruence). by rewrite (Hx _ _ Ea).
  - f_equal. apply (isoformat_inj " " ""); [exact I|done..|].
    assert (forall u v, (Ok (VText u) : res value) = Ok (VText v) -> u = v) as Hx by (intros ? ?; congruence). by rewrite (Hx _ _ Ea).
Qed.

(** ** Indexing values is indexing what is stored for them *)
Section typed.
  Context (c : pcorpus) (Hst : forall field v, listed c field v -> storable v) (Hun : unmixed c).
  Definition back (w : value) : value := stored (decoded w).
  Definition coded_in (f : string) (w : value) : Prop := exists v, listed c f v /\ w = code v.

  Lemma back_code v : back (code v) = stored v.
  Proof. unfold back, stored. by rewrite decoded_code, adapt_key. Qed.
  Lemma back_inj f v w : coded_in f v -> coded_in f w -> back v = back w -> v = w.
  Proof.
    intros (a & Ha & ->) (b & Hb & ->). rewrite !back_code. intros E. unfold code. do 3 f_equal.
    apply stored_inj; [by eapply Hst|by eapply Hst|by eapply Hun|done].
  Qed.
  Lemma back_field x : ren_field back (map_field code x) = map_field stored x.
  Proof.
    destruct x as [vs|vs]; cbn; f_equal; rewrite <- list_fmap_compose; apply list_fmap_ext; intros i [v|] _; cbn; try done; by rewrite back_code.
  Qed.
  Lemma back_corpus : ren_corpus back (map_corpus code c) = map_corpus stored c.
  Proof.
    unfold ren_corpus, map_corpus. rewrite <- list_fmap_compose. apply list_fmap_ext. intros i [k r] _. cbn. f_equal.
    destruct r as [fs|e]; [|done]. cbn. f_equal. rewrite <- list_fmap_compose. apply list_fmap_ext. intros j [f x] _. cbn. f_equal. apply back_field.
  Qed.
  Lemma coded_doc bsz b n fs : b ∈ batches bsz (map_corpus code c) -> (n, Ok fs) ∈ b ->
    exists key ps, c !! N.to_nat n = Some (key, Ok ps) /\ fs = (fun fv => (fv.1, map_field code fv.2)) <$> ps.
  Proof.
    intros Hb Hn. assert ((n, Ok fs) ∈ enumerate (map_corpus code c).*2) as He.
    { rewrite <- (batches_concat bsz). apply elem_of_concat. eauto. }
    apply elem_of_enumerate in He. unfold map_corpus in He. rewrite <- list_fmap_compose, list_lookup_fmap in He.
    destruct (c !! N.to_nat n) as [[key [ps|e]]|] eqn:E; cbn in He; [|discriminate He|discriminate He]. exists key, ps. split; [reflexivity|]. by injection He.
  Qed.
  Lemma coded_batch bsz b : b ∈ batches bsz (map_corpus code c) -> batch_in coded_in b.
  Proof.
    intros Hb n fs f x v Hn Hf Hv. destruct (coded_doc bsz b n fs Hb Hn) as (key & ps & Hc & ->).
    apply elem_of_list_fmap in Hf as ([f' y] & [= -> ->] & Hy).
    assert (exists pv, Some pv ∈ pfield_values y /\ v = code pv) as (pv & Hpv & ->).
    { destruct y as [vs|vs]; cbn in Hv; apply elem_of_list_fmap in Hv as ([w|] & E & Hw); [|discriminate E| |discriminate E];
        cbn in E; injection E as ->; eauto. }
    exists pv. split; [|done]. exists key, ps. split; [by eapply elem_of_list_lookup_2|]. exists y. done.
  Qed.

  Definition segrel (r r' : res segment) : Prop :=
    match r, r' with Ok s, Ok s' => s.1 ≡ₚ s'.1 /\ s.2 = s'.2 | Err e, Err e' => e = e' | _, _ => False end.
  Lemma typed_docs bsz pos b : b ∈ batches bsz (map_corpus code c) ->
    segrel (index_docs_typed pos b) (index_docs pos (ren_batch back b)).
  Proof.
    intros Hb. pose proof (index_docs_ren back coded_in back_inj pos b (coded_batch bsz b Hb)) as H. revert H. unfold index_docs_typed.
    destruct (index_docs pos b) as [[rows bp]|e], (index_docs pos (ren_batch back b)) as [[rows' bp']|e']; cbn [rbind segrel]; [|done..].
    intros (H1 & -> & H2). cbn [fst snd].
    assert (rtraverse write_row rows = Ok (ren_row back <$> rows)) as ->.
    { apply rtraverse_ok_iff. apply Forall2_fmap_r. apply Forall_Forall2_diag. apply list.Forall_forall. intros r Hr.
      unfold write_row. destruct (H2 r Hr) as (v & Hv & E). rewrite E, decoded_code, adapt_key, (storable_ok v) by (by eapply Hst).
      cbn. unfold ren_row. by rewrite E, back_code. }
    cbn. by rewrite H1.
  Qed.
  Lemma typed_work bsz pos s : same_work (run_batches_typed pos (batches bsz (map_corpus code c)) s)
    (run_batches pos (batches bsz (map_corpus stored c)) s).
  Proof.
    rewrite <- back_corpus, batches_ren. unfold run_batches_typed, run_batches.
    induction (finish_order s) as [|i l IH]; [done|]. cbn [rtraverse].
    match goal with |- same_work (rbind ?x _) (rbind ?y _) => assert (segrel x y) as Hs end.
    { destruct (fault s i); [done|]. rewrite list_lookup_fmap. destruct (batches bsz (map_corpus code c) !! i) as [b|] eqn:E; [|done].
      cbn. eapply typed_docs. by eapply elem_of_list_lookup_2. }
    revert Hs. match goal with |- segrel ?x ?y -> _ => destruct x as [[r1 b1]|], y as [[r2 b2]|]; cbn [segrel rbind]; try done end.
    cbn [fst snd]. intros [P1 ->]. revert IH.
    match goal with |- same_work ?x ?y -> _ => destruct x as [l1|], y as [l2|]; cbn [same_work]; try done end.
    cbn. intros (Q1 & Q2 & Q3). rewrite P1, Q1, Q2. split_and!; [done|done|lia].
  Qed.
  Lemma typed_run bsz pos s cn : run_index_typed bsz pos c s cn = run_index bsz pos (map_corpus stored c) s cn.
  Proof.
    unfold run_index_typed. rewrite (run_index_with_same _ _ _ _ (typed_work bsz pos s)).
    unfold run_index_with, run_index, rebuild_with, rebuild. replace (map_corpus stored c).*1 with c.*1; [done|].
    unfold map_corpus. rewrite <- list_fmap_compose. by apply list_fmap_ext.
  Qed.
End typed.

Lemma stored_matches (c : pcorpus) field v doc :
  (forall w, listed c field w -> storable w) -> storable v -> (forall w, listed c field w -> ~ text_and_date w v) ->
  doc_matches (map_corpus stored c) field (stored v) doc <-> lists_equal c field v doc.
Proof.
  intros Hst Hv Hn. unfold doc_matches, lists_equal, map_corpus. setoid_rewrite list_lookup_fmap.
  destruct (c !! N.to_nat doc) as [[key [ps|e]]|] eqn:E; cbn; [|split; [intros (? & ? & H & _); discriminate H|intros (? & ? & ? & H & _); discriminate H]..].
  assert (forall w, lists ps field w -> listed c field w) as Hl.
  { intros w Hw. exists key, ps. split; [by eapply elem_of_list_lookup_2|done]. }
  split.
  - intros (k & fs & [= <- <-] & (x & Hx & Hw)). apply elem_of_list_fmap in Hx as ([f' y] & [= -> ->] & Hy).
    assert (exists w, Some w ∈ pfield_values y /\ stored w = stored v) as (w & Hw' & Es).
    { destruct y as [vs|vs]; cbn in Hw; apply elem_of_list_fmap in Hw as ([w|] & Ew & Hw); try discriminate Ew; cbn in Ew;
        injection Ew as Ew; exists w; (split; [exact Hw|done]). }
    exists key, ps, w. split; [done|]. assert (lists ps f' w) as Hlw by (exists y; done). split; [done|].
    apply py_eq_key. apply stored_inj; auto.
  - intros (k & fs & w & [= <- <-] & (y & Hy & Hw) & Heq). exists key. eexists. split; [reflexivity|].
    exists (map_field stored y). split; [apply elem_of_list_fmap; by exists (field, y)|].
    apply py_eq_key in Heq. assert (stored w = stored v) as <- by (unfold stored; by rewrite <- (adapt_key w), <- (adapt_key v), Heq).
    destruct y as [vs|vs]; cbn in *; apply elem_of_list_fmap; by exists (Some w).
Qed.

Lemma stored_well_formed pos c : acceptable pos c -> well_formed pos (map_corpus stored c).
Proof.
  intros (H1 & H2 & H3). split_and!.
  - by destruct c.
  - unfold map_corpus. rewrite <- list_fmap_compose. by rewrite (list_fmap_ext _ fst) by done.
  - intros k r Hr. apply elem_of_list_fmap in Hr as ([k' r'] & [= -> ->] & Hr). destruct (H3 _ _ Hr) as (fs & -> & Hp & _).
    eexists. split; [reflexivity|]. intros Ep field vs Hvs. apply elem_of_list_fmap in Hvs as ([f' y] & [= -> Ey] & Hy).
    destruct y as [ws|ws]; [|discriminate Ey]. injection Ey as ->. specialize (Hp Ep f' ws Hy). intros Hnone.
    apply elem_of_list_fmap in Hnone as ([w|] & Ew & Hw); [discriminate Ew|done].
Qed.

(** A value that cannot be stored: the worker raises. *)
Lemma typed_fails bsz pos c s field v : complete s (length (batches bsz (map_corpus code c))) ->
  listed c field v -> (exists e, adapt v = Err e) -> exists e, run_batches_typed pos (batches bsz (map_corpus code c)) s = Err e.
Proof.
  intros Hc (key & fs & Hin & (x & Hx & Hv)) [e Ee].
  destruct (run_batches_typed pos (batches bsz (map_corpus code c)) s) as [segs|e'] eqn:E; [exfalso|eauto].
  unfold run_batches_typed in E. apply rtraverse_ok_iff in E.
  apply elem_of_list_lookup in Hin as [i Hi].
  assert ((N.of_nat i, map_doc code (Ok fs)) ∈ enumerate (map_corpus code c).*2) as He.
  { apply elem_of_enumerate. rewrite Nat2N.id. unfold map_corpus. rewrite <- list_fmap_compose, list_lookup_fmap, Hi. done. }
  rewrite <- (batches_concat bsz) in He. apply elem_of_concat in He as (b & Hb & Hbin).
  apply elem_of_list_lookup in Hbin as [j Hj]. assert (j ∈ finish_order s) as Hjs.
  { rewrite Hc. apply elem_of_seq. apply lookup_lt_Some in Hj. split; [lia|exact Hj]. }
  apply elem_of_list_lookup in Hjs as [m Hm]. destruct (Forall2_lookup_l _ _ _ _ _ E Hm) as (seg & _ & Hseg).
  destruct (fault s j); [done|]. change (@lookup nat batch (list batch) _ j (batches bsz (map_corpus code c)) = Some b) in Hj; rewrite Hj in Hseg. unfold index_docs_typed in Hseg.
  destruct (index_docs pos b) as [[rows bp]|] eqn:Ed; [|done]. cbn in Hseg.
  destruct (rtraverse write_row rows) as [rows'|] eqn:Er; [|done]. apply rtraverse_ok_iff in Er.
  apply index_docs_docs in Ed as [Hsd _]. destruct (sd_has _ _ Hsd _ _ field (code v) Hb) as (r & Hr & Hk).
  { exists (map_field code x). split; [apply elem_of_list_fmap; by exists (field, x)|].
    destruct x as [vs|vs]; cbn in *; apply elem_of_list_fmap; by exists (Some v). }
  cbn in Hr. apply elem_of_list_lookup in Hr as [n Hn]. destruct (Forall2_lookup_l _ _ _ _ _ Er Hn) as (r' & _ & Hw).
  unfold write_row in Hw. unfold seg_key in Hk. injection Hk as _ Hk. rewrite Hk, decoded_code, adapt_key, Ee in Hw. discriminate Hw.
Qed.
Lemma run_with_error keys e cn : SpecConn.idle cn -> exists e', run_index_with keys (Err e) cn = (cn, Err e').
Proof.
  intros Hid. set (c := (fun k => (k, Ok [] : res features)) <$> keys). set (s := Schedule [0] (fun _ => Some e)).
  assert (keys = c.*1) as E by (unfold c; rewrite <- list_fmap_compose; by rewrite list_fmap_id).
  assert (run_index 1 false c s cn = run_index_with keys (Err e) cn) as <-.
  { rewrite E. reflexivity. }
  destruct (rebuild 1 false c s (disk cn)) as [d [[]|e']] eqn:Er; [|eexists; by eapply index_fails].
  apply rebuild_inv in Er as (segs & Hrun & _). discriminate Hrun.
Qed.
