(** PropertiesValues.v: C114, values of every type. Vocabulary: SpecValues.v. *)
From Verif Require Import SpecValues ValuesProofs LookupProofs SampleDb PropertiesIndexing.

(** ** C114: documents are found by values of every type *)
(** What it should mean that an index finds the documents of [c] by their values: the documents
    found for a value are those that list an equal value, and they are counted right. *)
Definition found_by_value (c : pcorpus) (d : db) (field : string) (v : pvalue) : Prop :=
  exists docs, getitem_typed d field v = Ok (Some docs) /\
    (forall doc, doc ∈ docs <-> lists_equal c field v doc) /\
    (forall f row, lookup_feature_id_typed d field v = Ok f -> inverted_index d !! f = Some row ->
       f_docs_count row = N.of_nat (size docs)).

(** If no field mixes texts with dates, indexing succeeds and every search that does not mix
    them either is answered exactly. *)
Theorem C114_found_partial : forall bsz pos c s cn,
  index_ready cn -> quiet (disk cn) -> pool_works cn -> acceptable pos c -> unmixed c ->
  complete s (length (batches bsz (map_corpus code c))) -> (forall i, fault s i = None) ->
  exists cn', run_index_typed bsz pos c s cn = (cn', Ok tt) /\ index_ready cn' /\ quiet (disk cn') /\
    forall field v, storable v -> (forall w, listed c field w -> ~ text_and_date w v) ->
      found_by_value c (disk cn') field v.
Proof.
  intros bsz pos c s cn Hr Hq Hp Hacc Hun Hc Hf.
  assert (forall field v, listed c field v -> storable v) as Hst.
  { intros field v (key & fs & Hin & Hl). destruct Hacc as (_ & _ & H). destruct (H _ _ Hin) as (fs' & [= <-] & _ & Hs). by eapply Hs. }
  assert (complete s (length (batches bsz (map_corpus stored c)))) as Hc'.
  { rewrite <- (back_corpus c), batches_ren, fmap_length. exact Hc. }
  destruct (C06_indexing_succeeds bsz pos (map_corpus stored c) s cn Hr Hq Hp (stored_well_formed pos c Hacc) Hc' Hf) as (cn' & Hrun & Hr' & Hq').
  exists cn'. rewrite (typed_run c Hst Hun). split_and!; [exact Hrun|exact Hr'|exact Hq'|].
  intros field v Hv Hn. destruct (C06_boolean_index_exact bsz pos _ s cn cn' Hr Hc' Hrun field (stored v)) as (docs & Hd & Hiff & Hcount).
  exists docs. unfold getitem_typed, lookup_feature_id_typed. rewrite (storable_ok v Hv). split_and!.
  - unfold rmap. by rewrite Hd.
  - intros doc. rewrite Hiff. apply stored_matches; [apply Hst|exact Hv|exact Hn].
  - intros f row Hfid. apply Hcount. exact Hfid.
Qed.
Print Assumptions C114_found_partial.

(** Such a run is the same as indexing, instead of every value, what sqlite stores for it; so
    all that is proved of indexing numbers and texts holds for it. *)
Theorem C114_as_stored : forall (st : pvalue -> value) bsz pos c s cn,
  (forall field v, listed c field v -> storable v /\ adapt v = Ok (st v)) -> unmixed c ->
  run_index_typed bsz pos c s cn = run_index bsz pos (map_corpus st c) s cn.
Proof.
  intros st bsz pos c s cn Hst Hun. rewrite (typed_run c (fun f v H => proj1 (Hst f v H)) Hun).
  replace (map_corpus stored c) with (map_corpus st c); [done|]. unfold map_corpus. apply list_fmap_ext. intros i [k [fs|e]] Hi; [|done].
  cbn. do 2 f_equal. apply list_fmap_ext. intros j [f x] Hj. cbn. f_equal.
  assert (forall v, Some v ∈ pfield_values x -> st v = stored v) as H.
  { intros v Hv. destruct (Hst f v) as [_ E].
    { exists k, fs. split; [by eapply elem_of_list_lookup_2|]. exists x. split; [by eapply elem_of_list_lookup_2|done]. }
    unfold stored. by rewrite E. }
  destruct x as [vs|vs]; cbn; f_equal; apply list_fmap_ext; intros m [v|] Hm; cbn; try done; rewrite H; try done; by eapply elem_of_list_lookup_2.
Qed.
Print Assumptions C114_as_stored.

(** A number of more than 64 bits or an object that sqlite cannot store: indexing fails and
    changes nothing. *)
Theorem C114_unstorable : forall bsz pos c s cn field v,
  index_ready cn -> complete s (length (batches bsz (map_corpus code c))) ->
  listed c field v -> (exists n, v = PObject n) \/ (exists z, v = PInt z /\ (z < - 2 ^ 63 \/ 2 ^ 63 <= z)%Z) ->
  exists e, run_index_typed bsz pos c s cn = (cn, Err e).
Proof.
  intros bsz pos c s cn field v (Hid & _) Hc Hl Hv.
  destruct (typed_fails bsz pos c s field v Hc Hl) as [e He].
  { destruct Hv as [[n ->]|(z & -> & Hz)]; [by eexists|]. exists ValueError. cbn.
    assert ((- 2 ^ 63 <=? z)%Z && (z <? 2 ^ 63)%Z = false) as ->; [|done]. apply andb_false_iff. destruct Hz; [left; by apply Z.leb_gt|right; by apply Z.ltb_ge]. }
  unfold run_index_typed. rewrite He. by apply run_with_error.
Qed.
Print Assumptions C114_unstorable.

(** Refuted: a field that mixes texts and dates. The first document lists a date, the second the
    text that is stored for it, and the third both. *)
Definition new_year := PDate 2020 1 1.
Definition new_year_text := PText "2020-01-01".
Definition mixed_corpus : pcorpus :=
  [(VInt 1, Ok [("when", PSeq [Some new_year])]); (VInt 2, Ok [("when", PSeq [Some new_year_text])]);
   (VInt 3, Ok [("when", PSeq [Some new_year_text; Some new_year])])].
Definition mixed_conn := (run_index_typed 2 false mixed_corpus (in_order 2) conn0).1.
Lemma mixed_acceptable pos : acceptable pos mixed_corpus.
Proof.
  split_and!; [done|by_computation|]. intros key r Hr. unfold mixed_corpus in Hr.
  assert (forall vs, (forall v, Some v ∈ vs -> storable v) -> None ∉ vs ->
    exists fs, (Ok [("when", PSeq vs)] : res pfeatures) = Ok fs /\
      (pos = true -> forall field vs, (field, PSeq vs) ∈ fs -> None ∉ vs) /\ (forall field v, lists fs field v -> storable v)) as H.
  { intros vs H1 H2. eexists. split; [reflexivity|]. split.
    - intros _ field ws Hw. apply elem_of_list_singleton in Hw. by injection Hw as -> ->.
    - intros field v (x & Hx & Hv). apply elem_of_list_singleton in Hx. injection Hx as -> ->. by apply H1. }
  assert (storable new_year) as Hs by (unfold storable, new_year, calendar; cbn; lia).
  repeat (apply elem_of_cons in Hr as [[= -> ->]|Hr]); [..|by apply elem_of_nil in Hr]; apply H.
  all: try (intros v Hv; repeat (apply elem_of_cons in Hv as [[= ->]|Hv]); try done; by apply elem_of_nil in Hv).
  all: intros Hv; repeat (apply elem_of_cons in Hv as [Hv|Hv]; [discriminate Hv|]); by apply elem_of_nil in Hv.
Qed.
Lemma mixed_run : run_index_typed 2 false mixed_corpus (in_order 2) conn0 = (mixed_conn, Ok tt).
Proof.
  assert ((run_index_typed 2 false mixed_corpus (in_order 2) conn0).2 = Ok tt) as <- by by_computation. apply surjective_pairing.
Qed.
(** The search for the date finds the document that only lists the text. *)
Theorem C114_mixed_search_refuted :
  ~ (forall bsz pos c s cn cn', index_ready cn -> acceptable pos c -> complete s (length (batches bsz (map_corpus code c))) ->
      run_index_typed bsz pos c s cn = (cn', Ok tt) ->
      forall field v, storable v -> exists docs, getitem_typed (disk cn') field v = Ok (Some docs) /\
        forall doc, doc ∈ docs <-> lists_equal c field v doc).
Proof.
  intros H. destruct conn0_ready as (R1 & _).
  destruct (H 2 false mixed_corpus (in_order 2) conn0 mixed_conn R1 (mixed_acceptable false) (complete_in_order 2) mixed_run "when" new_year) as (docs & Hd & Hiff).
  { unfold storable, new_year, calendar. cbn. lia. }
  clear H. assert (getitem_typed (disk mixed_conn) "when" new_year = Ok (Some {[0; 1; 2]}%N)) as E by by_computation.
  rewrite E in Hd. injection Hd as <-. destruct (Hiff 1%N) as [H _]. destruct H as (key & fs & w & Hc & (x & Hx & Hw) & Heq); [set_solver|].
  injection Hc as <- <-. apply elem_of_list_singleton in Hx. injection Hx as ->. apply elem_of_list_singleton in Hw. injection Hw as ->. inversion Heq.
Qed.
Print Assumptions C114_mixed_search_refuted.
(** The number of documents of a feature is too big. *)
Theorem C114_mixed_count_refuted :
  ~ (forall bsz pos c s cn cn', index_ready cn -> acceptable pos c -> complete s (length (batches bsz (map_corpus code c))) ->
      run_index_typed bsz pos c s cn = (cn', Ok tt) ->
      forall f row, inverted_index (disk cn') !! f = Some row -> f_docs_count row = N.of_nat (size (f_doc_ids row))).
Proof.
  intros H. destruct conn0_ready as (R1 & _).
  pose proof (H 2 false mixed_corpus (in_order 2) conn0 mixed_conn R1 (mixed_acceptable false) (complete_in_order 2) mixed_run) as H1. clear H.
  assert (exists f, inverted_index (disk mixed_conn) !! f = Some (FeatureRow "when" (VText "2020-01-01") 4 {[0; 1; 2]}%N)) as [f Hf].
  { exists 1%N. by_computation. }
  specialize (H1 _ _ Hf). cbn in H1. discriminate H1.
Qed.
Print Assumptions C114_mixed_count_refuted.
(** With positions, indexing fails. *)
Theorem C114_mixed_positions_refuted :
  ~ (forall bsz c s cn, index_ready cn -> quiet (disk cn) -> pool_works cn -> acceptable true c ->
      complete s (length (batches bsz (map_corpus code c))) -> (forall i, fault s i = None) ->
      exists cn', run_index_typed bsz true c s cn = (cn', Ok tt)).
Proof.
  intros H. destruct conn0_ready as (R1 & R2 & R3).
  destruct (H 2 mixed_corpus (in_order 2) conn0 R1 R2 R3 (mixed_acceptable true) (complete_in_order 2) ltac:(done)) as [cn' E]. clear H.
  assert ((run_index_typed 2 true mixed_corpus (in_order 2) conn0).2 = Err IntegrityError) as E2 by by_computation.
  rewrite E in E2. discriminate E2.
Qed.
Print Assumptions C114_mixed_positions_refuted.

(** A corpus of several types, with dates and texts in different fields. *)
Definition typed_corpus : pcorpus :=
  [(VInt 1, Ok [("flag", PColl [Some (PBool true)]); ("when", PSeq [Some new_year])]);
   (VInt 2, Ok [("flag", PColl [Some (PInt 1); None; Some (PBool true)]); ("when", PSeq [Some (PDatetime (DateTime 2020 1 1 0 0 0 0))]); ("text", PSeq [Some new_year_text])])].
Definition typed_conn := (run_index_typed 1 true typed_corpus (in_order 2) conn0).1.
Lemma typed_listed field v : listed typed_corpus field v ->
  (field = "flag" /\ (v = PBool true \/ v = PInt 1)) \/ (field = "when" /\ (v = new_year \/ v = PDatetime (DateTime 2020 1 1 0 0 0 0))) \/
  (field = "text" /\ v = new_year_text).
Proof.
  intros (key & fs & Hin & (x & Hx & Hv)). unfold typed_corpus in Hin.
  repeat (apply elem_of_cons in Hin as [[= -> ->]|Hin]); [..|by apply elem_of_nil in Hin];
    repeat (apply elem_of_cons in Hx as [[= -> ->]|Hx]); try (by apply elem_of_nil in Hx);
    cbn in Hv; repeat (apply elem_of_cons in Hv as [[= ->]|Hv]); try (by apply elem_of_nil in Hv); eauto 10.
Qed.
Example C114_example :
  acceptable true typed_corpus /\ unmixed typed_corpus /\ complete (in_order 2) (length (batches 1 (map_corpus code typed_corpus))) /\
  py_eq (PBool true) (PInt 1) /\
  getitem_typed (disk typed_conn) "flag" (PBool true) = Ok (Some {[0; 1]}%N) /\
  getitem_typed (disk typed_conn) "when" new_year = Ok (Some {[0]}%N) /\
  getitem_typed (disk typed_conn) "when" (PDatetime (DateTime 2020 1 1 0 0 0 0)) = Ok (Some {[1]}%N) /\
  getitem_typed (disk typed_conn) "text" new_year_text = Ok (Some {[1]}%N) /\
  getitem_typed (disk typed_conn) "when" (PObject 3) = Err ValueError /\
  lookup_feature (disk typed_conn) 4 = Ok ("when", VText "2020-01-01 00:00:00") /\
  (run_index_typed 1 true [(VInt 1, Ok [("n", PColl [Some (PInt (2 ^ 63))])])] (in_order 1) conn0).2 = Err ValueError.
Proof.
  split_and!.
  - split_and!; [done|by_computation|]. intros key r Hr. assert (exists fs, r = Ok fs) as [fs ->].
    { unfold typed_corpus in Hr. repeat (apply elem_of_cons in Hr as [[= -> ->]|Hr]); [by eexists..|by apply elem_of_nil in Hr]. }
    exists fs. split; [done|]. split.
    + intros _ field vs Hvs. unfold typed_corpus in Hr. repeat (apply elem_of_cons in Hr as [[= -> ->]|Hr]); [..|by apply elem_of_nil in Hr];
        repeat (apply elem_of_cons in Hvs as [Hvs|Hvs]); try (by apply elem_of_nil in Hvs); try discriminate Hvs; injection Hvs as -> ->;
        intros Hn; repeat (apply elem_of_cons in Hn as [Hn|Hn]; [discriminate Hn|]); by apply elem_of_nil in Hn.
    + intros field v Hv. assert (listed typed_corpus field v) as Hl by (exists key, fs; done).
      apply typed_listed in Hl as [[_ [->| ->]]|[[_ [->| ->]]|[_ ->]]]; unfold storable, new_year, calendar; cbn; lia || exact I.
  - intros field a b Ha Hb. apply typed_listed in Ha, Hb.
    destruct Ha as [[-> [->| ->]]|[[-> [->| ->]]|[-> ->]]], Hb as [[E [->| ->]]|[[E [->| ->]]|[E ->]]]; try discriminate E; intros [].
  - apply complete_in_order.
  - constructor.
  - by_computation.
  - by_computation.
  - by_computation.
  - by_computation.
  - by_computation.
  - by_computation.
  - by_computation.
Qed.
