(** PropertiesPassages.v: C46-C51. Vocabulary: SpecPassages.v, SpecIndexing.v,
    SpecUtilities.v. [arrival]: the order in which the jobs of the worker pool complete;
    [sorter]: how the clauses are ordered (any permutation). *)
From Verif Require Import SpecPassages CollocationProofs RenderProofs SampleDb PropertiesIndexing.

(** ** Indexing with positions gives an index the theorems below apply to *)
Theorem C46_indexing_encodes : forall bsz c s cn cn',
  index_ready cn -> dicts c -> complete s (length (batches bsz c)) ->
  run_index bsz true c s cn = (cn', Ok tt) -> encodes c (disk cn').
Proof.
  intros bsz c s cn cn' Hr Hdi Hc Hrun.
  destruct (C12_positions_lossless bsz c s cn cn' Hr Hdi Hc Hrun) as (P1 & P2 & P3).
  destruct (C13_field_summary_partial bsz true c s cn cn' Hr Hc Hrun) as (_ & P4).
  assert (features_unique (inverted_index (disk cn'))) as Hu.
  { destruct (ready_after _ _ _ _ _ _ Hr Hc Hrun) as (bs & segs & _ & _ & _ & _ & _ & _ & Hex). apply Hex. }
  split; [done|done|done|done|done|]. intros F. unfold positional_fields. rewrite elem_of_dom. split.
  - intros [row Hrow]. apply map_filter_lookup_Some in Hrow as [Hrow Hpos]. cbn in Hpos.
    specialize (P4 F). rewrite Hrow in P4. destruct P4 as (vals & _ & _ & _ & _ & _ & _ & _ & Hcount).
    assert (stored_positions (disk cn') F <> 0) as Hne by lia. unfold stored_positions in Hne.
    destruct (filter _ _) as [|[[f first] prow] l] eqn:E; [done|].
    assert ((f, first, prow) ∈ filter (fun kv : N * N * pos_row => f_field <$> inverted_index (disk cn') !! kv.1.1 = Some F)
      (map_to_list (position_index (disk cn')))) as Hin by (rewrite E; by left).
    apply elem_of_list_filter in Hin as [Hfield Hin]. cbn in Hfield. apply elem_of_map_to_list in Hin.
    destruct (P3 f first prow Hin) as (Hpne & _ & F' & v & pm & Hf & Hpm).
    assert (F' = F) as ->.
    { unfold lookup_feature in Hf. destruct (inverted_index (disk cn') !! f); [|done]. cbn in Hfield. congruence. }
    apply set_choose_L in Hpne as [p Hp].
    destruct (pl_positions _ _ _ _ _ (P1 F first pm Hpm) v p) as (i & doc & vs & st & _ & Hseq & _); [|eauto].
    exists f, prow. split_and!; [by apply (lookup_feature_id_ok _ _ _ Hu)|done|done].
  - intros (doc & vs & Hseq). destruct (P2 F doc vs Hseq) as (first & (pm & Hpm & Hd) & _).
    apply elem_of_bm_list, elem_of_list_lookup in Hd as [i Hi].
    destruct (pl_sequence _ _ _ _ _ (P1 F first pm Hpm) i doc vs Hi Hseq) as (st & sp & _ & _ & _ & Hh).
    assert (exists v, vs !! 0 = Some v) as [v Hv] by (destruct Hseq as (k & fs & _ & _ & Hne); destruct vs as [|v vs]; [done|by exists v]).
    assert (0 < length vs) as Hl by (by eapply lookup_lt_Some).
    apply (Hh 0 v Hl) in Hv as (f & prow & Hf & Hprow & Hp).
    apply (lookup_feature_id_ok _ _ _ Hu) in Hf. specialize (P4 F).
    destruct (field_summary (disk cn') !! F) as [row|] eqn:Hrow.
    + destruct P4 as (vals & _ & _ & _ & _ & _ & _ & _ & Hcount). exists row. apply map_filter_lookup_Some. split; [done|]. cbn.
      assert (0 < stored_positions (disk cn') F); [|lia]. unfold stored_positions.
      assert ((f, first, prow) ∈ filter (fun kv : N * N * pos_row => f_field <$> inverted_index (disk cn') !! kv.1.1 = Some F)
        (map_to_list (position_index (disk cn')))) as Hin.
      { apply elem_of_list_filter. split; [|by apply elem_of_map_to_list]. cbn. unfold lookup_feature in Hf.
        destruct (inverted_index (disk cn') !! f) as [r|]; [|done]. cbn. congruence. }
      apply elem_of_list_split in Hin as (l1 & l2 & ->). rewrite sum_list_with_app. cbn.
      assert (size (p_positions prow) <> 0); [|lia]. intros Hz%size_empty_inv. set_solver.
    + exfalso. apply (P4 v). by exists f.
Qed.
Print Assumptions C46_indexing_encodes.

(** ** The corpus of the examples *)
Definition words (l : list string) : field_values := Seq ((fun s => Some (VText s)) <$> l).
Definition corpus3 : corpus := [
  (t "k0", Ok [("text", words ["a"; "x"]); ("title", words ["one"]); ("lang", Coll [Some (t "en")])]);
  (t "k1", Ok [("text", words ["b"; "b"])]);
  (t "k2", Ok [("text", words ["x"; "b"])]);
  (t "k3", Ok [("text", words ["c"; "a"; "c"; "c"; "x"])])].
Definition conn3 : conn := (run_index 3 true corpus3 (backwards 2) conn0).1.
Definition db3 : db := disk conn3.
Definition query3 : list (list feature_ref) := [[ByKey "text" (t "x")]; [ByKey "text" (t "b"); ByKey "lang" (t "en")]].

Lemma dicts3 : dicts corpus3.
Proof.
  intros k fs Hin. unfold corpus3 in Hin.
  repeat (apply elem_of_cons in Hin as [Hin|Hin]; [injection Hin as -> ->; by_computation|]).
  by apply elem_of_nil in Hin.
Qed.
Lemma encodes3 : encodes corpus3 db3.
Proof.
  apply (C46_indexing_encodes 3 corpus3 (backwards 2) conn0 conn3); [apply conn0_ready|apply dicts3|apply complete_backwards|].
  assert ((run_index 3 true corpus3 (backwards 2) conn0).2 = Ok tt) as H by by_computation. exact (run_eq _ _ H).
Qed.
Definition passages3 : gmap N (list passage) :=
  {[1%N := [("text", 0%N, 0%N, 1)]; 2%N := [("text", 0%N, 1%N, 2)]]}.
Lemma score3 : score_passages_dnf (fun l => l) [0; 1] db3 query3 1 = Ok passages3.
Proof. by_computation. Qed.
Lemma done3 : all_done [0; 1] (job_count db3 query3).
Proof. assert (job_count db3 query3 = 2) as -> by by_computation. unfold all_done. reflexivity. Qed.
#[local] Instance field_values_eq_dec : EqDecision field_values.
Proof. solve_decision. Defined.
Lemma sequence_computes c F doc vs :
  match c !! N.to_nat doc with
  | Some (_, Ok fs) => bool_decide ((F, Seq (Some <$> vs)) ∈ fs /\ vs ≠ [])
  | _ => false
  end = true -> doc_sequence c F doc vs.
Proof.
  intros H. destruct (c !! N.to_nat doc) as [[k [fs|]]|] eqn:E; [|done|done].
  apply bool_decide_eq_true in H as [? ?]. by exists k, fs.
Qed.
Lemma sequence3 doc vs : doc_sequence corpus3 "text" doc vs ->
  (doc, vs) ∈ [(0, [t "a"; t "x"]); (1, [t "b"; t "b"]); (2, [t "x"; t "b"]); (3, [t "c"; t "a"; t "c"; t "c"; t "x"])]%N.
Proof.
  intros Hs. assert (exists vs', (doc, vs') ∈ [(0, [t "a"; t "x"]); (1, [t "b"; t "b"]); (2, [t "x"; t "b"]); (3, [t "c"; t "a"; t "c"; t "c"; t "x"])]%N /\
    doc_sequence corpus3 "text" doc vs') as (vs' & Hin & Hs').
  { destruct Hs as (k & fs & Hd & _). unfold corpus3 in Hd.
    destruct (N.to_nat doc) as [|[|[|[|n]]]] eqn:E; [| | | |by destruct n].
    - assert (doc = 0%N) as -> by lia. exists [t "a"; t "x"]. split; [by_computation|]. by apply sequence_computes.
    - assert (doc = 1%N) as -> by lia. exists [t "b"; t "b"]. split; [by_computation|]. by apply sequence_computes.
    - assert (doc = 2%N) as -> by lia. exists [t "x"; t "b"]. split; [by_computation|]. by apply sequence_computes.
    - assert (doc = 3%N) as -> by lia. exists [t "c"; t "a"; t "c"; t "c"; t "x"]. split; [by_computation|]. by apply sequence_computes. }
  by rewrite (doc_sequence_unique _ _ _ _ _ dicts3 Hs Hs').
Qed.

(** ** C46 *)

(** The claim: every match of every reported passage has every clause of its field within
    the window in the same document. *)
Definition C46_claim : Prop := forall c d clauses w arrival ps sorter,
  encodes c d -> permutes sorter -> all_done arrival (job_count d clauses) ->
  score_passages_dnf sorter arrival d clauses w = Ok ps ->
  forall doc F s e n, (F, s, e, n) ∈ reported ps doc ->
  passage_ok c d clauses F doc s e n (fun cl m => clause_near c d cl F w doc m).

(** It fails: the "b" at the start of document 1 is reported for [x AND b] because
    document 0 ends with "x"; document 1 has no "x". *)
Theorem C46_passages_satisfy_query_refuted : ~ C46_claim.
Proof.
  intros H. specialize (H corpus3 db3 query3 1%N [0; 1] passages3 (fun l => l) encodes3 (fun l => reflexivity l) done3 score3 1%N "text" 0%N 0%N 1 ltac:(by_computation)).
  destruct H as (vs & ms & _ & _ & _ & H0 & _ & Hms). destruct (Hms 0%N H0) as (_ & _ & Hcl).
  destruct (Hcl [ByKey "text" (t "x")]) as (j & Hat & _).
  - by left.
  - exists (ByKey "text" (t "x")), (t "x"). split; [by left|done].
  - destruct Hat as (r & v & Hr & Hv & vs' & Hs' & Hj). apply elem_of_list_singleton in Hr as ->. destruct Hv as [_ <-].
    apply sequence3 in Hs'. assert (vs' = [t "b"; t "b"]) as ->.
    { repeat (apply elem_of_cons in Hs' as [Hs'|Hs']; [by injection Hs'|]). by apply elem_of_nil in Hs'. }
    destruct j as [|[|j]]; done.
Qed.
Print Assumptions C46_passages_satisfy_query_refuted.

(** What holds: the passage lies in the document, the count is the number of matches in
    it, and every match has every clause of its field nearby in the same document, except
    that for the first token of a document the clause may instead be at the end of the
    preceding document of the partition. *)
Theorem C46_passages_satisfy_query_partial : forall c d clauses w arrival ps sorter,
  encodes c d -> permutes sorter -> all_done arrival (job_count d clauses) ->
  score_passages_dnf sorter arrival d clauses w = Ok ps ->
  forall doc F s e n, (F, s, e, n) ∈ reported ps doc ->
  passage_ok c d clauses F doc s e n (fun cl m =>
    clause_near c d cl F w doc m \/ (m = 0%N /\ clause_before c d cl F w doc)).
Proof. intros c d clauses w arrival ps sorter He Hs Ha Hp doc F s e n. by apply (passages_sound c d clauses sorter arrival w He Hs Ha ps Hp). Qed.
Print Assumptions C46_passages_satisfy_query_partial.

(** A search for known features always succeeds. *)
Theorem C46_search_succeeds : forall c d clauses w arrival sorter,
  encodes c d -> permutes sorter -> all_done arrival (job_count d clauses) ->
  (forall cl r, cl ∈ clauses -> r ∈ cl -> exists F v, refers d r F v /\ known d F v) ->
  exists ps, score_passages_dnf sorter arrival d clauses w = Ok ps.
Proof.
  intros c d clauses w arrival sorter He Hs Ha Hk. apply (passages_total c d clauses sorter arrival w He Hs Ha).
  intros cl r Hcl Hr. destruct (Hk cl r Hcl Hr) as (F & v & Hv & f & Hf). eauto.
Qed.
Print Assumptions C46_search_succeeds.

Example C46_example : encodes corpus3 db3 /\ all_done [0; 1] (job_count db3 query3) /\
  score_passages_dnf (fun l => l) [0; 1] db3 query3 1 = Ok passages3 /\
  clause_near corpus3 db3 [ByKey "text" (t "x")] "text" 1 2 1 /\
  clause_before corpus3 db3 [ByKey "text" (t "x")] "text" 1 1.
Proof.
  split_and!; [apply encodes3|apply done3|apply score3| |].
  - exists 0. split; [|unfold within; lia]. exists (ByKey "text" (t "x")), (t "x"). split; [by left|split; [done|]].
    exists [t "x"; t "b"]. split; [|done]. by apply sequence_computes.
  - exists 0%N, [t "a"; t "x"], 1. split_and!.
    + exists 0%N. destruct (position_doc_map db3 !! ("text", 0%N)) as [pm|] eqn:E.
      * exists pm. split; [done|]. assert (pm_doc_ids <$> position_doc_map db3 !! ("text", 0%N) = Some {[0; 1; 2]}%N) as H by by_computation.
        rewrite E in H. injection H as ->. by_computation.
      * exfalso. assert (is_Some (position_doc_map db3 !! ("text", 0%N))) as [? H] by by_computation. congruence.
    + lia.
    + by apply sequence_computes.
    + intros doc'' vs _ ?. lia.
    + exists (ByKey "text" (t "x")), (t "x"). split; [by left|split; [done|]].
      exists [t "a"; t "x"]. split; [|done]. by apply sequence_computes.
    + done.
Qed.

(** ** C47 *)

(** The claim for a query with one clause: every document in which it occurs is reported. *)
Definition C47_claim : Prop := forall c d cl w arrival ps sorter,
  encodes c d -> permutes sorter -> all_done arrival (job_count d [cl]) ->
  score_passages_dnf sorter arrival d [cl] w = Ok ps ->
  forall F doc j, clause_at c d cl F doc j -> exists s e n, (F, s, e, n) ∈ reported ps doc.

(** It fails: the single "x" in the last document is the last match of its partition. *)
Theorem C47_matching_documents_refuted : ~ C47_claim.
Proof.
  intros H. assert (score_passages_dnf (fun l => l) [0; 1] db3 [[ByKey "text" (t "x")]] 1 =
    Ok {[0%N := [("text", 1%N, 1%N, 1)]]}) as Hs by by_computation.
  assert (all_done [0; 1] (job_count db3 [[ByKey "text" (t "x")]])) as Hd.
  { assert (job_count db3 [[ByKey "text" (t "x")]] = 2) as -> by by_computation. unfold all_done. reflexivity. }
  destruct (H corpus3 db3 _ 1%N [0; 1] _ (fun l => l) encodes3 (fun l => reflexivity l) Hd Hs "text" 3%N 4) as (s & e & n & Hin).
  - clear. exists (ByKey "text" (t "x")), (t "x"). split; [by left|split; [done|]].
    exists [t "c"; t "a"; t "c"; t "c"; t "x"]. split; [|done]. by apply sequence_computes.
  - by apply elem_of_nil in Hin.
Qed.
Print Assumptions C47_matching_documents_refuted.

Global Instance refers_dec d r F v : Decision (refers d r F v).
Proof. destruct r; cbn; [apply _|]. solve_decision. Defined.

(** What holds for one clause: a document in which it occurs is reported, unless it is the
    last one of its partition and the clause occurs only once in it. *)
Theorem C47_matching_documents_partial : forall c d cl w arrival ps sorter,
  encodes c d -> permutes sorter -> all_done arrival (job_count d [cl]) ->
  score_passages_dnf sorter arrival d [cl] w = Ok ps ->
  forall F doc j, clause_at c d cl F doc j ->
  (exists s e n, (F, s, e, n) ∈ reported ps doc) \/
  (forall doc' j', same_partition d F doc' doc -> clause_at c d cl F doc' j' ->
     (doc' < doc)%N \/ (doc' = doc /\ j' = j)).
Proof.
  intros c d cl w arrival ps sorter He Hs Ha Hp F doc j Hat.
  assert (forall doc j, clause_at c d cl F doc j -> cooccur c d [cl] F w doc {[j]}) as Hco.
  { intros doc' j' H. split_and!.
    - intros a b ->%elem_of_singleton ->%elem_of_singleton. unfold near, within. lia.
    - intros a ->%elem_of_singleton. exists cl. split; [by left|done].
    - intros cl' ->%elem_of_list_singleton _. exists j'. split; [set_solver|done]. }
  assert (exists vs, doc_sequence c F doc vs) as [vs Hseq] by (destruct Hat as (? & ? & _ & _ & vs & ? & _); eauto).
  destruct (en_covered c d He F doc vs Hseq) as (first & (pm & Hpm & Hd) & Hu).
  assert (forall j', clause_at c d cl F doc j' -> in_passage ps F doc j' \/
    forall doc' j'', same_partition d F doc' doc -> clause_at c d cl F doc' j'' ->
      (doc' < doc)%N \/ (doc' = doc /\ (j'' = j' \/ (N.of_nat j'' + w < N.of_nat j')%N))) as Hcase.
  { intros j' Hat'. destruct (passages_complete c d [cl] sorter arrival w He Hs Ha ps Hp F first pm doc {[j']} j' Hpm Hd (Hco doc j' Hat') ltac:(set_solver)) as [?|Hex]; [by left|right].
    intros doc' j'' (f' & pm' & Hpm' & Hd1 & Hd2) Hat''. assert (f' = first) as -> by (symmetry; apply Hu; eauto).
    rewrite Hpm in Hpm'. injection Hpm' as <-. apply (Hex doc' {[j'']} j''); [done|by apply Hco|set_solver]. }
  destruct (Hcase j Hat) as [(s & e & n & Hin & _)|Hex]; [left; eauto|].
  (* is there another occurrence in the document? *)
  assert (forall j', Decision (match vs !! j' with Some v => Exists (fun r => refers d r F v) cl | None => False end)) as Hdec by (intros j'; destruct (vs !! j'); apply _).
  destruct (decide (Exists (fun j' => j' ≠ j /\ match vs !! j' with Some v => Exists (fun r => refers d r F v) cl | None => False end) (seq 0 (length vs)))) as [Hy|Hno].
  - left. apply Exists_exists in Hy as (j' & _ & Hne & Hr). destruct (vs !! j') as [v|] eqn:Hv; [|done]. apply Exists_exists in Hr as (r & Hr & Hrv).
    assert (clause_at c d cl F doc j') as Hat' by (exists r, v; split_and!; [done|done|by exists vs]).
    destruct (Hcase j' Hat') as [(s & e & n & Hin & _)|Hex']; [eauto|]. exfalso.
    assert (same_partition d F doc doc) as Hsp by (exists first, pm; done).
    destruct (Hex doc j' Hsp Hat') as [?|[_ [?|?]]]; [lia|done|]. destruct (Hex' doc j Hsp Hat) as [?|[_ [?|?]]]; [lia|by subst|lia].
  - right. intros doc' j' Hsp Hat'. destruct (Hex doc' j' Hsp Hat') as [?|[-> Hor]]; [by left|right]. split; [done|].
    destruct (decide (j' = j)) as [|Hne]; [done|]. exfalso. apply Hno. apply Exists_exists. exists j'.
    destruct Hat' as (r & v & Hr & Hrv & vs' & Hseq' & Hv). rewrite <- (doc_sequence_unique _ _ _ _ _ (en_dicts c d He) Hseq Hseq') in Hv.
    split; [apply elem_of_seq; apply lookup_lt_Some in Hv; lia|]. split; [done|]. rewrite Hv.
    apply Exists_exists. eauto.
Qed.
Print Assumptions C47_matching_documents_partial.

(** What holds for several clauses: occurrences of all clauses pairwise within the window
    lie in a passage of the document, unless no other such occurrence of the partition
    comes later or is joined to this one (the last run of the partition, if it is a
    single token). *)
Theorem C47_cooccurrences_reported_partial : forall c d clauses w arrival ps sorter,
  encodes c d -> permutes sorter -> all_done arrival (job_count d clauses) ->
  score_passages_dnf sorter arrival d clauses w = Ok ps ->
  forall F doc J j, cooccur c d clauses F w doc J -> j ∈ J ->
  in_passage ps F doc j \/
  forall doc' J' j', same_partition d F doc' doc -> cooccur c d clauses F w doc' J' -> j' ∈ J' ->
    (doc' < doc)%N \/ (doc' = doc /\ (j' = j \/ (N.of_nat j' + w < N.of_nat j)%N)).
Proof.
  intros c d clauses w arrival ps sorter He Hs Ha Hp F doc J j Hco Hj.
  assert (exists vs, doc_sequence c F doc vs) as [vs Hseq].
  { destruct Hco as (_ & H & _). destruct (H j Hj) as (cl & _ & r & v & _ & _ & vs & Hseq & _). eauto. }
  destruct (en_covered c d He F doc vs Hseq) as (first & (pm & Hpm & Hd) & Hu).
  destruct (passages_complete c d clauses sorter arrival w He Hs Ha ps Hp F first pm doc J j Hpm Hd Hco Hj) as [?|Hex]; [by left|right].
  intros doc' J' j' (f' & pm' & Hpm' & Hd1 & Hd2). assert (f' = first) as -> by (symmetry; apply Hu; eauto).
  rewrite Hpm in Hpm'. injection Hpm' as <-. by apply Hex.
Qed.
Print Assumptions C47_cooccurrences_reported_partial.

(** Both "x" and "b" of document 2 lie in its passage. *)
Example C47_example : cooccur corpus3 db3 query3 "text" 1 2 {[0; 1]} /\ in_passage passages3 "text" 2 1.
Proof.
  split.
  - assert (clause_at corpus3 db3 [ByKey "text" (t "x")] "text" 2 0) as H0.
    { exists (ByKey "text" (t "x")), (t "x"). split; [by left|split; [done|]]. exists [t "x"; t "b"]. split; [by apply sequence_computes|done]. }
    assert (clause_at corpus3 db3 [ByKey "text" (t "b"); ByKey "lang" (t "en")] "text" 2 1) as H1.
    { exists (ByKey "text" (t "b")), (t "b"). split; [by left|split; [done|]]. exists [t "x"; t "b"]. split; [by apply sequence_computes|done]. }
    split_and!.
    + intros i j Hi Hj. apply elem_of_union in Hi as [->%elem_of_singleton| ->%elem_of_singleton];
        apply elem_of_union in Hj as [->%elem_of_singleton| ->%elem_of_singleton]; unfold near, within; lia.
    + intros j Hj. apply elem_of_union in Hj as [->%elem_of_singleton| ->%elem_of_singleton]; eexists; (split; [|done]); [by left|by right; left].
    + intros cl Hcl _. apply elem_of_cons in Hcl as [->|Hcl]; [exists 0; split; [by apply elem_of_union_l, elem_of_singleton|done]|].
      apply elem_of_list_singleton in Hcl as ->. exists 1. split; [by apply elem_of_union_r, elem_of_singleton|done].
  - unfold in_passage. (assert (("text", 0%N, 1%N, 2) ∈ reported passages3 2) as H by by_computation). exists 0%N, 1%N, 2. split; [done|lia].
Qed.

(** ** C48 *)

(** The passage made of the matches from position [a] to position [b] of a document that
    starts at position [s]. *)
Definition passage_between (F : string) (M : gset N) (s a b : N) : passage :=
  (F, (a - s)%N, (b - s)%N, size (filter (fun x => (a <= x <= b)%N) M)).

(** The claim: the passages are exactly the maximal runs. *)
Definition C48_claim : Prop := forall F docs boundaries M w,
  delimited boundaries M -> size boundaries = S (size docs) ->
  exists ps, walk_passages F docs boundaries M w = Ok ps /\
    forall doc p, p ∈ reported ps doc <->
      exists a b s, run boundaries w M a b /\ in_document docs boundaries doc s a /\
        p = passage_between F M s a b.

(** It fails for a run of one match at the end. *)
Theorem C48_maximal_runs_refuted : ~ C48_claim.
Proof.
  intros H. destruct (H "text" {[0%N]} {[0; 3]}%N {[1%N]} 1%N) as (ps & Hps & Hin).
  - intros p ->%elem_of_singleton. split; [exists 0%N|exists 3%N]; (split; [by_computation|lia]).
  - by_computation.
  - assert (walk_passages "text" {[0%N]} {[0; 3]}%N {[1%N]} 1 = Ok ∅) as E by by_computation.
    rewrite E in Hps. injection Hps as <-. clear E.
    assert (passage_between "text" {[1%N]} 0 1 1 ∈ reported ∅ 0%N) as Hn; [|by apply elem_of_nil in Hn].
    apply Hin. exists 1%N, 1%N, 0%N. split_and!; [| |done].
    + split_and!; [set_solver|set_solver|lia|done|intros; lia| |]; intros x ->%elem_of_singleton; lia.
    + exists 0. split_and!; [by_computation|by_computation|lia|]. intros b Hb.
      assert (b = 0%N \/ b = 3%N) as [->| ->] by set_solver; lia.
Qed.
Print Assumptions C48_maximal_runs_refuted.

(** What holds: they are exactly the maximal runs except a run that is a single match and
    the last match of all. Documents without passages are not in the result, and the
    passages of a document are in the order of the text. *)
Theorem C48_maximal_runs_partial : forall F docs boundaries M w,
  delimited boundaries M -> size boundaries = S (size docs) ->
  exists ps, walk_passages F docs boundaries M w = Ok ps /\
    (forall doc p, p ∈ reported ps doc <->
      exists a b s, run boundaries w M a b /\ ~ (a = b /\ forall x, x ∈ M -> (x <= b)%N) /\
        in_document docs boundaries doc s a /\ p = passage_between F M s a b) /\
    (forall doc, ps !! doc ≠ Some []) /\
    (forall doc, StronglySorted (fun p q : passage => (p.1.2 < q.1.1.2)%N) (reported ps doc)).
Proof. intros F docs bd M w Hd Hs. exact (walk_passages_spec F docs bd M w Hd Hs). Qed.
Print Assumptions C48_maximal_runs_partial.

(** For the caller: two passages of one field of one document are more than a window
    apart. *)
Theorem C48_passages_separated : forall c d clauses w arrival ps sorter,
  encodes c d -> permutes sorter -> all_done arrival (job_count d clauses) ->
  score_passages_dnf sorter arrival d clauses w = Ok ps ->
  forall doc F s e n s' e' n',
    (F, s, e, n) ∈ reported ps doc -> (F, s', e', n') ∈ reported ps doc ->
    (s, e, n) = (s', e', n') \/ (e + w < s')%N \/ (e' + w < s)%N.
Proof. intros c d clauses w arrival ps sorter He Hs Ha Hp. exact (passages_separated c d clauses sorter arrival w He Hs Ha ps Hp). Qed.
Print Assumptions C48_passages_separated.

Example C48_example : delimited {[0; 5; 9]}%N {[1; 2; 6; 8]}%N /\ size ({[0; 5; 9]}%N : gset N) = S (size ({[7; 9]}%N : gset N)) /\
  walk_passages "text" {[7; 9]}%N {[0; 5; 9]}%N {[1; 2; 6; 8]}%N 1 =
  Ok {[7%N := [("text", 1%N, 2%N, 2)]; 9%N := [("text", 1%N, 1%N, 1)]]}.
Proof.
  split_and!; [|by_computation|by_computation].
  intros p Hp. split; [exists 0%N|exists 9%N]; (split; [by_computation|]); [lia|].
  assert (p = 1 \/ p = 2 \/ p = 6 \/ p = 8)%N by set_solver. lia.
Qed.

(** ** C49 *)

(** The claim: only features of the queried field are counted. *)
Definition C49_claim : Prop := forall c d F fs w arrival counts tq tw,
  encodes c d -> (forall f, f ∈ fs -> exists v, lookup_feature d f = Ok (F, v)) ->
  all_done arrival (length (field_partitions d F)) ->
  count_collocations arrival d F fs w = Ok (counts, tq, tw) ->
  forall g n, counts !! g = Some n -> exists v, lookup_feature d g = Ok (F, v).

Definition feature_id (d : db) (F : string) (v : value) : N :=
  match lookup_feature_id d (F, v) with Ok f => f | Err _ => 0%N end.

(** It fails: counting the neighbours of "x" in "text" also counts the title "one",
    whose positions have nothing to do with those of "text". *)
Theorem C49_own_field_refuted : ~ C49_claim.
Proof.
  intros H. set (x := feature_id db3 "text" (t "x")). set (g := feature_id db3 "title" (t "one")).
  assert (match count_collocations [0; 1] db3 "text" {[x]} 1 with
          | Ok (counts, _, _) => counts !! g = Some (1, 1) | Err _ => False end) as Hc.
  { assert ((match count_collocations [0; 1] db3 "text" {[x]} 1 with
          | Ok (counts, _, _) => counts !! g | Err _ => None end) = Some (1, 1)) as E by by_computation.
    by destruct (count_collocations [0; 1] db3 "text" {[x]} 1) as [[[counts tq] tw]|]. }
  destruct (count_collocations [0; 1] db3 "text" {[x]} 1) as [[[counts tq] tw]|] eqn:E; [|done].
  destruct (H corpus3 db3 "text" {[x]} 1%N [0; 1] counts tq tw encodes3) with (g := g) (n := (1, 1)) as [v Hv].
  - intros f ->%elem_of_singleton. exists (t "x"). clear. by_computation.
  - clear. assert (length (field_partitions db3 "text") = 2) as -> by by_computation. unfold all_done. reflexivity.
  - exact E.
  - exact Hc.
  - clear -Hv. assert (lookup_feature db3 g = Ok ("title", t "one")) as E by by_computation. rewrite E in Hv. clear E. discriminate Hv.
Qed.
Print Assumptions C49_own_field_refuted.

(** What holds: a counted feature has positions in a partition of its own field that
    starts at the same document as a partition of the queried field. *)
Theorem C49_own_field_partial : forall c d F fs w arrival counts tq tw,
  encodes c d -> (forall f, f ∈ fs -> exists v, lookup_feature d f = Ok (F, v)) ->
  all_done arrival (length (field_partitions d F)) ->
  count_collocations arrival d F fs w = Ok (counts, tq, tw) ->
  forall g n, counts !! g = Some n ->
  g ∉ fs /\ exists G v first, lookup_feature d g = Ok (G, v) /\
    is_Some (position_doc_map d !! (F, first)) /\ is_Some (position_doc_map d !! (G, first)).
Proof.
  intros c d F fs w arrival counts tq tw He Hfs Ha Hc g n Hg.
  destruct (collocations_tallied c d F fs w arrival He Hfs Ha) as (st & E & [_ _ _ T4]). rewrite Hc in E. injection E as <-. cbn in T4.
  assert (g ∉ fs) as Hn by (intros Hin; rewrite T4 in Hg; [done|by left]). split; [done|].
  destruct (decide (Exists (fun first => partition_positions d first g ≠ ∅) (field_partitions d F))) as [Hy|Hno].
  - apply Exists_exists in Hy as (first & Hf & Hne). apply field_partitions_in in Hf. unfold partition_positions in Hne.
    destruct (position_index d !! (g, first)) as [row|] eqn:Erow; [|done].
    destruct (en_rows c d He g first row Erow) as (_ & _ & G & v & pm & Hl & Hpm). exists G, v, first. eauto.
  - exfalso. rewrite T4 in Hg; [done|]. right. intros (first & Hf & Hne). apply Hno. apply Exists_exists. eauto.
Qed.
Print Assumptions C49_own_field_partial.

(** So with one positional field only its features are counted. *)
Theorem C49_single_field_partial : forall c d F fs w arrival counts tq tw,
  encodes c d -> (forall f, f ∈ fs -> exists v, lookup_feature d f = Ok (F, v)) ->
  all_done arrival (length (field_partitions d F)) ->
  count_collocations arrival d F fs w = Ok (counts, tq, tw) ->
  (forall G doc vs, doc_sequence c G doc vs -> G = F) ->
  forall g n, counts !! g = Some n -> exists v, lookup_feature d g = Ok (F, v).
Proof.
  intros c d F fs w arrival counts tq tw He Hfs Ha Hc Honly g n Hg.
  destruct (collocations_tallied c d F fs w arrival He Hfs Ha) as (st & E & [_ _ _ T4]). rewrite Hc in E. injection E as <-. cbn in T4.
  destruct (decide (Exists (fun first => partition_positions d first g ≠ ∅) (field_partitions d F))) as [Hy|Hno].
  - apply Exists_exists in Hy as (first & Hf & Hne). unfold partition_positions in Hne.
    destruct (position_index d !! (g, first)) as [row|] eqn:Erow; [|done].
    destruct (en_rows c d He g first row Erow) as (Hp & _ & G & v & pm & Hl & Hpm).
    apply set_choose_L in Hp as [p Hp]. destruct (pl_positions _ _ _ _ _ (en_partitions c d He G first pm Hpm) v p) as (i & doc & vs & st & _ & Hseq & _).
    { exists g, row. split_and!; [|done|done]. by apply (refers_id c d G He). }
    rewrite (Honly G doc vs Hseq) in Hl. eauto.
  - exfalso. rewrite T4 in Hg; [done|]. right. intros (first & Hf & Hne). apply Hno. apply Exists_exists. eauto.
Qed.
Print Assumptions C49_single_field_partial.

(** ** C50 *)

(** For every order in which the workers finish: the number of query positions is the
    number of tokens that are one of the given features; the number of window positions is
    the number of tokens near one of them (and, as the windows reach the start of the next
    document, the first tokens after a document that ends with one of them, and the end of
    a partition that ends with one); each other feature of the field has its number of
    tokens, in total and in the windows; features without tokens are not listed. *)
Theorem C50_collocation_counts : forall c d F fs w arrival,
  encodes c d -> (forall f, f ∈ fs -> exists v, lookup_feature d f = Ok (F, v)) ->
  all_done arrival (length (field_partitions d F)) ->
  let query := ById <$> elements fs in
  let in_window doc j := clause_near c d query F w doc (N.of_nat j) \/ (j = 0 /\ clause_before c d query F w doc) in
  exists counts tq tw, count_collocations arrival d F fs w = Ok (counts, tq, tw) /\
    (exists Q : gset (N * nat), tq = size Q /\ forall doc j, (doc, j) ∈ Q <-> clause_at c d query F doc j) /\
    (exists (W : gset (N * nat)) (E : gset N), tw = size W + size E /\
       (forall doc j, (doc, j) ∈ W <-> (exists v, token c F doc j v) /\ in_window doc j) /\
       (forall first, first ∈ E <-> clause_at_end c d query F w first)) /\
    forall g v, lookup_feature d g = Ok (F, v) ->
      match counts !! g with
      | Some (n, total) => g ∉ fs /\ total ≠ 0 /\
          (exists A : gset (N * nat), total = size A /\ forall doc j, (doc, j) ∈ A <-> token c F doc j v) /\
          (exists A : gset (N * nat), n = size A /\ forall doc j, (doc, j) ∈ A <-> token c F doc j v /\ in_window doc j)
      | None => g ∈ fs \/ forall doc j, ~ token c F doc j v
      end.
Proof.
  intros c d F fs w arrival He Hfs Ha query in_window.
  destruct (collocations_tallied c d F fs w arrival He Hfs Ha) as ([[counts tq] tw] & E & [T1 T2 T3 T4]). cbn in T1, T2, T3, T4.
  exists counts, tq, tw. split; [done|]. split_and!.
  - destruct (query_count c d F fs He Hfs) as (X & HX & Hin). exists X. split; [by rewrite T1, HX|done].
  - destruct (window_count c d F fs w He Hfs) as (X & EE & HX & Hin & Hend). exists X, EE. split; [by rewrite T2, HX|done].
  - intros g v Hg. destruct (feature_count c d F fs w He Hfs g v Hg) as ((A & HA & HAin) & (B & HB & HBin) & Hocc).
    destruct (decide (g ∈ fs)) as [Hin|Hnin]; [rewrite T4 by (by left); by left|].
    destruct (decide (Exists (fun first => partition_positions d first g ≠ ∅) (field_partitions d F))) as [Hy|Hno].
    + assert (occurs_in d g (field_partitions d F)) as Ho by (apply Exists_exists in Hy; done).
      rewrite (T3 g Hnin Ho). split; [done|]. split; [|split].
      * rewrite <- HA. apply Hocc in Ho as (doc & j & Ht). apply HAin in Ht. intros Hz%size_empty_inv.
        apply Hz in Ht. by apply not_elem_of_empty in Ht.
      * exists A. by rewrite HA.
      * exists B. by rewrite HB.
    + assert (~ occurs_in d g (field_partitions d F)) as Ho by (intros Ho; apply Hno, Exists_exists; done).
      rewrite T4 by (by right). right. intros doc j Ht. apply Ho, Hocc. eauto.
Qed.
Print Assumptions C50_collocation_counts.

(** The neighbours of "x" in the example: one "a" and one "b" of three (the "b" of
    document 2 and, next to the end of document 0, the first "b" of document 1 are near). *)
Example C50_example : let x := feature_id db3 "text" (t "x") in
  (forall f, f ∈ ({[x]} : gset N) -> exists v, lookup_feature db3 f = Ok ("text", v)) /\
  all_done [0; 1] (length (field_partitions db3 "text")) /\
  (match count_collocations [0; 1] db3 "text" {[x]} 1 with
   | Ok (counts, tq, tw) => Some (counts !! feature_id db3 "text" (t "a"), counts !! feature_id db3 "text" (t "b"),
                                  counts !! x, tq, tw)
   | Err _ => None end) = Some (Some (1, 2), Some (2, 3), None, 3, 8).
Proof.
  split; [|split].
  - intros f ->%elem_of_singleton. exists (t "x"). by_computation.
  - assert (length (field_partitions db3 "text") = 2) as -> by by_computation. unfold all_done. reflexivity.
  - by_computation.
Qed.

(** ** C51 *)

(** The documents to render: each has a key in the index and is in the corpus, and the
    fields of its passages are sequences of texts. *)
Record renderable (d : db) (c : corpus) (scored : list (N * list passage)) : Prop := {
  rn_keys : forall i j k, doc_key d !! i = Some k -> doc_key d !! j = Some k -> i = j;
  rn_nodup : NoDup scored.*1;
  rn_docs : forall doc pl, (doc, pl) ∈ scored -> exists key fs, doc_key d !! doc = Some key /\
    corpus_lookup c key = Some (Ok fs) /\ NoDup fs.*1 /\
    forall p, p ∈ pl -> exists tokens, text_field fs p.1.1.1 tokens }.

(** One row for every scored document, in any order, showing for each passage the tokens
    from [first_token] to before [last_token]. *)
Definition rendered_table (d : db) (c : corpus) (scored : list (N * list passage)) (first_token last_token : passage -> nat)
    (rows : list (N * value * gmap string shown)) : Prop :=
  rows.*1.*1 ≡ₚ scored.*1 /\
  forall doc key s, (doc, key, s) ∈ rows ->
    exists pl fs, (doc, pl) ∈ scored /\ doc_key d !! doc = Some key /\ corpus_lookup c key = Some (Ok fs) /\
      rendered fs pl first_token last_token s.

(** The claim: the passage and [overhang] tokens on either side. *)
Definition C51_claim : Prop := forall d c scored overhang batch_size arrival,
  renderable d c scored -> 0 < batch_size -> all_done arrival (length (chunks (length scored) batch_size scored)) ->
  exists rows, render_passages_table arrival d c overhang batch_size scored = Ok rows /\
    rendered_table d c scored (fun p => passage_start p - overhang) (fun p => passage_end p + 1 + overhang) rows.

Definition scored3 : list (N * list passage) := [(2%N, [("text", 0%N, 1%N, 2)])].
Lemma renderable3 : renderable db3 corpus3 scored3.
Proof.
  split.
  - intros i j k Hi Hj. assert (forall i k, doc_key db3 !! i = Some k -> (i, k) ∈ [(0, t "k0"); (1, t "k1"); (2, t "k2"); (3, t "k3")]%N) as H.
    { clear. intros i k H. apply elem_of_map_to_list in H.
      assert (map_to_list (doc_key db3) ≡ₚ [(0, t "k0"); (1, t "k1"); (2, t "k2"); (3, t "k3")]%N) as E by by_computation.
      by rewrite E in H. }
    apply H in Hi, Hj. clear H.
    rewrite !elem_of_cons, elem_of_nil in Hi, Hj. destruct_or!; simplify_eq; done.
  - repeat constructor. by intros ?%elem_of_nil.
  - intros doc pl Hin. apply elem_of_list_singleton in Hin as [= -> ->]. eexists (t "k2"), _. split; [by_computation|].
    split; [reflexivity|]. split; [by_computation|]. intros p ->%elem_of_list_singleton. exists ["x"; "b"]. by left.
Qed.

(** It fails: the slice ends before the last match, so "x b" is shown as "x". *)
Theorem C51_rendered_refuted : ~ C51_claim.
Proof.
  intros H. destruct (H db3 corpus3 scored3 0 10 [0] renderable3 ltac:(lia)) as (rows & Hr & _ & Hrows); [unfold all_done; reflexivity|].
  assert ((match render_passages_table [0] db3 corpus3 0 10 scored3 with Ok [(doc, key, s)] => Some (doc, key, map_to_list s) | _ => None end) =
    Some (2%N, t "k2", [("text", ShownPassages ["x"])])) as E by (vm_compute; reflexivity).
  rewrite Hr in E. clear Hr. destruct rows as [|[[doc key] s] [|? ?]]; [done| |done]. injection E as -> -> E.
  destruct (Hrows 2%N (t "k2") s) as (pl & fs & Hpl & _ & Hfs & Hren); [by left|].
  apply elem_of_list_singleton in Hpl as [= ->]. specialize (Hren "text").
  assert (corpus_lookup corpus3 (t "k2") = Some (Ok [("text", words ["x"; "b"])])) as Hl by reflexivity. rewrite Hl in Hfs. injection Hfs as <-.
  specialize (Hren ["x"; "b"] ltac:(by left)). apply elem_of_map_to_list in Hren. rewrite E in Hren.
  by apply elem_of_list_singleton in Hren.
Qed.
Print Assumptions C51_rendered_refuted.

(** What holds: one token less at the end. *)
Theorem C51_rendered_partial : forall d c scored overhang batch_size arrival,
  renderable d c scored -> 0 < batch_size -> all_done arrival (length (chunks (length scored) batch_size scored)) ->
  exists rows, render_passages_table arrival d c overhang batch_size scored = Ok rows /\
    rendered_table d c scored (fun p => passage_start p - overhang) (fun p => passage_end p + overhang) rows.
Proof.
  intros d c scored o bs arrival [H1 H2 H3] Hb Ha.
  destruct (render_table_ok d c o bs arrival scored H1 Hb H2 Ha H3) as (rows & Hr & Hp & Hrows).
  exists rows. split; [done|]. split; [done|]. intros doc key s Hin. rewrite Forall_forall in Hrows.
  destruct (Hrows _ Hin) as (pl & fs & ?). exists pl, fs. done.
Qed.
Print Assumptions C51_rendered_partial.

(** And a passage of a field that is not a sequence in the corpus, or that the document does
    not have, is an error: it is never shown as something else. *)
Definition is_a_sequence (fs : features) (F : string) : Prop := exists vs, (F, Seq vs) ∈ fs.
Theorem C51_not_a_sequence_raises : forall d c scored overhang batch_size arrival doc pl p key fs,
  (forall i j k, doc_key d !! i = Some k -> doc_key d !! j = Some k -> i = j) ->
  NoDup scored.*1 -> (forall x, x ∈ scored -> is_Some (doc_key d !! x.1)) ->
  0 < batch_size -> all_done arrival (length (chunks (length scored) batch_size scored)) ->
  (doc, pl) ∈ scored -> doc_key d !! doc = Some key -> corpus_lookup c key = Some (Ok fs) ->
  p ∈ pl -> ~ is_a_sequence fs p.1.1.1 ->
  exists e, render_passages_table arrival d c overhang batch_size scored = Err e.
Proof.
  intros d c scored o bs arrival doc pl p key fs Hinj Hnd Hkeys Hbs Hall Hin Hk Hl Hp Hbad.
  unfold render_passages_table. set (jobs := chunks (length scored) bs scored) in *.
  assert (concat jobs = scored) as Hc by (apply chunks_concat; [done|lia]).
  assert (exists job, job ∈ jobs /\ (doc, pl) ∈ job) as (job & Hj & Hdj).
  { rewrite <- Hc in Hin. apply elem_of_concat in Hin as (job & ? & ?). by exists job. }
  assert ((forall x, x ∈ job -> x ∈ scored) /\ NoDup job.*1) as [Hsub Hnj].
  { split.
    - intros x Hx. rewrite <- Hc. apply elem_of_concat. eauto.
    - rewrite <- Hc in Hnd. clear -Hj Hnd. induction jobs as [|j0 js IH]; [by apply elem_of_nil in Hj|].
      cbn in Hnd. rewrite fmap_app in Hnd. apply NoDup_app in Hnd as (H1 & _ & H2).
      apply elem_of_cons in Hj as [->|Hj]; auto. }
  apply elem_of_list_lookup in Hj as [i Hi].
  assert (i ∈ arrival) as Hia.
  { unfold all_done in Hall. rewrite Hall. apply elem_of_seq. apply lookup_lt_Some in Hi. lia. }
  match goal with |- context [rtraverse ?f arrival] => destruct (rtraverse_fails f arrival i Hia) as [e He] end.
  2:{ exists e. by rewrite He. }
  intros y. rewrite Hi. clear Hia Hall Hi. unfold construct_passages.
  set (sc := list_to_map job : gmap N (list passage)).
  assert (forall doc pl, sc !! doc = Some pl <-> (doc, pl) ∈ job) as Hsc.
  { intros ? ?. unfold sc. by rewrite <- elem_of_list_to_map. }
  destruct (docs_query_ok d c (dom sc) Hinj) as (docs & -> & _ & _ & Hdocs).
  { intros doc' [pl' Hpl]%elem_of_dom. apply Hsc, Hsub in Hpl. apply (Hkeys _ Hpl). }
  cbn [rbind].
  match goal with |- rtraverse ?f docs <> _ => destruct (rtraverse_fails f docs (doc, key, corpus_lookup c key)) as [e He] end.
  3:{ by rewrite He. }
  - apply Hdocs. split_and!; [|done|done]. apply elem_of_dom. exists pl. by apply Hsc.
  - intros z. rewrite Hl. cbn [rbind]. apply Hsc in Hdj. rewrite Hdj. change (default [] (Some pl)) with pl.
    unfold render_document.
    match goal with |- context [rtraverse ?f pl] => destruct (rtraverse_fails f pl p Hp) as [e He] end.
    2:{ by rewrite He. }
    intros w. unfold passage_text. destruct (List.find _ fs) as [[F fv]|] eqn:E; [|done].
    apply List.find_some in E as [E1 E2]. cbn in E2. apply bool_decide_eq_true in E2. subst F.
    destruct fv as [vs|vs]; [|done]. exfalso. apply Hbad. exists vs. by apply elem_of_list_In.
Qed.
Print Assumptions C51_not_a_sequence_raises.

(** A passage of the set of tags of a document. *)
Example C51_not_a_sequence_example :
  let c : corpus := [(t "k2", Ok [("tags", Coll [Some (VText "x"); Some (VText "b")])])] in
  corpus_lookup c (t "k2") = Some (Ok [("tags", Coll [Some (VText "x"); Some (VText "b")])]) /\
  exists e, render_passages_table [0] db3 c 1 10 [(2%N, [("tags", 0%N, 1%N, 2)])] = Err e.
Proof. split; [reflexivity|]. eexists. vm_compute. reflexivity. Qed.

(** With overhang 1 the passage "x b" of document 2 is shown in full. *)
Example C51_example : renderable db3 corpus3 scored3 /\
  match render_passages_table [0] db3 corpus3 1 10 scored3 with
  | Ok [(doc, key, s)] => Some (doc, key, map_to_list s) | _ => None
  end = Some (2%N, t "k2", [("text", ShownPassages ["x b"])]).
Proof. split; [apply renderable3|vm_compute; reflexivity]. Qed.
