(** PassageProofs.v: proofs about Passages.v. *)
From Verif Require Export SpecPassages UtilitiesProofs BaseProofs.

(** ** locate *)
Lemma bm_nth_ok b i x : bm_nth b (Z.of_nat i) = Ok x -> bm_list b !! i = Some x.
Proof.
  unfold bm_nth, py_nth. destruct (Z.ltb_spec (Z.of_nat i) 0); [lia|].
  destruct (Z.ltb_spec (Z.of_nat i) 0); [lia|]. rewrite Nat2Z.id. destruct (_ !! i); congruence.
Qed.
Lemma bm_nth_lookup b i x : bm_list b !! i = Some x -> bm_nth b (Z.of_nat i) = Ok x.
Proof.
  intros H. unfold bm_nth, py_nth. destruct (Z.ltb_spec (Z.of_nat i) 0); [lia|].
  destruct (Z.ltb_spec (Z.of_nat i) 0); [lia|]. by rewrite Nat2Z.id, H.
Qed.

Lemma bm_rank_pos b p s : s ∈ b -> (s <= p)%N -> 0 < bm_rank b p.
Proof.
  intros Hs Hp. unfold bm_rank. apply Nat.neq_0_lt_0. intros H%size_empty_inv. set_solver.
Qed.

Lemma brackets_same bd p s e : brackets bd p s e -> same_document bd s p.
Proof. intros (Hs & He & Hp & Hb) b Hbb. specialize (Hb b Hbb). lia. Qed.

Lemma locate_ok docs bd M p : delimited bd M -> size bd = S (size docs) -> p ∈ M ->
  exists s e doc i, locate docs bd p = Ok (s, e, doc) /\ brackets bd p s e /\
    bm_list docs !! i = Some doc /\ bm_list bd !! i = Some s.
Proof.
  intros Hd Hsz Hp. destruct (bracket_exists bd M p Hd Hp) as (s & e & Hb & H1 & H2).
  pose proof Hb as (Hs & He & Hpe & _). pose proof (bm_rank_pos bd p s Hs ltac:(lia)) as Hr.
  assert (bm_rank bd p < size bd) as Hlt.
  { apply bm_nth_ok, lookup_lt_Some in H2. by rewrite length_bm_list in H2. }
  destruct (bm_list docs !! (bm_rank bd p - 1)) as [doc|] eqn:Hdoc.
  2:{ apply lookup_ge_None in Hdoc. rewrite length_bm_list in Hdoc. lia. }
  assert (Z.of_nat (bm_rank bd p) - 1 = Z.of_nat (bm_rank bd p - 1))%Z as Hz by lia.
  exists s, e, doc, (bm_rank bd p - 1). split_and!; [|done|done|].
  - unfold locate. rewrite H1. cbn [rbind]. rewrite H2. cbn [rbind]. rewrite Hz, (bm_nth_lookup _ _ _ Hdoc). done.
  - rewrite Hz in H1. by apply bm_nth_ok.
Qed.

(** ** The walk *)
Lemma bm_list_inj bd i j x : bm_list bd !! i = Some x -> bm_list bd !! j = Some x -> i = j.
Proof. intros. eapply (NoDup_lookup (bm_list bd)); eauto using NoDup_bm_list. Qed.

Definition passage_of (F : string) (M : gset N) (s a b : N) : passage :=
  (F, (a - s)%N, (b - s)%N, size (filter (fun x => (a <= x <= b)%N) M)).

Lemma range_card_passage M a b :
  bm_range_card M a (b + 1) = size (filter (fun x => (a <= x <= b)%N) M).
Proof. unfold bm_range_card. f_equal. apply set_eq. intros x. rewrite !elem_of_filter. intuition lia. Qed.

Section walk.
  Context (F : string) (docs bd M : gset N) (w : N).
  Hypothesis Hdel : delimited bd M.
  Hypothesis Hsz : size bd = S (size docs).

  (** What has been reported: the runs that end before [lim]. *)
  Definition scored (ps : gmap N (list passage)) (lim : N) : Prop :=
    (forall doc p, p ∈ reported ps doc <->
       exists a b s, run bd w M a b /\ (b < lim)%N /\ in_document docs bd doc s a /\ p = passage_of F M s a b) /\
    (forall doc, ps !! doc ≠ Some []) /\
    (forall doc, StronglySorted (fun p q : passage => (p.1.2 < q.1.1.2)%N) (reported ps doc)).

  Record winv (dn : list N) (k : walk) : Prop := {
    wi_last : last dn = Some (wk_last k);
    wi_start : wk_start k ∈ dn;
    wi_le : forall x, x ∈ dn -> (x <= wk_last k)%N;
    wi_doc : exists s e doc i, wk_doc k = (s, e, doc) /\ brackets bd (wk_start k) s e /\
       brackets bd (wk_last k) s e /\ bm_list docs !! i = Some doc /\ bm_list bd !! i = Some s;
    wi_chain : forall x, x ∈ dn -> (wk_start k <= x < wk_last k)%N ->
       exists y, y ∈ dn /\ (x < y)%N /\ (y <= x + w)%N;
    wi_left : forall x, x ∈ dn -> (x < wk_start k)%N -> same_document bd x (wk_start k) -> (x + w < wk_start k)%N;
    wi_scored : scored (wk_scores k) (wk_start k) }.

  Lemma brackets_in bd' p q s e : brackets bd' p s e -> (s <= q < e)%N -> brackets bd' q s e.
  Proof. intros (? & ? & ? & ?) ?. by unfold brackets. Qed.

  Lemma brackets_same2 p q s e : brackets bd p s e -> brackets bd q s e -> same_document bd p q.
  Proof. intros (? & ? & ? & H) (? & ? & ? & _) b Hb. specialize (H b Hb). lia. Qed.

  Lemma in_document_start doc s i a e : bm_list docs !! i = Some doc -> bm_list bd !! i = Some s ->
    brackets bd a s e -> in_document docs bd doc s a.
  Proof.
    intros H1 H2 H3. exists i. split_and!; [done..| |by eapply brackets_same]. destruct H3 as (_ & _ & ? & _). lia.
  Qed.

  Lemma in_document_brackets doc s a : a ∈ M -> in_document docs bd doc s a ->
    exists i e, bm_list docs !! i = Some doc /\ bm_list bd !! i = Some s /\ brackets bd a s e.
  Proof.
    intros Ha (i & H1 & H2 & Hle & Hsame).
    destruct (bracket_exists bd M a Hdel Ha) as (s' & e & Hb & _).
    assert (s' = s) as ->.
    { assert (s ∈ bd) as Hs by (apply elem_of_bm_list; by eapply elem_of_list_lookup_2).
      destruct Hb as (Hs' & He & Hae & Hb). specialize (Hb s Hs). specialize (Hsame s' Hs'). lia. }
    eauto.
  Qed.

  (** Closing the current passage once everything after it is out of reach. *)
  Lemma close_scored dn k lim : winv dn k ->
    (forall x, x ∈ dn -> x ∈ M) ->
    (forall x, x ∈ M -> (x <= wk_last k)%N -> x ∈ dn) ->
    (forall x, x ∈ M -> (wk_last k < x)%N -> (lim <= x)%N) -> (wk_last k < lim)%N ->
    (forall x, x ∈ M -> (wk_last k < x)%N -> same_document bd (wk_last k) x -> (wk_last k + w < x)%N) ->
    scored (close_passage F M k) lim.
  Proof.
    intros [Hlast Hst Hle Hdoc Hch Hleft [Hsc [Hne Hso]]] HM Hdn Hlim Hll Hright.
    destruct Hdoc as (s & e & doc & i & Hk & Hb1 & Hb2 & Hi1 & Hi2).
    assert (wk_start k <= wk_last k)%N as Hsl by auto.
    assert (wk_last k ∈ dn) as Hldn by (apply last_Some in Hlast as [? ->]; set_solver).
    assert (run bd w M (wk_start k) (wk_last k)) as Hrun.
    { split_and!; [auto..|by eapply brackets_same2| | |].
      - intros x Hx Hr. destruct (Hch x) as (y & Hy & Hxy & Hyw); [apply Hdn; [done|lia]|done|].
        exists y. split; [auto|]. split; [|done]. split; [done|auto].
      - intros x Hx Hr. apply Hleft; [|done]. apply Hdn; [done|lia].
      - done. }
    assert (forall a b, run bd w M a b -> (b < lim)%N -> (b < wk_start k)%N \/ (a = wk_start k /\ b = wk_last k)) as Hruns.
    { intros a b Hr Hbl. destruct Hr as (Ha & Hb & Hab & Hsame & Hchain & Hl & Hrr).
      assert (b <= wk_last k)%N as Hbk by (destruct (N.le_gt_cases b (wk_last k)) as [|Hgt]; [done|]; specialize (Hlim b Hb Hgt); lia).
      destruct (N.lt_ge_cases b (wk_start k)) as [|Hbs]; [by left|]. right.
      assert (b = wk_last k) as ->.
      { destruct (N.eq_dec b (wk_last k)) as [|Hne']; [done|]. exfalso.
        destruct (Hch b) as (y & Hy & Hby & Hyw); [by apply Hdn|lia|].
        assert (same_document bd b y) as Hsm.
        { apply (brackets_same2 b y s e); (eapply brackets_in; [exact Hb1|]); destruct Hb1 as (_ & _ & ? & _), Hb2 as (_ & _ & ? & _);
            pose proof (Hle y Hy); lia. }
        specialize (Hrr y (HM y Hy) Hby Hsm). lia. }
      split; [|done]. destruct (N.lt_trichotomy a (wk_start k)) as [Hlt|[->|Hgt]]; [|done|]; exfalso.
      - (* the run would have to cross into the current passage *)
        assert (forall n x, x ∈ M -> (a <= x < wk_start k)%N -> (N.to_nat (wk_start k - x) <= n)%nat -> False) as Hstep.
        { induction n as [|n IH]; intros x Hx Hr Hn; [lia|].
          destruct (Hchain x Hx ltac:(lia)) as (y & Hy & Hxy & Hyw).
          destruct (N.lt_ge_cases y (wk_start k)) as [Hys|Hys]; [apply (IH y Hy); lia|].
          assert (same_document bd x (wk_start k)) as Hsm.
          { intros b' Hb'. specialize (Hsame b' Hb'). lia. }
          assert (x ∈ dn) as Hxd by (apply Hdn; [done|lia]).
          specialize (Hleft x Hxd ltac:(lia) Hsm). lia. }
        apply (Hstep (N.to_nat (wk_start k - a)) a Ha); lia.
      - (* the start would not be maximal on the left *)
        assert (forall n x, x ∈ dn -> (wk_start k <= x < a)%N -> (N.to_nat (a - x) <= n)%nat -> False) as Hstep.
        { induction n as [|n IH]; intros x Hx Hr Hn; [lia|].
          destruct (Hch x Hx ltac:(lia)) as (y & Hy & Hxy & Hyw).
          destruct (N.lt_ge_cases y a) as [Hys|Hys]; [apply (IH y Hy); lia|].
          assert (same_document bd x a) as Hsm.
          { apply (brackets_same2 x a s e); (eapply brackets_in; [exact Hb1|]); destruct Hb1 as (_ & _ & ? & _), Hb2 as (_ & _ & ? & _); lia. }
          specialize (Hl x (HM x Hx) ltac:(lia) Hsm). lia. }
        apply (Hstep (N.to_nat (a - wk_start k)) (wk_start k) Hst); lia. }
    assert (close_passage F M k = <[doc := reported (wk_scores k) doc ++ [passage_of F M s (wk_start k) (wk_last k)]]> (wk_scores k)) as ->.
    { unfold close_passage, passage_of, reported. rewrite Hk. by rewrite range_card_passage. }
    assert (forall doc', reported (<[doc:=reported (wk_scores k) doc ++ [passage_of F M s (wk_start k) (wk_last k)]]> (wk_scores k)) doc' =
      reported (wk_scores k) doc' ++ (if decide (doc' = doc) then [passage_of F M s (wk_start k) (wk_last k)] else [])) as Hrep.
    { intros doc'. unfold reported at 1. destruct (decide (doc' = doc)) as [->|Hn].
      - by rewrite lookup_insert.
      - rewrite lookup_insert_ne by done. by rewrite app_nil_r. }
    split; [|split].
    - intros doc' p. rewrite Hrep, elem_of_app, (Hsc doc' p). split.
      + intros [(a & b & s' & Hr & Hbs & Hd & ->)|Hp].
        * exists a, b, s'. split_and!; [done|lia|done|done].
        * destruct (decide (doc' = doc)) as [->|]; [|by apply elem_of_nil in Hp].
          apply elem_of_list_singleton in Hp as ->. exists (wk_start k), (wk_last k), s.
          split_and!; [done|done|by eapply in_document_start|done].
      + intros (a & b & s' & Hr & Hbl & Hd & ->). destruct (Hruns a b Hr Hbl) as [Hbs|[-> ->]].
        * left. exists a, b, s'. done.
        * right. destruct (in_document_brackets doc' s' (wk_start k)) as (i' & e' & Hi1' & Hi2' & Hb'); [auto|done|].
          destruct (brackets_unique _ _ _ _ _ _ Hb' Hb1) as [-> ->].
          pose proof (bm_list_inj _ _ _ _ Hi2 Hi2') as <-. rewrite Hi1 in Hi1'. injection Hi1' as <-.
          rewrite decide_True by done. set_solver.
    - intros doc'. destruct (decide (doc' = doc)) as [->|Hn]; [rewrite lookup_insert|by rewrite lookup_insert_ne].
      intros Heq. injection Heq as Heq. by apply app_nil in Heq as [_ ?].
    - intros doc'. rewrite Hrep. destruct (decide (doc' = doc)) as [->|Hn]; [|rewrite app_nil_r; auto].
      assert (forall p, p ∈ reported (wk_scores k) doc -> (p.1.2 < (passage_of F M s (wk_start k) (wk_last k)).1.1.2)%N) as Hlt.
      { intros p Hp. apply Hsc in Hp as (a & b & s' & Hr & Hbs & Hd & ->). cbn.
        destruct Hr as (Ha & Hb & Hab & _).
        destruct (in_document_brackets doc s' a Ha Hd) as (i' & e' & Hi1' & Hi2' & Hb').
        pose proof (bm_list_inj docs i i' doc Hi1 Hi1') as <-. rewrite Hi2 in Hi2'. injection Hi2' as <-.
        destruct Hb' as (_ & _ & ? & _), Hb1 as (_ & _ & ? & _). lia. }
      revert Hlt. generalize (Hso doc). generalize (reported (wk_scores k) doc). intros l Hl Hlt.
      induction Hl as [|p l Hl IH Hf]; cbn [app]; [repeat constructor|].
      constructor; [apply IH; intros; apply Hlt; by right|]. apply Forall_app. split; [done|].
      repeat constructor. apply Hlt. by left.
  Qed.

  Lemma walk_passages_spec :
    exists ps, walk_passages F docs bd M w = Ok ps /\
      (forall doc p, p ∈ reported ps doc <->
         exists a b s, run bd w M a b /\ ~ (a = b /\ forall x, x ∈ M -> (x <= b)%N) /\
           in_document docs bd doc s a /\ p = passage_of F M s a b) /\
      (forall doc, ps !! doc ≠ Some []) /\
      (forall doc, StronglySorted (fun p q : passage => (p.1.2 < q.1.1.2)%N) (reported ps doc)).
  Proof.
    unfold walk_passages. destruct (bm_list M) as [|p0 rest] eqn:HL.
    { exists ∅. split; [done|]. apply bm_list_nil in HL. split; [|split].
      - intros doc p. unfold reported. rewrite lookup_empty. cbn. split; [by intros ?%elem_of_nil|].
        intros (a & b & s & (Ha & _) & _). rewrite HL in Ha. by apply not_elem_of_empty in Ha.
      - intros doc. by rewrite lookup_empty.
      - intros doc. unfold reported. rewrite lookup_empty. constructor. }
    pose proof (sorted_bm_list M) as Hsort. rewrite HL in Hsort.
    assert (forall x, x ∈ M <-> x ∈ p0 :: rest) as HM by (intros x; by rewrite <- HL, elem_of_bm_list).
    assert (forall dn x rs, p0 :: rest = dn ++ x :: rs -> (forall y, y ∈ dn -> (y < x)%N) /\ (forall y, y ∈ rs -> (x < y)%N)) as Hsplit.
    { intros dn x rs He. rewrite He in Hsort. clear -Hsort. induction dn as [|a dn IH].
      - cbn in Hsort. inversion Hsort as [|? ? _ Hf]; subst. split; [by intros ? ?%elem_of_nil|].
        intros y Hy. rewrite Forall_forall in Hf. auto.
      - cbn in Hsort. inversion Hsort as [|? ? Hs Hf]; subst. destruct (IH Hs) as [H1 H2]. split; [|done].
        intros y Hy. apply elem_of_cons in Hy as [->|Hy]; [|auto]. rewrite Forall_forall in Hf. apply Hf. set_solver. }
    destruct (locate_ok docs bd M p0 Hdel Hsz) as (s0 & e0 & doc0 & i0 & Hloc & Hb0 & Hd0 & Hs0); [apply HM; by left|].
    rewrite Hloc. cbn [rbind].
    destruct (rfold_ok (fun dn k => winv (p0 :: dn) k) (walk_step F docs bd M w) rest (Walk p0 p0 (s0, e0, doc0) ∅)) as (k & Hk & Hinv).
    - split; cbn [wk_start wk_last wk_doc wk_scores]; [done|by left| | | | |].
      + intros x Hx. apply elem_of_list_singleton in Hx as ->. lia.
      + exists s0, e0, doc0, i0. done.
      + intros x _ ?. lia.
      + intros x Hx ?. apply elem_of_list_singleton in Hx as ->. lia.
      + split; [|split].
        * intros doc p. unfold reported. rewrite lookup_empty. cbn. split; [by intros ?%elem_of_nil|].
          intros (a & b & s & (Ha & Hb & _) & Hlt & _). apply HM in Hb.
          apply elem_of_cons in Hb as [->|Hb]; [lia|].
          destruct (Hsplit [] p0 rest eq_refl) as [_ H2]. specialize (H2 b Hb). lia.
        * intros doc. by rewrite lookup_empty.
        * intros doc. unfold reported. rewrite lookup_empty. constructor.
    - intros dn x rs k Hrest Hinv. pose proof Hinv as [Hlast Hst Hle Hdoc Hch Hleft Hsc].
      destruct Hdoc as (s & e & doc & i & Hkd & Hb1 & Hb2 & Hi1 & Hi2).
      assert (p0 :: rest = (p0 :: dn) ++ x :: rs) as He by (cbn; by rewrite Hrest).
      destruct (Hsplit _ _ _ He) as [Hlt Hgt].
      assert (x ∈ M) as HxM by (apply HM; rewrite He; set_solver).
      assert (wk_last k ∈ p0 :: dn) as Hldn by (apply last_Some in Hlast as [l ->]; set_solver).
      pose proof (Hlt _ Hldn) as Hlx.
      assert (forall y, y ∈ p0 :: dn -> y ∈ M) as HdM by (intros y Hy; apply HM; rewrite He; set_solver).
      assert (forall y, y ∈ M -> y ∈ p0 :: dn \/ (x <= y)%N) as Hcase.
      { intros y Hy. apply HM in Hy. rewrite He in Hy. apply elem_of_app in Hy as [Hy|Hy]; [by left|right].
        apply elem_of_cons in Hy as [->|Hy]; [lia|]. specialize (Hgt y Hy). lia. }
      assert (forall y, y ∈ M -> (y <= wk_last k)%N -> y ∈ p0 :: dn) as Hin.
      { intros y Hy Hyl. destruct (Hcase y Hy); [done|lia]. }
      assert (forall y, y ∈ M -> (wk_last k < y)%N -> (x <= y)%N) as Hout.
      { intros y Hy Hyl. destruct (Hcase y Hy) as [Hy'|]; [|done]. specialize (Hle y Hy'). lia. }
      assert (forall y, y ∈ p0 :: dn ++ [x] <-> y ∈ p0 :: dn \/ y = x) as Hmem by set_solver.
      assert (last (p0 :: dn ++ [x]) = Some x) as Hlast' by (change (p0 :: dn ++ [x]) with ((p0 :: dn) ++ [x]); apply last_snoc).
      unfold walk_step. rewrite Hkd. cbn [fst snd]. destruct (N.leb_spec e x) as [Hex|Hex].
      + destruct (locate_ok docs bd M x Hdel Hsz HxM) as (s1 & e1 & doc1 & i1 & Hloc1 & Hb & Hd1 & Hs1).
        rewrite Hloc1. cbn [rbind]. eexists. split; [reflexivity|].
        assert (forall y, (y <= wk_last k)%N -> ~ same_document bd y x) as Hns.
        { intros y Hy Hsm. destruct Hb2 as (_ & Hee & Hb2 & _). specialize (Hsm e Hee). lia. }
        split; cbn [wk_start wk_last wk_doc wk_scores]; [done|apply Hmem; by right| | | | |].
        * intros y Hy. apply Hmem in Hy as [Hy| ->]; [|lia]. specialize (Hlt y Hy). lia.
        * exists s1, e1, doc1, i1. done.
        * intros y _ ?. lia.
        * intros y Hy Hyx Hsm. apply Hmem in Hy as [Hy| ->]; [|lia]. by destruct (Hns y (Hle y Hy)).
        * apply (close_scored (p0 :: dn) k x); auto. intros y Hy Hyl Hsm. exfalso.
          specialize (Hout y Hy Hyl). destruct Hb2 as (_ & Hee & Hb2 & _). specialize (Hsm e Hee). lia.
      + assert (brackets bd x s e) as Hbx by (eapply brackets_in; [exact Hb2|]; destruct Hb2 as (_ & _ & ? & _); lia).
        destruct (N.ltb_spec w (x - wk_last k)) as [Hw|Hw].
        * eexists. split; [reflexivity|].
          split; cbn [wk_start wk_last wk_doc wk_scores]; [done|apply Hmem; by right| | | | |].
          -- intros y Hy. apply Hmem in Hy as [Hy| ->]; [|lia]. specialize (Hlt y Hy). lia.
          -- exists s, e, doc, i. done.
          -- intros y _ ?. lia.
          -- intros y Hy Hyx _. apply Hmem in Hy as [Hy| ->]; [|lia]. specialize (Hle y Hy). lia.
          -- apply (close_scored (p0 :: dn) k x); auto. intros y Hy Hyl _. specialize (Hout y Hy Hyl). lia.
        * eexists. split; [reflexivity|].
          split; cbn [wk_start wk_last wk_doc wk_scores]; [done|apply Hmem; by left| | | | |].
          -- intros y Hy. apply Hmem in Hy as [Hy| ->]; [|lia]. specialize (Hlt y Hy). lia.
          -- exists s, e, doc, i. done.
          -- intros y Hy Hr. apply Hmem in Hy as [Hy| ->]; [|lia].
             destruct (N.eq_dec y (wk_last k)) as [->|Hn].
             ++ exists x. split; [apply Hmem; by right|lia].
             ++ specialize (Hle y Hy). destruct (Hch y Hy ltac:(lia)) as (z & Hz & ? & ?).
                exists z. split; [apply Hmem; by left|done].
          -- intros y Hy Hyx. apply Hmem in Hy as [Hy| ->]; [auto|]. specialize (Hlt _ Hst). lia.
          -- done.
    - rewrite Hk. cbn [rbind]. eexists. split; [reflexivity|].
      pose proof Hinv as [Hlast Hst Hle Hdoc Hch Hleft Hsc].
      assert (forall x, x ∈ M -> (x <= wk_last k)%N) as Hmax by (intros x Hx; apply Hle, HM, Hx).
      assert (wk_last k ∈ M) as HlM.
      { apply HM. apply last_Some in Hlast as [l ->]. set_solver. }
      destruct (N.eqb_spec (wk_last k) (wk_start k)) as [Heq|Hneq].
      + destruct Hsc as (H1 & H2 & H3). split; [|done]. intros doc p. rewrite (H1 doc p).
        split; intros (a & b & s & Hr & Hcond & Hin & ->); exists a, b, s; (split; [done|]); (split; [|done]).
        * intros [-> Hall]. specialize (Hall _ HlM). lia.
        * pose proof Hr as (Ha & Hb & Hab & Hsame & Hchain & Hl & Hrr).
          destruct (N.lt_ge_cases b (wk_start k)) as [|Hge]; [done|]. exfalso. apply Hcond.
          assert (b = wk_last k) as -> by (specialize (Hmax b Hb); lia).
          split; [|done]. destruct (N.eq_dec a (wk_last k)) as [|Hne]; [done|]. exfalso.
          assert (forall n x, x ∈ M -> (a <= x < wk_last k)%N -> (N.to_nat (wk_last k - x) <= n)%nat -> False) as Hstep.
          { induction n as [|n IH]; intros x Hx Hr' Hn; [lia|].
            destruct (Hchain x Hx ltac:(lia)) as (y & Hy & Hxy & Hyw).
            destruct (N.lt_ge_cases y (wk_last k)) as [Hys|Hys]; [apply (IH y Hy); lia|].
            assert (same_document bd x (wk_start k)) as Hsm.
            { intros b' Hb'. specialize (Hsame b' Hb'). lia. }
            apply HM in Hx. specialize (Hleft x Hx ltac:(lia) Hsm). lia. }
          apply (Hstep (N.to_nat (wk_last k - a)) a Ha); lia.
      + destruct (close_scored (p0 :: rest) k (wk_last k + 1)) as (H1 & H2 & H3); [done|..].
        * intros x Hx. by apply HM.
        * intros x Hx _. by apply HM.
        * intros x Hx ?. lia.
        * lia.
        * intros x Hx Hgt. specialize (Hmax x Hx). lia.
        * split; [|done]. intros doc p. rewrite (H1 doc p).
          split; intros (a & b & s & Hr & Hcond & Hin & ->); exists a, b, s; (split; [done|]); (split; [|done]).
          -- intros [-> Hall]. pose proof Hr as (Ha & Hb & Hab & Hsame & Hchain & Hl & Hrr).
             assert (b = wk_last k) as -> by (specialize (Hall _ HlM); specialize (Hmax b Hb); lia).
             (* the last position alone is not a run: it is within w of the previous one *)
             assert (forall n x, x ∈ p0 :: rest -> (wk_start k <= x < wk_last k)%N -> (N.to_nat (wk_last k - x) <= n)%nat -> False) as Hstep.
             { induction n as [|n IH]; intros x Hx Hr' Hn; [lia|].
               destruct (Hch x Hx Hr') as (y & Hy & Hxy & Hyw).
               destruct (N.lt_ge_cases y (wk_last k)) as [Hys|Hys]; [apply (IH y Hy); lia|].
               assert (same_document bd x (wk_last k)) as Hsm.
               { destruct Hdoc as (s' & e' & ? & ? & ? & Hb1 & Hb2 & _).
                 apply (brackets_same2 x (wk_last k) s' e'); [|done]. eapply brackets_in; [exact Hb1|].
                 destruct Hb1 as (_ & _ & ? & _), Hb2 as (_ & _ & ? & _). lia. }
               specialize (Hl x ltac:(by apply HM) ltac:(lia) Hsm). lia. }
             specialize (Hle _ Hst). apply (Hstep (N.to_nat (wk_last k - wk_start k)) (wk_start k) Hst); lia.
          -- destruct Hr as (_ & Hb & _). specialize (Hmax b Hb). lia.
  Qed.
End walk.
