(** RenderProofs.v: proofs about passage rendering. *)
From Verif Require Export CollocationProofs.

Lemma chunks_concat {A} fuel size (l : list A) : 0 < size -> length l <= fuel -> concat (chunks fuel size l) = l.
Proof.
  intros Hs. revert l. induction fuel as [|fuel IH]; intros l Hl.
  - destruct l; [done|cbn in Hl; lia].
  - destruct l as [|x l]; [done|]. cbn [chunks concat]. rewrite IH.
    + apply take_drop.
    + rewrite drop_length. cbn in *. lia.
Qed.

Lemma rtraverse_fails {A B} (f : A -> res B) l x : x ∈ l -> (forall y, f x <> Ok y) -> exists e, rtraverse f l = Err e.
Proof.
  intros Hx Hf. destruct (rtraverse f l) as [ys|e] eqn:E; [|by exists e].
  apply rtraverse_ok_iff in E. exfalso. clear -Hx Hf E. induction E as [|a b l ys Hy E IH]; [by apply elem_of_nil in Hx|].
  apply elem_of_cons in Hx as [->|Hx]; [by apply Hf in Hy|by apply IH].
Qed.

Lemma find_field (fs : features) F fv : NoDup fs.*1 -> (F, fv) ∈ fs ->
  List.find (fun x => bool_decide (x.1 = F)) fs = Some (F, fv).
Proof.
  induction fs as [|[G x] fs IH]; intros Hnd Hin; [by apply elem_of_nil in Hin|].
  cbn in Hnd. apply NoDup_cons in Hnd as [Hn Hnd]. cbn. apply elem_of_cons in Hin as [Heq|Hin].
  - injection Heq as <- <-. by rewrite bool_decide_eq_true_2.
  - rewrite bool_decide_eq_false_2; [by apply IH|]. intros ->. apply Hn. apply elem_of_list_fmap. by exists (F, fv).
Qed.

Lemma field_fun (fs : features) F x y : NoDup fs.*1 -> (F, x) ∈ fs -> (F, y) ∈ fs -> x = y.
Proof. intros Hnd Hx Hy. pose proof (find_field fs F x Hnd Hx). pose proof (find_field fs F y Hnd Hy). congruence. Qed.

Lemma join_texts (l : list string) : join_spaces ((fun s => Some (VText s)) <$> l) = Ok (String.concat " " l).
Proof.
  unfold join_spaces.
  assert (rtraverse (fun v => match v with Some (VText s) => Ok s | _ => Err TypeError end) ((fun s => Some (VText s)) <$> l) = Ok l) as ->; [|done].
  induction l as [|s l IH]; [done|]. cbn [fmap list_fmap rtraverse rbind]. rewrite IH. done.
Qed.

Lemma passage_text_ok o fs p tokens : NoDup fs.*1 -> text_field fs p.1.1.1 tokens ->
  passage_text o fs p = Ok (joined tokens (passage_start p - o) (passage_end p + o)).
Proof.
  intros Hnd Ht. destruct p as [[[F s] e] n]. cbn in Ht. unfold passage_text. cbn [fst].
  rewrite (find_field fs F _ Hnd Ht). unfold passage_slice, slice.
  rewrite <- fmap_drop, <- fmap_take. apply join_texts.
Qed.

Lemma render_document_ok o fs pl : NoDup fs.*1 ->
  (forall p, p ∈ pl -> exists tokens, text_field fs p.1.1.1 tokens) ->
  exists sh, render_document o fs pl = Ok sh /\
    rendered fs pl (fun p => passage_start p - o) (fun p => passage_end p + o) sh.
Proof.
  intros Hnd Hpl. unfold render_document.
  match goal with |- context [rtraverse ?f pl] => destruct (rtraverse_total f pl) as [texts Ht] end.
  { intros p Hp. destruct (Hpl p Hp) as [tk Htk]. rewrite (passage_text_ok o fs p tk Hnd Htk). by eexists. }
  rewrite Ht. cbn [rbind]. eexists. split; [reflexivity|]. apply rtraverse_ok_iff in Ht.
  set (sets := list_to_map _).
  assert (forall F tokens, text_field fs F tokens ->
    (filter (fun x : string * string => x.1 = F) texts).*2 =
    (fun p => joined tokens (passage_start p - o) (passage_end p + o)) <$> filter (fun p : passage => p.1.1.1 = F) pl) as Htexts.
  { intros F tokens HF. clear -Ht HF Hnd. induction Ht as [|p y pl texts Hy Ht IH]; [done|].
    unfold rmap in Hy. destruct (passage_text o fs p) as [t|] eqn:E; [|done]. injection Hy as <-.
    rewrite !filter_cons. cbn [fst]. case_decide as HpF; [|done]. cbn. rewrite IH. f_equal.
    subst F. rewrite (passage_text_ok o fs p tokens Hnd HF) in E. by injection E as <-. }
  assert (forall F, F ∈ texts.*1 <-> filter (fun p : passage => p.1.1.1 = F) pl ≠ []) as Hin.
  { intros F. clear -Ht. induction Ht as [|p y pl texts Hy Ht IH].
    - split; [by intros ?%elem_of_nil|done].
    - unfold rmap in Hy. destruct (passage_text o fs p) as [t|] eqn:E; [|done]. injection Hy as <-. rewrite fmap_cons. cbn [fst].
      rewrite elem_of_cons, filter_cons. case_decide as HpF; [|rewrite IH]; naive_solver. }
  assert (forall (l : list string) F, (foldr (fun F m => <[F := ShownPassages (filter (fun x : string * string => x.1 = F) texts).*2]> m) sets l) !! F
    = if decide (F ∈ l) then Some (ShownPassages (filter (fun x : string * string => x.1 = F) texts).*2) else sets !! F) as Hfold.
  { induction l as [|G l IH]; intros F; [done|]. cbn [foldr]. destruct (decide (G = F)) as [->|Hne].
    - rewrite lookup_insert, decide_True; [done|by left].
    - rewrite lookup_insert_ne by done. rewrite IH. destruct (decide (F ∈ l)); destruct (decide (F ∈ G :: l)); set_solver. }
  intros F. rewrite Hfold. destruct (filter (fun p : passage => p.1.1.1 = F) pl) as [|p0 of] eqn:Ef.
  - rewrite decide_False by (rewrite Hin, Ef; naive_solver). unfold sets.
    intros x. rewrite <- elem_of_list_to_map.
    + rewrite elem_of_list_omap. split.
      * intros ([G fv] & HG & E). cbn in E. destruct fv as [|vs]; [done|]. injection E as <- <-. eauto.
      * intros (vs & HF & ->). exists (F, Coll vs). done.
    + clear -Hnd. induction fs as [|[G fv] fs IH]; cbn; [constructor|]. cbn in Hnd. apply NoDup_cons in Hnd as [Hn Hnd].
      destruct fv; [auto|]. cbn. apply NoDup_cons. split; [|auto]. intros Hg. apply Hn.
      apply elem_of_list_fmap in Hg as ([G' x] & -> & Hg). apply elem_of_list_omap in Hg as ([G2 fv] & Hg & E). cbn in E.
      destruct fv; [done|]. injection E as <- <-. apply elem_of_list_fmap. by eexists (_, _).
  - rewrite decide_True by (rewrite Hin, Ef; done). intros tokens HF. by rewrite (Htexts F tokens HF), Ef.
Qed.

Section table.
  Context (d : db) (c : corpus) (o bs : nat) (arrival : list nat) (scored : list (N * list passage)).
  Hypothesis Hinj : forall i j k, doc_key d !! i = Some k -> doc_key d !! j = Some k -> i = j.
  Hypothesis Hbs : 0 < bs.
  Hypothesis Hnd : NoDup scored.*1.
  Hypothesis Hall : all_done arrival (length (chunks (length scored) bs scored)).
  Hypothesis Hdocs : forall doc pl, (doc, pl) ∈ scored -> exists key fs, doc_key d !! doc = Some key /\
    corpus_lookup c key = Some (Ok fs) /\ NoDup fs.*1 /\
    forall p, p ∈ pl -> exists tokens, text_field fs p.1.1.1 tokens.

  Definition row_ok (x : N * value * gmap string shown) : Prop :=
    exists pl fs, (x.1.1, pl) ∈ scored /\ doc_key d !! x.1.1 = Some x.1.2 /\ corpus_lookup c x.1.2 = Some (Ok fs) /\
      rendered fs pl (fun p => passage_start p - o) (fun p => passage_end p + o) x.2.

  Lemma construct_ok (job : list (N * list passage)) : (forall x, x ∈ job -> x ∈ scored) -> NoDup job.*1 ->
    exists rows, construct_passages d c o (list_to_map job) = Ok rows /\
      rows.*1.*1 ≡ₚ job.*1 /\ Forall row_ok rows.
  Proof.
    intros Hsub Hnj. set (sc := list_to_map job : gmap N (list passage)).
    assert (forall doc pl, sc !! doc = Some pl <-> (doc, pl) ∈ job) as Hsc.
    { intros doc pl. unfold sc. by rewrite <- elem_of_list_to_map. }
    unfold construct_passages. fold sc. destruct (docs_query_ok d c (dom sc) Hinj) as (docs & -> & _ & Hnd' & Hin).
    { intros doc [pl Hpl]%elem_of_dom. apply Hsc, Hsub, Hdocs in Hpl as (key & fs & Hk & _). by exists key. }
    cbn [rbind].
    match goal with |- context [rtraverse ?f docs] => set (g := f); destruct (rtraverse_total g docs) as [rows Hrows] end.
    { intros [[doc key] x] Hx. apply Hin in Hx as (Hd & Hk & ->). apply elem_of_dom in Hd as [pl Hpl].
      destruct (Hdocs doc pl) as (key' & fs & Hk' & Hl & Hn & Hp); [by apply Hsub, Hsc|].
      rewrite Hk in Hk'. injection Hk' as <-. unfold g. rewrite Hl, Hpl. cbn [rbind]. change (default [] (Some pl)) with pl.
      destruct (render_document_ok o fs pl Hn Hp) as (sh & -> & _). by eexists. }
    rewrite Hrows. exists rows. split; [done|]. apply rtraverse_ok_iff in Hrows.
    assert (Forall2 (fun x y => y.1.1 = x.1.1 /\ row_ok y) docs rows) as HF.
    { assert (forall x, x ∈ docs -> x.1.1 ∈ dom sc /\ doc_key d !! x.1.1 = Some x.1.2 /\ x.2 = corpus_lookup c x.1.2) as Hx
        by (intros [[? ?] ?] ?; by apply Hin).
      clear Hin Hnd'. induction Hrows as [|[[doc key] x] y docs rows Hy Hr IH]; [constructor|].
      constructor; [|apply IH; intros; apply Hx; by right]. destruct (Hx _ ltac:(by left)) as (Hd & Hk & Hxx). cbn [fst snd] in *. subst x.
      apply elem_of_dom in Hd as [pl Hpl].
      destruct (Hdocs doc pl) as (key' & fs & Hk' & Hl & Hn & Hp); [by apply Hsub, Hsc|].
      rewrite Hk in Hk'. injection Hk' as <-. unfold g in Hy. rewrite Hl, Hpl in Hy. cbn [rbind] in Hy. change (default [] (Some pl)) with pl in Hy.
      destruct (render_document_ok o fs pl Hn Hp) as (sh & E & Hren). rewrite E in Hy. cbn in Hy. injection Hy as <-. cbn.
      split; [done|]. exists pl, fs. cbn. split_and!; [by apply Hsub, Hsc|done|done|done]. }
    split.
    - assert (rows.*1.*1 = docs.*1.*1) as ->.
      { clear -HF. induction HF as [|x y docs rows [E _] HF IH]; [done|]. cbn. by rewrite E, IH. }
      apply NoDup_Permutation; [done|done|]. intros doc. rewrite !elem_of_list_fmap. split.
      + intros ([doc' key] & -> & Hx). apply elem_of_list_fmap in Hx as ([[doc'' key''] x] & E & Hx). cbn in E. injection E as -> ->.
        apply Hin in Hx as (Hd & _). apply elem_of_dom in Hd as [pl Hpl]. exists (doc'', pl). split; [done|]. by apply Hsc.
      + intros ([doc' pl] & -> & Hx). apply Hsc in Hx. destruct (Hdocs doc' pl) as (key & fs & Hk & _); [by apply Hsub, Hsc|].
        exists (doc', key). split; [done|]. apply elem_of_list_fmap. exists (doc', key, corpus_lookup c key). split; [done|].
        apply Hin. split_and!; [by apply elem_of_dom_2 in Hx|done|done].
    - clear -HF. induction HF as [|x y docs rows [_ E] HF IH]; by constructor.
  Qed.

  Lemma render_table_ok : exists rows, render_passages_table arrival d c o bs scored = Ok rows /\
    rows.*1.*1 ≡ₚ scored.*1 /\ Forall row_ok rows.
  Proof.
    unfold render_passages_table. set (jobs := chunks (length scored) bs scored) in *.
    assert (concat jobs = scored) as Hc by (apply chunks_concat; [done|lia]).
    assert (forall job, job ∈ jobs -> (forall x, x ∈ job -> x ∈ scored) /\ NoDup job.*1) as Hjob.
    { intros job Hj. split.
      - intros x Hx. rewrite <- Hc. apply elem_of_concat. eauto.
      - rewrite <- Hc in Hnd. clear -Hj Hnd. induction jobs as [|j0 js IH]; [by apply elem_of_nil in Hj|].
        cbn in Hnd. rewrite fmap_app in Hnd. apply NoDup_app in Hnd as (H1 & _ & H2).
        apply elem_of_cons in Hj as [->|Hj]; auto. }
    match goal with |- context [rtraverse ?f arrival] => destruct (rtraverse_total f arrival) as [rs Hrs] end.
    { intros i Hi. unfold all_done in Hall. rewrite Hall in Hi. apply elem_of_seq in Hi as [_ Hi]. cbn in Hi.
      destruct (lookup_lt_is_Some_2 _ _ Hi) as [job Hx]. rewrite Hx. destruct (Hjob job) as [H1 H2]; [by eapply elem_of_list_lookup_2|].
      destruct (construct_ok job H1 H2) as (rows & -> & _). by eexists. }
    rewrite Hrs. cbn [rmap]. eexists. split; [reflexivity|].
    destruct (arrival_perm _ _ _ _ _ Hall Hrs) as (jobs' & HL & HF).
    assert (forall job, job ∈ jobs' -> job ∈ jobs) as Hsub by (intros job; by rewrite HL).
    assert (scored.*1 ≡ₚ (concat jobs').*1) as Hp.
    { rewrite <- Hc. apply fmap_Permutation. clear -HL. symmetry. induction HL; cbn; [done|by f_equiv| |by etrans].
      rewrite !app_assoc. f_equiv. apply Permutation_app_comm. }
    rewrite Hp. clear Hp Hrs HL Hc. induction HF as [|job rows jobs' rs Hr HF IH]; [split; constructor|].
    destruct IH as [I1 I2]; [intros; apply Hsub; by right|].
    destruct (Hjob job) as [H1 H2]; [apply Hsub; by left|]. destruct (construct_ok job H1 H2) as (rows' & E & R1 & R2).
    rewrite E in Hr. injection Hr as <-. cbn [concat]. rewrite !fmap_app. split; [by f_equiv|]. by apply Forall_app.
  Qed.
End table.
