(** BrowseProofs.v *)
From Verif Require Export SpecBrowse StreamProofs LookupProofs SampleProofs.

Lemma lists_values_iter d field min : lists_values d field min (iter_field_docs d field min).
Proof.
  assert (exists l : list (N * vrow), NoDup l.*1 /\ l.*2 = iter_field_docs d field min /\
    (forall f r, (f, r) ∈ l <-> exists row, inverted_index d !! f = Some row /\ f_field row = field /\ (min <= Z.of_N (f_docs_count row))%Z /\
       r = (f_value row, f_docs_count row, f_doc_ids row))) as (l & Hnd & E & Hl).
  { set (F := fun kv : N * feature_row =>
      if bool_decide (f_field kv.2 = field) && (min <=? Z.of_N (f_docs_count kv.2))%Z
      then Some (f_value kv.2, f_docs_count kv.2, f_doc_ids kv.2) else None).
    set (G := fun kv : N * feature_row => pair kv.1 <$> F kv).
    assert (iter_field_docs d field min ≡ₚ (omap G (map_to_list (inverted_index d))).*2) as Hp.
    { unfold iter_field_docs. rewrite merge_sort_Permutation. fold F. apply Permutation_refl'.
      induction (map_to_list (inverted_index d)) as [|x l IH]; [done|]. cbn. unfold G at 1. destruct (F x); cbn; by rewrite IH. }
    assert (exists l, l ≡ₚ omap G (map_to_list (inverted_index d)) /\ l.*2 = iter_field_docs d field min) as (l & Hl & E).
    { apply Permutation_map_inv in Hp as (l & E & Hl). exists l. by split; symmetry. }
    exists l. split_and!; [|done|].
    - rewrite Hl. clear Hl E Hp. pose proof (NoDup_fst_map_to_list (inverted_index d)) as Hn.
      induction (map_to_list (inverted_index d)) as [|x r IH]; [apply NoDup_nil_2|]. cbn in Hn. apply NoDup_cons in Hn as [Hx Hn].
      change (omap G (x :: r)) with (match G x with Some y => y :: omap G r | None => omap G r end).
      destruct (G x) as [[y1 y2]|] eqn:Ey; [|by apply IH]. rewrite fmap_cons. apply NoDup_cons. split; [|by apply IH].
      assert (y1 = x.1) as -> by (unfold G in Ey; destruct (F x); [by injection Ey as <-|done]).
      intros H. apply Hx. apply elem_of_list_fmap in H as ([f r'] & Ef & H). apply elem_of_list_omap in H as (z & Hz & H).
      unfold G in H. destruct (F z); [|done]. cbn in H. injection H as <- <-. cbn in Ef. apply elem_of_list_fmap. by exists z.
    - intros f r. rewrite Hl, elem_of_list_omap. split.
      + intros ([f' row] & Hin%elem_of_map_to_list & H). unfold G, F in H. cbn [fst snd] in H.
        destruct (bool_decide (f_field row = field)) eqn:E1; [|done]. destruct (min <=? _)%Z eqn:E2; [|done]. cbn in H. injection H as <- <-.
        exists row. apply bool_decide_eq_true in E1. apply Z.leb_le in E2. done.
      + intros (row & Hr & Hf & Hm & ->). exists (f, row). split; [by apply elem_of_map_to_list|]. unfold G, F. cbn [fst snd].
        rewrite bool_decide_true by done. apply Z.leb_le in Hm. by rewrite Hm. }
  exists l.*1. split_and!; [done| | |].
  - rewrite <- E. apply Forall2_fmap_l, Forall2_fmap_r. apply Forall_Forall2_diag. apply list.Forall_forall. intros [f r] Hin. by apply Hl in Hin.
  - intros f row Hf H1 H2. apply elem_of_list_fmap. eexists (f, _). split; [done|]. apply Hl. by exists row.
  - assert (Sorted value_row_le (iter_field_docs d field min)) as Hs.
    { apply (Sorted_merge_sort value_row_le). }
    revert Hs. clear. generalize (iter_field_docs d field min). induction l as [|x l IH]; intros H; [constructor|].
    cbn. inversion H as [|? ? Hs Hh]; subst. constructor; [by apply IH|]. destruct Hh as [|y l Hy]; constructor. done.
Qed.

(** ** [iter_field_docs] *)
Definition viter_ok (P : db -> Prop) (request : string * Z) (out : list vrow) (g : viter) : Prop :=
  match g with
  | VFresh field min => request = (field, min) /\ out = []
  | VRunning rest => exists d, P d /\ out ++ rest = iter_field_docs d request.1 request.2
  | VOver true => exists d, P d /\ out = iter_field_docs d request.1 request.2
  | VOver false => exists d rest, P d /\ out ++ rest = iter_field_docs d request.1 request.2
  end.
Definition row_given (i : nat) (x : bevent * boutput) : list vrow :=
  match x with (Advance j, Row r) => if j =? i then [r] else [] | _ => [] end.
Lemma rows_given_cons x tr i : rows_given (x :: tr) i = row_given i x ++ rows_given tr i.
Proof. destruct x as [[] []]; cbn; try done. unfold rows_given. cbn. by destruct (_ =? _). Qed.

(** What is seen was committed; a transaction is kept only by a statement. *)
Definition bhonest (P : db -> Prop) (s : bstate) : Prop := P (b_file s) /\ P (now s).
Definition btight (s : bstate) : Prop := b_view s = None \/ existsb unfinished (b_its s) = true.
Lemma now_settle s its : now (settle s its) = now s \/ now (settle s its) = b_file s.
Proof. unfold settle, now. cbn. destruct (existsb _ _); [|by right]. left. by destruct (b_view s) as [[]|]. Qed.
Lemma bhonest_settle P s its : bhonest P s -> bhonest P (settle s its).
Proof. intros [H1 H2]. split; [done|]. by destruct (now_settle s its) as [-> | ->]. Qed.
Lemma btight_settle s its : btight (settle s its).
Proof. unfold settle, btight. cbn. destruct (existsb _ _) eqn:E; [by right|by left]. Qed.
Lemma existsb_insert_same (its : list viter) i g g' : its !! i = Some g -> unfinished g = false -> unfinished g' = false ->
  existsb unfinished (<[i := g']> its) = existsb unfinished its.
Proof.
  revert i. induction its as [|h its IH]; intros [|i] Hi Hg Hg'; try done; cbn in Hi |- *.
  - injection Hi as ->. by rewrite Hg, Hg'.
  - f_equal. by apply IH.
Qed.
Lemma bstep_bhonest P s e s1 o : bstep s e = (s1, o) -> bhonest P s -> P (b_file s1) -> bhonest P s1.
Proof.
  intros H Hh Hf. destruct e as [fl m|i|i| |f|d]; cbn [bstep] in H.
  - injection H as <- <-. destruct Hh. by split.
  - destruct (b_its s !! i) as [[fl m|rest|b]|]; [| |by injection H as <- _|by injection H as <- _]; unfold give in H.
    + destruct (iter_field_docs (now s) fl m); injection H as <- _; by apply bhonest_settle.
    + destruct rest; injection H as <- _; by apply bhonest_settle.
  - destruct (b_its s !! i) as [[fl m|rest|b]|]; try (injection H as <- _; done); injection H as <- _; by apply bhonest_settle.
  - by injection H as <- _.
  - destruct (match b_view s with Some (_, v) => negb (v =? b_ver s) | None => false end); [by injection H as <- _|].
    destruct (f (now s)) as [d|]; injection H as <- _; [|done]. split; [done|]. unfold now. cbn. by destruct (b_view s).
  - injection H as <- _. split; [done|]. unfold now. cbn in *. destruct Hh as [_ Hh]. unfold now in Hh. by destruct (b_view s) as [[]|].
Qed.
Lemma bstep_btight s e s1 o : bstep s e = (s1, o) -> btight s -> btight s1.
Proof.
  intros H Ht. destruct e as [fl m|i|i| |f|d]; cbn [bstep] in H.
  - injection H as <- <-. destruct Ht as [Ht|Ht]; [by left|right]. cbn. rewrite existsb_app, Ht. done.
  - destruct (b_its s !! i) as [[fl m|rest|b]|]; [| |by injection H as <- _|by injection H as <- _]; unfold give in H.
    + destruct (iter_field_docs (now s) fl m); injection H as <- _; apply btight_settle.
    + destruct rest; injection H as <- _; apply btight_settle.
  - destruct (b_its s !! i) as [[fl m|rest|b]|]; try (injection H as <- _; done); injection H as <- _; apply btight_settle.
  - by injection H as <- _.
  - destruct (match b_view s with Some (_, v) => negb (v =? b_ver s) | None => false end); [by injection H as <- _|].
    destruct (f (now s)) as [d|]; injection H as <- _; [|done]. destruct Ht as [Ht|Ht]; [left; cbn; by rewrite Ht|by right].
  - injection H as <- _. done.
Qed.

(** One step, for the [i]-th iteration. *)
Lemma bstep_iter (P : db -> Prop) s e s1 o i g request out : bstep s e = (s1, o) -> b_its s !! i = Some g ->
  ((exists fl m, g = VFresh fl m) -> P (now s)) -> (exists d, P d) -> viter_ok P request out g ->
  exists g1, b_its s1 !! i = Some g1 /\ viter_ok P request (out ++ row_given i (e, o)) g1 /\
    ((exists fl m, g1 = VFresh fl m) -> g1 = g).
Proof.
  intros H Hi HP [d0 HP0] Hok.
  assert (forall its j g', its = <[j := g']> (b_its s) -> j <> i -> its !! i = Some g) as Hother.
  { intros its j g' -> Hn. by rewrite list_lookup_insert_ne. }
  assert (forall its g', its = <[i := g']> (b_its s) -> its !! i = Some g') as Hself.
  { intros its g' ->. apply list_lookup_insert. by eapply lookup_lt_Some. }
  destruct e as [fl m|j|j| |f|d]; cbn [bstep] in H.
  - injection H as <- <-. exists g. rewrite app_nil_r. cbn. split_and!; [by apply lookup_app_l_Some|done|done].
  - destruct (decide (j = i)) as [->|Hne].
    + rewrite Hi in H. cbn [row_given].
      assert (forall rows d, P d -> out ++ rows = iter_field_docs d request.1 request.2 -> give s i rows = (s1, o) ->
        exists g1, b_its s1 !! i = Some g1 /\ viter_ok P request (out ++ match o with Row r => if i =? i then [r] else [] | _ => [] end) g1 /\
          ((exists fl m, g1 = VFresh fl m) -> g1 = g)) as Hgive.
      { intros rows d Hd E Hg. rewrite Nat.eqb_refl. unfold give in Hg. destruct rows as [|r rest]; injection Hg as <- <-; cbn [settle b_its].
        - exists (VOver true). split; [by apply Hself|]. rewrite app_nil_r in *. split; [by exists d|]. by intros (? & ? & ?).
        - exists (VRunning rest). split; [by apply Hself|]. split; [|by intros (? & ? & ?)]. exists d. by rewrite <- app_assoc. }
      destruct g as [fl m|rest|b].
      * destruct Hok as [-> ->]. apply (Hgive (iter_field_docs (now s) fl m) (now s)); [apply HP; eauto|done|done].
      * destruct Hok as (d & Hd & E). by apply (Hgive rest d).
      * injection H as <- <-. exists (VOver b). by rewrite app_nil_r.
    + assert (row_given i (Advance j, o) = []) as ->.
      { cbn. apply Nat.eqb_neq in Hne. rewrite Hne. by destruct o. }
      rewrite app_nil_r. exists g. split; [|done].
      destruct (b_its s !! j) as [[fl m|rest|b]|]; [| |by injection H as <- _|by injection H as <- _]; unfold give in H.
      * destruct (iter_field_docs (now s) fl m); injection H as <- _; cbn; by eapply Hother.
      * destruct rest; injection H as <- _; cbn; by eapply Hother.
  - cbn [row_given]. rewrite app_nil_r. destruct (decide (j = i)) as [->|Hne].
    + rewrite Hi in H. destruct g as [fl m|rest|b].
      * injection H as <- <-. exists (VOver false). split; [cbn; by apply Hself|]. split; [|by intros (? & ? & ?)].
        destruct Hok as [-> ->]. exists d0, (iter_field_docs d0 fl m). done.
      * injection H as <- <-. exists (VOver false). split; [cbn; by apply Hself|]. split; [|by intros (? & ? & ?)].
        destruct Hok as (d & Hd & E). by exists d, rest.
      * injection H as <- <-. by exists (VOver b).
    + exists g. split; [|done]. destruct (b_its s !! j) as [[fl m|rest|b]|]; injection H as <- _; try done; cbn; by eapply Hother.
  - injection H as <- <-. exists g. by rewrite app_nil_r.
  - cbn [row_given]. rewrite app_nil_r. exists g. split; [|done].
    destruct (match b_view s with Some (_, v) => negb (v =? b_ver s) | None => false end); [by injection H as <- _|].
    by destruct (f (now s)); injection H as <- _.
  - injection H as <- <-. exists g. by rewrite app_nil_r.
Qed.

Section iterations.
  Context (P : db -> Prop).
  Lemma bruns_iter s tr fs s' i g request out : bruns s tr fs s' -> bhonest P s -> Forall P fs -> b_its s !! i = Some g ->
    viter_ok P request out g -> exists g', b_its s' !! i = Some g' /\ viter_ok P request (out ++ rows_given tr i) g'.
  Proof.
    intros H. revert g out. induction H as [s|s e s1 o tr fs s' He _ IH]; intros g out Hh Hf Hi Hok.
    - exists g. by rewrite app_nil_r.
    - apply Forall_cons in Hf as [Hf1 Hf].
      destruct (bstep_iter P s e s1 o i g request out He Hi (fun _ => proj2 Hh) (ex_intro _ _ (proj2 Hh)) Hok) as (g1 & Hi1 & Hok1 & _).
      rewrite rows_given_cons, app_assoc. apply (IH g1); [by eapply bstep_bhonest|done..].
  Qed.
  Lemma bruns_started s tr fs s' i g request out : (exists d, P d) -> bruns s tr fs s' -> b_its s !! i = Some g -> (forall fl m, g <> VFresh fl m) ->
    viter_ok P request out g -> exists g', b_its s' !! i = Some g' /\ viter_ok P request (out ++ rows_given tr i) g'.
  Proof.
    intros HP H. revert g out. induction H as [s|s e s1 o tr fs s' He _ IH]; intros g out Hi Hnf Hok.
    - exists g. by rewrite app_nil_r.
    - destruct (bstep_iter P s e s1 o i g request out He Hi) as (g1 & Hi1 & Hok1 & Hf); [|done|done|].
      { intros (fl & m & ->). by destruct (Hnf fl m). }
      rewrite rows_given_cons, app_assoc. apply (IH g1); [done| |done]. intros fl m ->. destruct (Hnf fl m). rewrite <- Hf; [done|eauto].
  Qed.
  Lemma bstep_length s e s1 o : bstep s e = (s1, o) -> length (b_its s1) = length (b_its s) + match e with Iterate _ _ => 1 | _ => 0 end.
  Proof.
    intros H. destruct e as [fl m|i|i| |f|d]; cbn [bstep] in H.
    - injection H as <- _. cbn. by rewrite app_length.
    - destruct (b_its s !! i) as [[fl m|rest|b]|]; [| |injection H as <- _; lia|injection H as <- _; lia]; unfold give in H.
      + destruct (iter_field_docs (now s) fl m); injection H as <- _; cbn; rewrite insert_length; lia.
      + destruct rest; injection H as <- _; cbn; rewrite insert_length; lia.
    - destruct (b_its s !! i) as [[fl m|rest|b]|]; injection H as <- _; cbn; rewrite ?insert_length; lia.
    - injection H as <- _. lia.
    - destruct (match b_view s with Some (_, v) => negb (v =? b_ver s) | None => false end); [injection H as <- _; lia|].
      destruct (f (now s)); injection H as <- _; cbn; lia.
    - injection H as <- _. cbn. lia.
  Qed.
  Lemma bstep_none s e s1 o i : bstep s e = (s1, o) -> length (b_its s) <= i -> row_given i (e, o) = [].
  Proof.
    intros H Hi. destruct e as [fl m|j|j| |f|d]; try done. cbn [row_given]. destruct o as [r| | | |]; try done.
    destruct (Nat.eqb_spec j i) as [->|]; [|done]. cbn [bstep] in H. by rewrite lookup_ge_None_2 in H.
  Qed.
  Lemma bruns_new s tr fs s' j request : bruns s tr fs s' -> bhonest P s -> Forall P fs -> asked tr !! j = Some request ->
    exists g, b_its s' !! (length (b_its s) + j) = Some g /\ viter_ok P request (rows_given tr (length (b_its s) + j)) g.
  Proof.
    intros H. revert j. induction H as [s|s e s1 o tr fs s' He Hr IH]; intros j Hh Hf Hj; [done|].
    apply Forall_cons in Hf as [Hf1 Hf]. assert (bhonest P s1) as Hh1 by (by eapply bstep_bhonest).
    pose proof (bstep_length s e s1 o He) as Hlen. rewrite rows_given_cons, (bstep_none s e s1 o) by (done || lia). rewrite app_nil_l.
    destruct e as [fl m|i|i| |f|d]; try (rewrite Nat.add_0_r in Hlen; rewrite <- Hlen; by apply IH).
    change (asked ((Iterate fl m, o) :: tr)) with ((fl, m) :: asked tr) in Hj. destruct j as [|j].
    - injection Hj as <-. rewrite Nat.add_0_r. cbn [bstep] in He. injection He as <- <-.
      apply (bruns_iter _ tr fs s' _ (VFresh fl m) (fl, m) [] Hr); [done|done| |done].
      cbn. rewrite lookup_app_r by done. by rewrite Nat.sub_diag.
    - replace (length (b_its s) + S j) with (length (b_its s1) + j) by lia. by apply IH.
  Qed.
End iterations.
Lemma bruns_btight s tr fs s' : bruns s tr fs s' -> btight s -> btight s'.
Proof. induction 1; [done|]. intros. apply IHbruns. by eapply bstep_btight. Qed.
Lemma bruns_app s tr1 fs1 s1 tr2 fs2 s2 : bruns s tr1 fs1 s1 -> bruns s1 tr2 fs2 s2 -> bruns s (tr1 ++ tr2) (fs1 ++ fs2) s2.
Proof. induction 1; [done|]. intros. cbn. econstructor; eauto. Qed.
Lemma viter_ok_lists P request out g : (exists d, P d) -> viter_ok P request out g ->
  exists d rows, P d /\ lists_values d request.1 request.2 rows /\ out `prefix_of` rows /\ (g = VOver true -> out = rows).
Proof.
  intros [d0 H0] H. destruct g as [fl m|rest|[|]].
  - destruct H as [-> ->]. exists d0. eexists. split; [done|]. split; [apply lists_values_iter|]. split; [apply prefix_nil|done].
  - destruct H as (d & Hd & E). exists d. eexists. split; [done|]. split; [apply lists_values_iter|]. rewrite <- E. split; [by eexists|done].
  - destruct H as (d & Hd & ->). exists d. eexists. split; [done|]. split; [apply lists_values_iter|]. done.
  - destruct H as (d & rest & Hd & E). exists d. eexists. split; [done|]. split; [apply lists_values_iter|]. rewrite <- E. split; [by eexists|done].
Qed.
Lemma not_underway s : ~ underway s -> existsb unfinished (b_its s) = false.
Proof.
  intros H. apply not_true_is_false. intros (g & Hg & Hu)%existsb_exists. apply H. apply elem_of_list_In, elem_of_list_lookup in Hg as [i Hi].
  destruct g as [| [|r rest] |]; try done. by exists i, r, rest.
Qed.

(** ** [docs] *)
Section docs.
  Context {D V : Type} (all_keys : D -> res (list value)) (get : D -> value -> res V) (render_mark : option string).
  Context (Hmark : render_mark ≠ Some "docs").
  Notation happen := (@happen D value V all_keys get render_mark).
  Notation runs := (@runs D value V all_keys get render_mark).
  Notation dstep := (@dstep D V all_keys get render_mark).
  Notation druns := (@druns D V all_keys get render_mark).
  Notation next := (@next D value V all_keys get).
  Notation no_replace tr := (Forall (fun x => ~ is_replace x.1) tr).

  Lemma runs_snoc s tr fs s1 e s2 o : runs s tr fs s1 -> happen s1 e = (s2, o) -> runs s (tr ++ [(e, o)]) (fs ++ [c_file s2.1]) s2.
  Proof.
    induction 1 as [s|s e' s1' o' tr fs s' He' _ IH]; intros He; cbn.
    - econstructor; [done|constructor].
    - econstructor; [done|by apply IH].
  Qed.
  Lemma advance_cases (c c' : Streams.cstate D) rest sc g' o : advance (V := V) get c rest sc = (c', g', o) ->
    (exists k v rest', rest = k :: rest' /\ o = Yielded k v /\ g' = Running rest' sc) \/
    (o = Stopped /\ g' = Over (Some (Ok tt))) \/ (exists e, o = Raised e /\ g' = Over (Some (Err e))).
  Proof.
    assert (forall (c1 : Streams.cstate D) r c' g' (o : output value V), finish c1 r = (c', g', o) ->
      (o = Stopped /\ g' = Over (Some (Ok tt))) \/ (exists e, o = Raised e /\ g' = Over (Some (Err e)))) as Hfin.
    { intros c1 r c2 g2 o2 H. unfold finish in H. destruct (release "docs" c1); [|injection H as <- <- <-; right; eauto].
      destruct r as [[]|e]; injection H as <- <- <-; [by left|right; eauto]. }
    unfold advance. destruct rest as [|k rest]; [intros H; right; by eapply Hfin|]. destruct (look c) as [d c1].
    destruct (get d k) as [v|e]; intros H; [|right; by eapply Hfin]. injection H as <- <- <-. left. by exists k, v, rest.
  Qed.
  (** What an iterator over given keys does. *)
  Lemma next_cases (c c' : Streams.cstate D) g g' o : next c g = (c', g', o) ->
    match g with
    | Over _ => g' = g /\ o = Stopped
    | Streams.Fresh None => True
    | Streams.Fresh (Some rest) | Running rest _ =>
        (exists k v rest' sc, rest = k :: rest' /\ o = Yielded k v /\ g' = Running rest' sc) \/
        (o = Stopped /\ g' = Over (Some (Ok tt))) \/ (exists e, o = Raised e /\ g' = Over (Some (Err e)))
    end.
  Proof.
    destruct g as [[ks|]|rest sc|r]; cbn [Streams.next]; [| done | |by intros [= <- <- <-]];
      intros [(k & v & rest' & -> & -> & ->)|H]%advance_cases; [left; by eexists _, _, _, _|by right|left; by eexists _, _, _, _|by right].
  Qed.

  Definition item (m : gmap value N) (kv : value * V) : option (N * value * V) := (fun doc => (doc, kv.1, kv.2)) <$> m !! kv.1.
  Definition key_list (m : gmap value N) : list value := merge_sort value_le (map_to_list m).*1.
  Lemma elem_of_key_list m k : k ∈ key_list m <-> is_Some (m !! k).
  Proof.
    unfold key_list. rewrite merge_sort_Permutation, elem_of_list_fmap. split.
    - intros ([k' doc] & -> & H%elem_of_map_to_list). by exists doc.
    - intros [doc H]. exists (k, doc). split; [done|]. by apply elem_of_map_to_list.
  Qed.
  Notation docs_given := (@docs_given D V). Notation raised := (@raised D V). Notation closed := (@closed D V).
  Definition never (tr : list (devent D * doutput V)) (i : nat) : Prop := (NextDoc i, Finished) ∉ tr /\ forall e, ~ raised tr i e.
  Definition started_ok (tr : list (devent D * doutput V)) (i : nat) (m : gmap value N) (g : Streams.iter value) : Prop :=
    match g with
    | Streams.Fresh _ => False
    | Running rest _ => never tr i /\ forall k, k ∈ rest -> is_Some (m !! k)
    | Over (Some (Ok _)) => forall e, ~ raised tr i e
    | Over (Some (Err e)) => raised tr i e /\ forall e', raised tr i e' -> e' = e
    | Over None => closed tr i /\ forall e, ~ raised tr i e
    end.
  Definition diter_ok (PI : db -> Prop) (tr : list (devent D * doutput V)) trc (gs : list (Streams.iter value)) (i : nat) (q : bitmap) (g : diter) : Prop :=
    match g with
    | DFresh q' => q' = q /\ docs_given tr i = [] /\ never tr i
    | DDone => docs_given tr i = [] /\
        (closed tr i /\ (forall e, ~ raised tr i e) \/
         raised tr i IndexError /\ (forall e, raised tr i e -> e = IndexError) /\ exists d doc, PI d /\ doc ∈ q /\ doc_key d !! doc = None)
    | DStarted m j => exists d g, PI d /\ convert_query_to_keys d q = Ok m /\ requests (D := D) (V := V) trc !! j = Some (Some (key_list m)) /\
        gs !! j = Some g /\ docs_given tr i = omap (item m) (given (D := D) trc j) /\ started_ok tr i m g
    end.
  Definition dinv (PI : db -> Prop) (PC : D -> Prop) (c0 : D) (tr : list (devent D * doutput V)) (s : dstate D) : Prop :=
    exists trc fs, runs (start c0) trc fs (d_corpus s) /\ Forall PC fs /\ no_replace trc /\ PC (c_file (d_corpus s).1) /\
      length (requests (D := D) (V := V) trc) = length (d_corpus s).2 /\ bhonest PI (d_index s) /\
      (forall i i' m m' j, d_its s !! i = Some (DStarted m j) -> d_its s !! i' = Some (DStarted m' j) -> i = i') /\
      length (queries_asked tr) = length (d_its s) /\
      (forall i, length (d_its s) <= i -> docs_given tr i = [] /\ never tr i) /\
      forall i q, queries_asked tr !! i = Some q -> exists g, d_its s !! i = Some g /\ diter_ok PI tr trc (d_corpus s).2 i q g.

  Lemma convert_cases d q : (exists m, convert_query_to_keys d q = Ok m) \/
    (convert_query_to_keys d q = Err IndexError /\ exists doc, doc ∈ q /\ doc_key d !! doc = None).
  Proof.
    unfold convert_query_to_keys.
    assert (forall l (m0 : gmap value N), (exists m, rfold (fun m doc => match doc_key d !! doc with Some k => Ok (<[k := doc]> m) | None => Err IndexError end) l m0 = Ok m) \/
      (rfold (fun m doc => match doc_key d !! doc with Some k => Ok (<[k := doc]> m) | None => Err IndexError end) l m0 = Err IndexError /\
       exists doc, doc ∈ l /\ doc_key d !! doc = None)) as H.
    { induction l as [|x l IH]; intros m0; cbn; [left; by eexists|]. destruct (doc_key d !! x) as [k|] eqn:E; cbn.
      - destruct (IH (<[k := x]> m0)) as [H|[H (doc & Hd & Hn)]]; [by left|right]. split; [done|]. exists doc. split; [by right|done].
      - right. split; [done|]. exists x. split; [by left|done]. }
    destruct (H (bm_list q) ∅) as [?|[H1 (doc & Hd & Hn)]]; [by left|right]. split; [done|]. exists doc. split; [by apply elem_of_bm_list|done].
  Qed.

  (** Events that do not concern the [i]-th generator. *)
  Definition about (e : devent D) (i : nat) : Prop := match e with NextDoc j | CloseDoc j => j = i | _ => False end.
  Lemma docs_given_app tr1 tr2 i : docs_given (tr1 ++ tr2) i = docs_given tr1 i ++ docs_given tr2 i.
  Proof. unfold SpecBrowse.docs_given. apply omap_app. Qed.
  Lemma given_app (tr1 tr2 : list (event D value * output value V)) j : given (tr1 ++ tr2) j = given tr1 j ++ given tr2 j.
  Proof. unfold given. apply omap_app. Qed.
  Lemma requests_app (tr1 tr2 : list (event D value * output value V)) : requests (tr1 ++ tr2) = requests tr1 ++ requests tr2.
  Proof. unfold requests. apply omap_app. Qed.
  Lemma queries_app (tr1 tr2 : list (devent D * doutput V)) : queries_asked (tr1 ++ tr2) = queries_asked tr1 ++ queries_asked tr2.
  Proof. unfold queries_asked. apply omap_app. Qed.
  Lemma elem_snoc (tr : list (devent D * doutput V)) x y : x ∈ tr ++ [y] <-> x ∈ tr \/ x = y.
  Proof. by rewrite elem_of_app, elem_of_list_singleton. Qed.

  Section step.
    Context (tr : list (devent D * doutput V)) (e : devent D) (o : doutput V) (i : nat) (Hnot : ~ about e i).
    Lemma other_given : docs_given (tr ++ [(e, o)]) i = docs_given tr i.
    Proof.
      rewrite docs_given_app. replace (docs_given [(e, o)] i) with (@nil (N * value * V)); [by rewrite app_nil_r|].
      unfold SpecBrowse.docs_given. cbn. destruct e as [| | | |j|]; try done. destruct o; try done. cbn in Hnot. apply Nat.eqb_neq in Hnot. by rewrite Hnot.
    Qed.
    Lemma other_raised ex : raised (tr ++ [(e, o)]) i ex <-> raised tr i ex.
    Proof. unfold SpecBrowse.raised. rewrite elem_snoc. split; [intros [?|[= <- <-]]; [done|by destruct Hnot]|by left]. Qed.
    Lemma other_finished : (NextDoc i, Finished) ∈ tr ++ [(e, o)] <-> (NextDoc i, Finished) ∈ tr.
    Proof. rewrite elem_snoc. split; [intros [?|[= <- <-]]; [done|by destruct Hnot]|by left]. Qed.
    Lemma other_closed : closed tr i -> closed (tr ++ [(e, o)]) i.
    Proof. intros [o' H]. exists o'. apply elem_snoc. by left. Qed.
    Lemma other_never : never tr i -> never (tr ++ [(e, o)]) i.
    Proof. intros [H1 H2]. split; [by rewrite other_finished|]. intros ex. by rewrite other_raised. Qed.
    Lemma other_started m g : started_ok tr i m g -> started_ok (tr ++ [(e, o)]) i m g.
    Proof.
      destruct g as [r|rest sc|[[|e']|]]; cbn [started_ok]; [done| | | |].
      - intros [H1 H2]. split; [by apply other_never|done].
      - intros H ex. by rewrite other_raised.
      - intros [H1 H2]. split; [by rewrite other_raised|]. intros ex. rewrite other_raised. apply H2.
      - intros [H1 H2]. split; [by apply other_closed|]. intros ex. by rewrite other_raised.
    Qed.
    Lemma other_diter PI trc ntr gs gs' q g : diter_ok PI tr trc gs i q g ->
      (forall m j, g = DStarted m j -> gs' !! j = gs !! j /\ given (D := D) (V := V) ntr j = []) ->
      diter_ok PI (tr ++ [(e, o)]) (trc ++ ntr) gs' i q g.
    Proof.
      intros H Hj. destruct g as [q'|m j|]; cbn [diter_ok] in *.
      - destruct H as (-> & H1 & H2). rewrite other_given. split_and!; [done|done|by apply other_never].
      - destruct H as (d & g & H1 & H2 & H3 & H4 & H5 & H6). destruct (Hj m j eq_refl) as [E1 E2]. exists d, g. split_and!; [done|done| | | |].
        + rewrite requests_app. by apply lookup_app_l_Some.
        + by rewrite E1.
        + by rewrite other_given, given_app, E2, app_nil_r.
        + by apply other_started.
      - destruct H as (H1 & H2). rewrite other_given. split; [done|]. destruct H2 as [[H2 H3]|(H2 & H3 & H4)]; [left|right].
        + split; [by apply other_closed|]. intros ex. by rewrite other_raised.
        + split_and!; [by rewrite other_raised| |done]. intros ex. rewrite other_raised. apply H3.
    Qed.
  End step.

  Lemma happen_other_its (cs cs' : Streams.cstate D * list (Streams.iter value)) e o : happen cs e = (cs', o) ->
    match e with
    | Render _ | Other _ | Replace _ => cs'.2 = cs.2
    | New ks => cs'.2 = cs.2 ++ [Streams.Fresh ks]
    | Next j | Close j => length cs'.2 = length cs.2 /\ forall j', j' <> j -> cs'.2 !! j' = cs.2 !! j'
    end.
  Proof.
    destruct cs as [c gs]. destruct e as [ks|j|j|ks|new|d]; cbn [Streams.happen].
    - by intros [= <- _].
    - destruct (gs !! j) as [g|]; [|by intros [= <- _]]. destruct (Streams.next all_keys get c g) as [[c' g'] o']. intros [= <- _]. cbn.
      rewrite insert_length. split; [done|]. intros j' Hj. by rewrite list_lookup_insert_ne.
    - destruct (gs !! j) as [g|]; [|by intros [= <- _]]. destruct (Streams.close c g) as [[c' g'] o']. intros [= <- _]. cbn.
      rewrite insert_length. split; [done|]. intros j' Hj. by rewrite list_lookup_insert_ne.
    - destruct (render get render_mark c ks). by intros [= <- _].
    - destruct (replace _ new c). by intros [= <- _].
    - by intros [= <- _].
  Qed.

  Definition pre_ok (tr : list (devent D * doutput V)) (i : nat) (m : gmap value N) (g : Streams.iter value) : Prop :=
    match g with
    | Streams.Fresh (Some ks) => never tr i /\ forall k, k ∈ ks -> is_Some (m !! k)
    | Streams.Fresh None => False
    | _ => started_ok tr i m g
    end.
  Definition doc_output (m : gmap value N) (o : output value V) : doutput V :=
    match o with
    | Yielded k v => match m !! k with Some doc => Given doc k v | None => DRaised KeyError end
    | Raised e => DRaised e
    | _ => Finished
    end.
  Lemma next_started tr i m j g cs cs' oc : happen cs (Next j) = (cs', oc) -> cs.2 !! j = Some g -> pre_ok tr i m g ->
    exists g', cs'.2 !! j = Some g' /\ started_ok (tr ++ [(NextDoc i, doc_output m oc)]) i m g' /\
      docs_given [(NextDoc i, doc_output m oc)] i = omap (item m) (given (D := D) [(Next j, oc)] j).
  Proof.
    intros H Hg Hok. destruct cs as [c gs]. cbn [Streams.happen] in H. cbn in Hg. rewrite Hg in H.
    destruct (Streams.next all_keys get c g) as [[c' g'] o'] eqn:En. injection H as <- <-. exists g'. cbn [snd].
    split; [apply list_lookup_insert; by eapply lookup_lt_Some|]. apply next_cases in En.
    assert (forall o1 ex, o1 ≠ DRaised ex -> raised (tr ++ [(NextDoc i, o1)]) i ex -> raised tr i ex) as Hr.
    { intros o1 ex Hn. unfold SpecBrowse.raised. rewrite elem_snoc. intros [?|[= <-]]; [done|by destruct Hn]. }
    assert (forall rest, never tr i -> (forall k, k ∈ rest -> is_Some (m !! k)) ->
      (exists k v rest' sc, rest = k :: rest' /\ o' = Yielded k v /\ g' = Running rest' sc) \/
      (o' = Stopped /\ g' = Over (Some (Ok tt))) \/ (exists e, o' = Raised e /\ g' = Over (Some (Err e))) ->
      started_ok (tr ++ [(NextDoc i, doc_output m o')]) i m g' /\
      docs_given [(NextDoc i, doc_output m o')] i = omap (item m) (given (D := D) [(Next j, o')] j)) as Hrun.
    { intros rest [Hn1 Hn2] Hm [(k & v & rest' & sc & -> & -> & ->)|[[-> ->]|(e & -> & ->)]]; cbn [doc_output started_ok].
      - destruct (Hm k ltac:(by left)) as [doc Hd]. rewrite Hd. split.
        + split; [split|].
          * rewrite elem_snoc. intros [?|[=]]. done.
          * intros ex Hx. by apply (Hn2 ex), (Hr (Given doc k v)).
          * intros k' Hk'. apply Hm. by right.
        + unfold SpecBrowse.docs_given, given. cbn. rewrite !Nat.eqb_refl. cbn. unfold item. cbn. by rewrite Hd.
      - split; [|done]. intros ex Hx. by apply (Hn2 ex), (Hr Finished).
      - split; [|done]. split; [unfold SpecBrowse.raised; rewrite elem_snoc; by right|]. intros e'. unfold SpecBrowse.raised. rewrite elem_snoc.
        intros [Hx|[= ->]]; [by destruct (Hn2 e')|done]. }
    destruct g as [[ks|]|rest sc|r]; [|done| |].
    - destruct Hok as [H1 H2]. by apply (Hrun ks).
    - destruct Hok as [H1 H2]. by apply (Hrun rest).
    - destruct En as [-> ->]. cbn [doc_output]. split; [|done]. cbn [pre_ok started_ok] in *. destruct r as [[u|e]|].
      + intros ex Hx. by apply (Hok ex), (Hr Finished).
      + destruct Hok as [H1 H2]. split; [unfold SpecBrowse.raised; rewrite elem_snoc; by left|]. intros e' Hx. by apply H2, (Hr Finished).
      + destruct Hok as [[o1 H1] H2]. split; [exists o1; rewrite elem_snoc; by left|]. intros ex Hx. by apply (H2 ex), (Hr Finished).
  Qed.

  Lemma closed_now (tr : list (devent D * doutput V)) i o : closed (tr ++ [(CloseDoc i, o)]) i.
  Proof. exists o. apply elem_snoc. by right. Qed.
  Lemma closed_raised (tr : list (devent D * doutput V)) i j o e : raised (tr ++ [(CloseDoc j, o)]) i e <-> raised tr i e.
  Proof. unfold SpecBrowse.raised. rewrite elem_snoc. split; [by intros [?|[=]]|by left]. Qed.
  Lemma close_iter (cs cs' : Streams.cstate D * list (Streams.iter value)) j o g : happen cs (Close j) = (cs', o) -> cs.2 !! j = Some g ->
    exists g', cs'.2 !! j = Some g' /\ match g with Over _ => g' = g | _ => g' = Over None end.
  Proof.
    destruct cs as [c gs]. cbn. intros H Hg. rewrite Hg in H. destruct (Streams.close c g) as [[c' g'] o'] eqn:Ec. injection H as <- <-. exists g'.
    split; [apply list_lookup_insert; by eapply lookup_lt_Some|]. destruct g as [r|rest sc|r]; cbn in Ec; [by injection Ec as <- <- <-| |by injection Ec as <- <- <-].
    destruct (release "docs" c); by injection Ec as <- <- <-.
  Qed.
  Lemma runs_length s tr fs s' : runs s tr fs s' -> length s.2 <= length s'.2.
  Proof.
    induction 1 as [s|[c gs] e [c1 gs1] o tr fs s' He Hr IH]; [done|]. pose proof (happen_length all_keys get render_mark c gs e c1 gs1 o He). cbn in *. lia.
  Qed.
  Lemma given_beyond s tr fs s' j : runs s tr fs s' -> length s'.2 <= j -> given (D := D) (V := V) tr j = [].
  Proof.
    induction 1 as [s|s e s1 o tr fs s' He Hr IH]; intros Hj; [done|].
    rewrite given_cons, IH, app_nil_r by done.
    pose proof (runs_length _ _ _ _ Hr) as Hl. pose proof (happen_length all_keys get render_mark) as Hhl.
    destruct s as [c gs]. destruct s1 as [c1 gs1]. eapply (yielded_none all_keys get render_mark c gs e c1 gs1 o j); [done|]. specialize (Hhl c gs e c1 gs1 o He). cbn in *. lia.
  Qed.
  Lemma next_doc_dinv PI PC c0 tr (s : dstate D) s1 o i0 m j cs trc fs q g d :
    runs (start c0) trc fs cs -> Forall PC fs -> no_replace trc -> length (requests (D := D) (V := V) trc) = length cs.2 -> bhonest PI (d_index s) ->
    (forall i i' m1 m2 j', <[i0 := DStarted m j]> (d_its s) !! i = Some (DStarted m1 j') ->
       <[i0 := DStarted m j]> (d_its s) !! i' = Some (DStarted m2 j') -> i = i') ->
    length (queries_asked tr) = length (d_its s) ->
    (forall i, length (d_its s) <= i -> docs_given tr i = [] /\ never tr i) ->
    queries_asked tr !! i0 = Some q ->
    (forall i q', i <> i0 -> queries_asked tr !! i = Some q' -> exists g, d_its s !! i = Some g /\ diter_ok PI tr trc cs.2 i q' g) ->
    PI d -> convert_query_to_keys d q = Ok m -> requests (D := D) (V := V) trc !! j = Some (Some (key_list m)) -> cs.2 !! j = Some g ->
    pre_ok tr i0 m g -> docs_given tr i0 = omap (item m) (given (D := D) trc j) ->
    next_doc all_keys get render_mark (DState (d_index s) cs (d_its s)) i0 m j = (s1, o) -> PC (c_file (d_corpus s1).1) ->
    dinv PI PC c0 (tr ++ [(NextDoc i0, o)]) s1.
  Proof.
    intros Hruns Hfs Hnr Hlen Hh Hown Hlq Hnew Hq Hall Hd Hm Hreq Hg Hpre Hgiven He HPC.
    unfold next_doc in He. cbn [d_index d_corpus d_its] in He. destruct (happen cs (Next j)) as [cs' oc] eqn:Ec.
    injection He as <- <-. cbn [d_index d_corpus d_its] in *. fold (doc_output m oc).
    assert (i0 < length (d_its s)) as Hi0 by (rewrite <- Hlq; by eapply lookup_lt_Some).
    destruct (next_started tr i0 m j g cs cs' oc Ec Hg Hpre) as (g' & Hg' & Hst & Hgo).
    pose proof (happen_other_its _ _ _ _ Ec) as [El Eo].
    exists (trc ++ [(Next j, oc)]), (fs ++ [c_file cs'.1]). rewrite queries_app, app_nil_r. split_and!; cbn [d_index d_corpus d_its]; rewrite ?insert_length; try done.
    - by eapply runs_snoc.
    - apply Forall_app. split; [done|]. by constructor.
    - apply Forall_app. split; [done|]. constructor; [by intros ?|done].
    - rewrite requests_app, El, app_length, Hlen. cbn. lia.
    - intros i Hi. destruct (Hnew i Hi) as [H1 H2]. assert (i0 <> i) as Hn by lia. split; [by rewrite other_given|by apply other_never].
    - intros i q' Hq'. destruct (decide (i = i0)) as [->|Hn].
      + rewrite Hq in Hq'. injection Hq' as <-. exists (DStarted m j). split; [by apply list_lookup_insert|].
        exists d, g'. split_and!; [done|done| |done| |done].
        * rewrite requests_app. by apply lookup_app_l_Some.
        * rewrite docs_given_app, given_app, omap_app, Hgiven. by rewrite Hgo.
      + destruct (Hall i q' Hn Hq') as (g2 & Hg2 & Hok). exists g2. rewrite list_lookup_insert_ne by done. split; [done|].
        eapply other_diter; [cbn; congruence|done|]. intros m2 j2 ->. assert (j2 <> j) as Hj.
        { intros ->. apply Hn. eapply (Hown i i0 m2 m j); [by rewrite list_lookup_insert_ne|by apply list_lookup_insert]. }
        split; [by apply Eo|]. unfold given. cbn. apply not_eq_sym, Nat.eqb_neq in Hj. rewrite Hj. by destruct oc.
  Qed.

  Lemma dinv_step PI PC c0 tr s e s1 o : dinv PI PC c0 tr s -> dstep s e = (s1, o) -> PI (b_file (d_index s1)) -> PC (c_file (d_corpus s1).1) ->
    dinv PI PC c0 (tr ++ [(e, o)]) s1.
  Proof.
    intros (trc & fs & Hruns & Hfs & Hnr & HPC & Hlen & Hh & Hown & Hlq & Hnew & Hall) He HPI1 HPC1.
    assert (forall i, ~ about e i -> docs_given tr i = [] /\ never tr i -> docs_given (tr ++ [(e, o)]) i = [] /\ never (tr ++ [(e, o)]) i) as Hnew_other.
    { intros i Hi [H1 H2]. split; [by rewrite other_given|by apply other_never]. }
    destruct e as [e|ks|d|q|i0|i0]; cbn [Browse.dstep] in He.
    - (* index *) injection He as <- <-. exists trc, fs. cbn in *. rewrite queries_app, app_nil_r. split_and!; cbn [d_index d_corpus d_its] in *; try done.
      + by eapply (bstep_bhonest PI (d_index s) e _ (bstep (d_index s) e).2); [apply surjective_pairing|..].
      + intros i Hi. apply Hnew_other; [by intros ?|by apply Hnew].
      + intros i q Hq. destruct (Hall i q Hq) as (g & Hg & Hok). exists g. split; [done|].
        rewrite <- (app_nil_r trc). eapply other_diter; [by intros ?|done|done].
    - (* rendering *) destruct (happen (d_corpus s) (Render ks)) as [cs' oc] eqn:Ec. injection He as <- <-. cbn [d_index d_corpus d_its] in *. change (cs', oc).1 with cs' in *.
      pose proof (happen_other_its _ _ _ _ Ec) as Ei. cbv iota beta in Ei.
      exists (trc ++ [(Render ks, oc)]), (fs ++ [c_file cs'.1]). rewrite queries_app, app_nil_r. split_and!; cbn [d_index d_corpus d_its] in *; try done.
      + by eapply runs_snoc.
      + apply Forall_app. split; [done|]. by constructor.
      + apply Forall_app. split; [done|]. constructor; [by intros ?|done].
      + rewrite requests_app, Ei. cbn. by rewrite app_nil_r.
      + intros i Hi. apply Hnew_other; [by intros ?|by apply Hnew].
      + intros i q Hq. destruct (Hall i q Hq) as (g & Hg & Hok). exists g. split; [done|]. eapply other_diter; [by intros ?|done|].
        intros m j _. by rewrite Ei.
    - (* another process *) destruct (happen (d_corpus s) (Other d)) as [cs' oc] eqn:Ec. injection He as <- <-. cbn [d_index d_corpus d_its] in *. change (cs', oc).1 with cs' in *.
      pose proof (happen_other_its _ _ _ _ Ec) as Ei. cbv iota beta in Ei.
      exists (trc ++ [(Other d, oc)]), (fs ++ [c_file cs'.1]). rewrite queries_app, app_nil_r. split_and!; cbn [d_index d_corpus d_its] in *; try done.
      + by eapply runs_snoc.
      + apply Forall_app. split; [done|]. by constructor.
      + apply Forall_app. split; [done|]. constructor; [by intros ?|done].
      + rewrite requests_app, Ei. cbn. by rewrite app_nil_r.
      + intros i Hi. apply Hnew_other; [by intros ?|by apply Hnew].
      + intros i q Hq. destruct (Hall i q Hq) as (g & Hg & Hok). exists g. split; [done|]. eapply other_diter; [by intros ?|done|].
        intros m j _. by rewrite Ei.
    - (* docs(query) *) injection He as <- <-. exists trc, fs. cbn in *. rewrite queries_app. cbn. split_and!; cbn [d_index d_corpus d_its] in *; try done.
      + intros i i' m m' j Hi Hi'. apply lookup_app_Some in Hi as [Hi|[_ Hi]]; [|by destruct (i - length (d_its s)) as [|[]]].
        apply lookup_app_Some in Hi' as [Hi'|[_ Hi']]; [|by destruct (i' - length (d_its s)) as [|[]]]. by eapply Hown.
      + rewrite !app_length, Hlq. done.
      + intros i Hi. apply Hnew_other; [by intros ?|]. apply Hnew. rewrite app_length in Hi. cbn in Hi. lia.
      + intros i q' Hq. apply lookup_app_Some in Hq as [Hq|[Hi Hq]].
        * destruct (Hall i q' Hq) as (g & Hg & Hok). exists g. split; [by apply lookup_app_l_Some|].
          rewrite <- (app_nil_r trc). eapply other_diter; [by intros ?|done|done].
        * rewrite Hlq in Hi. exists (DFresh q). rewrite Hlq in Hq. destruct (i - length (d_its s)) as [|[]] eqn:Ed; [|done|done]. injection Hq as ->.
          split; [rewrite lookup_app_r by lia; by rewrite Ed|]. split; [done|]. apply Hnew_other; [by intros ?|]. by apply Hnew.
    - (* the next document *) destruct (d_its s !! i0) as [[q0|m j|]|] eqn:Ei0.
      + assert (i0 < length (d_its s)) as Hi0 by (by eapply lookup_lt_Some).
        destruct (lookup_lt_is_Some_2 (queries_asked tr) i0) as [q Hq]; [lia|]. destruct (Hall i0 q Hq) as (g & Hg & Hok).
        rewrite Ei0 in Hg. injection Hg as <-. destruct Hok as (-> & Hgiven & Hnever).
        destruct (convert_cases (now (d_index s)) q) as [[m Em]|[Em (doc & Hd1 & Hd2)]]; rewrite Em in He.
        * set (cs := (happen (d_corpus s) (New (Some (merge_sort value_le (map_to_list m).*1)))).1) in He.
          assert (cs = ((d_corpus s).1, (d_corpus s).2 ++ [Streams.Fresh (Some (key_list m))])) as Ecs by (unfold cs; by destruct (d_corpus s)).
          assert (forall j, j < length (d_corpus s).2 -> cs.2 !! j = (d_corpus s).2 !! j) as Eold by (intros j Hj; rewrite Ecs; cbn; by apply lookup_app_l).
          assert (forall i q', queries_asked tr !! i = Some q' -> forall m' j', d_its s !! i = Some (DStarted m' j') -> j' < length (d_corpus s).2) as Hlt.
          { intros i q' Hq' m' j' Hi. destruct (Hall i q' Hq') as (g & Hg & Hok). rewrite Hi in Hg. injection Hg as <-.
            destruct Hok as (d & g & _ & _ & _ & Hgj & _). by eapply lookup_lt_Some. }
          assert (forall i m' j', d_its s !! i = Some (DStarted m' j') -> j' < length (d_corpus s).2) as Hlt'.
          { intros i m' j' Hi. destruct (lookup_lt_is_Some_2 (queries_asked tr) i) as [q' Hq']; [rewrite Hlq; by eapply lookup_lt_Some|]. by eapply Hlt. }
          eapply (next_doc_dinv PI PC c0 tr s s1 o i0 m (length (d_corpus s).2) cs (trc ++ [(New (Some (key_list m)), Quiet)]) (fs ++ [c_file cs.1])
            q (Streams.Fresh (Some (key_list m))) (now (d_index s))); try done.
          -- eapply runs_snoc; [done|]. rewrite Ecs. destruct (d_corpus s). reflexivity.
          -- apply Forall_app. split; [done|]. constructor; [|done]. by rewrite Ecs.
          -- apply Forall_app. split; [done|]. constructor; [by intros ?|done].
          -- rewrite requests_app, app_length, Hlen, Ecs. cbn. by rewrite app_length.
          -- intros i i' m1 m2 j' Hi Hi'. destruct (decide (i = i0)) as [->|Hn]; destruct (decide (i' = i0)) as [->|Hn']; [done| | |].
             ++ rewrite list_lookup_insert in Hi by done. injection Hi as -> <-. rewrite list_lookup_insert_ne in Hi' by done. apply Hlt' in Hi'. lia.
             ++ rewrite list_lookup_insert in Hi' by done. injection Hi' as -> <-. rewrite list_lookup_insert_ne in Hi by done. apply Hlt' in Hi. lia.
             ++ rewrite list_lookup_insert_ne in Hi by done. rewrite list_lookup_insert_ne in Hi' by done. by eapply Hown.
          -- intros i q' Hn Hq'. destruct (Hall i q' Hq') as (g & Hg & Hok). exists g. split; [done|].
             destruct g as [q1|m1 j1|]; cbn [diter_ok] in *; [done| |done]. destruct Hok as (d & g & H1 & H2 & H3 & H4 & H5 & H6).
             exists d, g. split_and!; [done|done| | | |done].
             ++ rewrite requests_app. by apply lookup_app_l_Some.
             ++ rewrite Eold; [done|by eapply lookup_lt_Some].
             ++ rewrite given_app. unfold given at 2. cbn. by rewrite app_nil_r.
          -- apply Hh.
          -- rewrite requests_app, lookup_app_r, Hlen by lia. by rewrite Nat.sub_diag.
          -- rewrite Ecs. cbn. rewrite lookup_app_r by lia. by rewrite Nat.sub_diag.
          -- split; [done|]. intros k. by rewrite elem_of_key_list.
          -- rewrite Hgiven, given_app. unfold given at 2. cbn. rewrite app_nil_r.
             replace (given trc (length (d_corpus s).2)) with (@nil (value * V)); [done|]. symmetry. by eapply given_beyond.
        * injection He as <- <-. cbn in *. exists trc, fs. rewrite queries_app, app_nil_r. split_and!; cbn [d_index d_corpus d_its] in *; rewrite ?insert_length; try done.
          -- intros i i' m m' j Hi Hi'.
             destruct (decide (i = i0)) as [->|Hn]; [rewrite list_lookup_insert in Hi by done; done|]. rewrite list_lookup_insert_ne in Hi by done.
             destruct (decide (i' = i0)) as [->|Hn']; [rewrite list_lookup_insert in Hi' by done; done|]. rewrite list_lookup_insert_ne in Hi' by done.
             by eapply Hown.
          -- intros i Hi. apply Hnew_other; [intros ?; cbn in *; lia|by apply Hnew].
          -- intros i q' Hq'. destruct (decide (i = i0)) as [->|Hn].
             ++ rewrite Hq in Hq'. injection Hq' as <-. exists DDone. split; [by apply list_lookup_insert|]. split.
                ** rewrite docs_given_app, Hgiven. done.
                ** right. destruct Hnever as [_ Hnever]. split_and!.
                   --- unfold SpecBrowse.raised. rewrite elem_snoc. by right.
                   --- intros e. unfold SpecBrowse.raised. rewrite elem_snoc. intros [Hx|[= ->]]; [by destruct (Hnever e)|done].
                   --- exists (now (d_index s)), doc. split; [apply Hh|done].
             ++ destruct (Hall i q' Hq') as (g & Hg & Hok). exists g. rewrite list_lookup_insert_ne by done. split; [done|].
                rewrite <- (app_nil_r trc). eapply other_diter; [cbn; congruence|done|done].
      + assert (i0 < length (d_its s)) as Hi0 by (by eapply lookup_lt_Some).
        destruct (lookup_lt_is_Some_2 (queries_asked tr) i0) as [q Hq]; [lia|]. destruct (Hall i0 q Hq) as (g & Hg & Hok).
        rewrite Ei0 in Hg. injection Hg as <-. destruct Hok as (d & g & H1 & H2 & H3 & H4 & H5 & H6).
        eapply (next_doc_dinv PI PC c0 tr s s1 o i0 m j (d_corpus s) trc fs q g d); try done.
        * rewrite list_insert_id by done. done.
        * intros i q' _ Hq'. by apply Hall.
        * by destruct g.
      + injection He as <- <-. exists trc, fs. rewrite queries_app, app_nil_r. split_and!; cbn [d_index d_corpus d_its] in *; try done.
        * intros i Hi. apply Hnew_other; [|by apply Hnew]. intros E. cbn in E. subst. apply lookup_lt_Some in Ei0. lia.
        * intros i q Hq. destruct (Hall i q Hq) as (g & Hg & Hok). exists g. split; [done|]. destruct (decide (i = i0)) as [->|Hn].
          -- rewrite Ei0 in Hg. injection Hg as <-. destruct Hok as (H1 & H2). split; [rewrite docs_given_app, H1; done|].
             assert (forall ex, raised (tr ++ [(NextDoc i0, Finished)]) i0 ex -> raised tr i0 ex) as Hr.
             { intros ex. unfold SpecBrowse.raised. rewrite elem_snoc. by intros [?|[=]]. }
             destruct H2 as [[[o1 H2] H3]|(H2 & H3 & H4)]; [left|right].
             ++ split; [exists o1; rewrite elem_snoc; by left|]. intros ex Hx. by apply (H3 ex), Hr.
             ++ split_and!; [unfold SpecBrowse.raised; rewrite elem_snoc; by left| |done]. intros ex Hx. by apply H3, Hr.
          -- rewrite <- (app_nil_r trc). eapply other_diter; [cbn; congruence|done|done].
      + injection He as <- <-. exists trc, fs. rewrite queries_app, app_nil_r. split_and!; cbn [d_index d_corpus d_its] in *; try done.
        * intros i Hi. destruct (Hnew i Hi) as [H1 [H2 H3]]. split; [rewrite docs_given_app, H1; done|]. split.
          -- rewrite elem_snoc. by intros [?|[=]].
          -- intros ex. unfold SpecBrowse.raised. rewrite elem_snoc. intros [?|[=]]. by destruct (H3 ex).
        * intros i q Hq. destruct (Hall i q Hq) as (g & Hg & Hok). exists g. split; [done|].
          rewrite <- (app_nil_r trc). eapply other_diter; [cbn; congruence|done|done].
    - (* closed *) destruct (d_its s !! i0) as [[q0|m j|]|] eqn:Ei0.
      + assert (i0 < length (d_its s)) as Hi0 by (by eapply lookup_lt_Some).
        injection He as <- <-. exists trc, fs. rewrite queries_app, app_nil_r. split_and!; cbn [d_index d_corpus d_its] in *; rewrite ?insert_length; try done.
        * intros i i' m m' j Hi Hi'.
          destruct (decide (i = i0)) as [->|Hn]; [rewrite list_lookup_insert in Hi by done; done|]. rewrite list_lookup_insert_ne in Hi by done.
          destruct (decide (i' = i0)) as [->|Hn']; [rewrite list_lookup_insert in Hi' by done; done|]. rewrite list_lookup_insert_ne in Hi' by done.
          by eapply Hown.
        * intros i Hi. apply Hnew_other; [cbn; lia|by apply Hnew].
        * intros i q Hq. destruct (Hall i q Hq) as (g & Hg & Hok). destruct (decide (i = i0)) as [->|Hn].
          -- rewrite Ei0 in Hg. injection Hg as <-. destruct Hok as (-> & H1 & H2 & H3). exists DDone. split; [by apply list_lookup_insert|].
             split; [rewrite docs_given_app, H1; done|]. left. split; [by apply closed_now|]. intros ex. by rewrite closed_raised.
          -- exists g. rewrite list_lookup_insert_ne by done. split; [done|]. rewrite <- (app_nil_r trc). eapply other_diter; [cbn; congruence|done|done].
      + destruct (happen (d_corpus s) (Close j)) as [cs' oc] eqn:Ec. injection He as <- <-. cbn [d_index d_corpus d_its] in *. change (cs', oc).1 with cs' in *.
        pose proof (happen_other_its _ _ _ _ Ec) as [El Eo].
        exists (trc ++ [(Close j, oc)]), (fs ++ [c_file cs'.1]). rewrite queries_app, app_nil_r. split_and!; cbn [d_index d_corpus d_its]; try done.
        * by eapply runs_snoc.
        * apply Forall_app. split; [done|]. by constructor.
        * apply Forall_app. split; [done|]. constructor; [by intros ?|done].
        * rewrite requests_app, El, app_length, Hlen. cbn. lia.
        * intros i Hi. apply Hnew_other; [|by apply Hnew]. intros E. cbn in E. subst. apply lookup_lt_Some in Ei0. lia.
        * intros i q Hq. destruct (Hall i q Hq) as (g & Hg & Hok). exists g. split; [done|]. destruct (decide (i = i0)) as [->|Hn].
          -- rewrite Ei0 in Hg. injection Hg as <-. destruct Hok as (d & g & H1 & H2 & H3 & H4 & H5 & H6).
             destruct (close_iter _ _ _ _ g Ec H4) as (g' & Hg' & Hgc). exists d, g'. split_and!; [done|done| |done| |].
             ++ rewrite requests_app. by apply lookup_app_l_Some.
             ++ rewrite docs_given_app, given_app, H5. cbn. by rewrite !app_nil_r.
             ++ destruct g as [r|rest sc|r]; [done| |]; subst g'.
                ** destruct H6 as [[_ H6] _]. split; [by apply closed_now|]. intros ex. by rewrite closed_raised.
                ** destruct r as [[u|ex]|]; cbn [started_ok] in *.
                   --- intros ex. by rewrite closed_raised.
                   --- rewrite closed_raised. split; [apply H6|]. intros ex'. rewrite closed_raised. apply H6.
                   --- split; [by apply closed_now|]. intros ex. rewrite closed_raised. apply H6.
          -- eapply other_diter; [cbn; congruence|done|]. intros m2 j2 ->. assert (j2 <> j) as Hj.
             { intros ->. apply Hn. by eapply Hown. }
             split; [by apply Eo|]. done.
      + injection He as <- <-. exists trc, fs. rewrite queries_app, app_nil_r. split_and!; cbn [d_index d_corpus d_its] in *; try done.
        * intros i Hi. apply Hnew_other; [|by apply Hnew]. intros E. cbn in E. subst. apply lookup_lt_Some in Ei0. lia.
        * intros i q Hq. destruct (Hall i q Hq) as (g & Hg & Hok). exists g. split; [done|]. destruct (decide (i = i0)) as [->|Hn].
          -- rewrite Ei0 in Hg. injection Hg as <-. destruct Hok as (H1 & H2). split; [rewrite docs_given_app, H1; done|].
             destruct H2 as [[[o1 H2] H3]|(H2 & H3 & H4)]; [left|right].
             ++ split; [by apply closed_now|]. intros ex. by rewrite closed_raised.
             ++ split_and!; [by rewrite closed_raised| |done]. intros ex. rewrite closed_raised. apply H3.
          -- rewrite <- (app_nil_r trc). eapply other_diter; [cbn; congruence|done|done].
      + injection He as <- <-. exists trc, fs. rewrite queries_app, app_nil_r. split_and!; cbn [d_index d_corpus d_its] in *; try done.
        * intros i Hi. destruct (Hnew i Hi) as [H1 [H2 H3]]. split; [rewrite docs_given_app, H1; done|]. split.
          -- rewrite elem_snoc. by intros [?|[=]].
          -- intros ex. by rewrite closed_raised.
        * intros i q Hq. destruct (Hall i q Hq) as (g & Hg & Hok). exists g. split; [done|].
          rewrite <- (app_nil_r trc). eapply other_diter; [cbn; congruence|done|done].
  Qed.
End docs.

Section documents.
  Context {D V : Type} (all_keys : D -> res (list value)) (get : D -> value -> res V) (render_mark : option string).
  Context (Hmark : render_mark ≠ Some "docs").
  Notation druns := (@druns D V all_keys get render_mark).
  Lemma dinv_runs PI PC c0 s tr fi fc s' tr0 : druns s tr fi fc s' -> Forall PI fi -> Forall PC fc ->
    dinv all_keys get render_mark PI PC c0 tr0 s -> dinv all_keys get render_mark PI PC c0 (tr0 ++ tr) s'.
  Proof.
    intros H. revert tr0. induction H as [s|s e s1 o tr fi fc s' He _ IH]; intros tr0 Hi Hc Hinv; [by rewrite app_nil_r|].
    apply Forall_cons in Hi as [Hi1 Hi]. apply Forall_cons in Hc as [Hc1 Hc]. rewrite (cons_middle (e, o)), app_assoc. apply IH; [done|done|].
    by eapply dinv_step.
  Qed.
  Lemma dinv_start (PI : db -> Prop) (PC : D -> Prop) d0 c0 : PI d0 -> PC c0 -> dinv all_keys get render_mark PI PC c0 [] (dstart (D := D) d0 c0).
  Proof. intros HI HC. exists [], []. split_and!; try done; [constructor|]. intros i _. split; [done|]. split; [by intros ?%elem_of_nil|]. by intros e ?%elem_of_nil. Qed.
  Lemma reads_facts c ks out r : reads get c ks out r ->
    out.*1 `prefix_of` ks /\ (forall k v, (k, v) ∈ out -> get c k = Ok v) /\ (r = Some (Ok tt) -> out.*1 = ks) /\
    (forall e, r = Some (Err e) -> exists k, k ∈ ks /\ get c k = Err e).
  Proof.
    induction 1 as [ks| |k ks e He|k v ks out r Hg _ (IH1 & IH2 & IH3 & IH4)].
    - split_and!; [apply prefix_nil|by intros ? ? ?%elem_of_nil|done|done].
    - split_and!; [apply prefix_nil|by intros ? ? ?%elem_of_nil|done|done].
    - split_and!; [apply prefix_nil|by intros ? ? ?%elem_of_nil|done|]. intros e' [= <-]. exists k. split; [by left|done].
    - split_and!.
      + cbn. by apply prefix_cons.
      + intros k' v' [[= -> ->]|H]%elem_of_cons; [done|by apply IH2].
      + intros Hr. cbn. by rewrite IH3.
      + intros e He. destruct (IH4 e He) as (k' & Hk & Hx). exists k'. split; [by right|done].
  Qed.
  Lemma docs_one_state d0 c0 tr fi fc s i q : druns (dstart d0 c0) tr fi fc s -> Forall keys_differ (d0 :: fi) -> queries_asked tr !! i = Some q ->
    exists d c, d ∈ d0 :: fi /\ c ∈ c0 :: fc /\
      (forall doc k v, (doc, k, v) ∈ docs_given tr i -> doc ∈ q /\ doc_key d !! doc = Some k /\ get c k = Ok v) /\
      NoDup (docs_given tr i).*1.*2 /\ Sorted value_le (docs_given tr i).*1.*2 /\
      (ended_by_itself tr i -> forall doc, doc ∈ q -> exists k v, (doc, k, v) ∈ docs_given tr i) /\
      (forall e, raised tr i e -> (exists doc, doc ∈ q /\ doc_key d !! doc = None /\ e = IndexError) \/
                                  (exists doc k, doc ∈ q /\ doc_key d !! doc = Some k /\ get c k = Err e)).
  Proof.
    intros H Hkd Hq. set (PI d := d ∈ d0 :: fi). set (PC c := c ∈ c0 :: fc).
    destruct (dinv_runs PI PC c0 _ tr fi fc s [] H) as (trc & fs & Hruns & Hfs & Hnr & HPC & Hlen & Hh & Hown & Hlq & Hnew & Hall).
    { apply list.Forall_forall. intros d Hd. by right. }
    { apply list.Forall_forall. intros d Hd. by right. }
    { apply dinv_start; by left. }
    cbn [app] in Hall. destruct (Hall i q Hq) as (g & Hg & Hok).
    assert (docs_given tr i = [] -> ~ ended_by_itself tr i -> (forall e, raised tr i e -> e = IndexError /\ exists d doc, PI d /\ doc ∈ q /\ doc_key d !! doc = None) ->
      (forall e, ~ raised tr i e) \/ (exists e, raised tr i e) -> exists d c, d ∈ d0 :: fi /\ c ∈ c0 :: fc /\
      (forall doc k v, (doc, k, v) ∈ docs_given tr i -> doc ∈ q /\ doc_key d !! doc = Some k /\ get c k = Ok v) /\
      NoDup (docs_given tr i).*1.*2 /\ Sorted value_le (docs_given tr i).*1.*2 /\
      (ended_by_itself tr i -> forall doc, doc ∈ q -> exists k v, (doc, k, v) ∈ docs_given tr i) /\
      (forall e, raised tr i e -> (exists doc, doc ∈ q /\ doc_key d !! doc = None /\ e = IndexError) \/
                                  (exists doc k, doc ∈ q /\ doc_key d !! doc = Some k /\ get c k = Err e))) as Hempty.
    { intros -> Hne Hr [Hno|[e He]].
      - exists d0, c0. split_and!; [by left|by left|by intros ? ? ? ?%elem_of_nil|constructor|constructor|by intros ?|]. intros e He. by destruct (Hno e).
      - destruct (Hr e He) as (_ & d & doc & Hd & Hdoc & Hk). exists d, c0.
        split_and!; [done|by left|by intros ? ? ? ?%elem_of_nil|constructor|constructor|by intros ?|]. intros e' He'. left. exists doc. destruct (Hr e' He') as [-> _]. done. }
    destruct g as [q'|m j|]; cbn [diter_ok] in Hok.
    - destruct Hok as (-> & H1 & H2 & H3). apply Hempty; [done|by intros [? _]|intros e He; by destruct (H3 e)|by left].
    - clear Hempty. destruct Hok as (d & g & Hd & Hm & Hreq & Hgj & Hgiv & Hst). destruct (d_corpus s) as [c gs] eqn:Ecs. cbn [snd] in *.
      assert (keys_differ d) as Hinj by (by apply (proj1 (list.Forall_forall _ _) Hkd d)).
      assert (forall doc, doc ∈ q -> is_Some (doc_key d !! doc)) as Hs.
      { intros doc Hdoc. destruct (doc_key d !! doc) eqn:E; [by eexists|]. by rewrite (convert_err d q doc Hdoc E) in Hm. }
      destruct (convert_ok d q Hinj Hs) as (m' & Hm' & Hspec). rewrite Hm in Hm'. injection Hm' as <-.
      set (P0 cc := cc ∈ c0 :: fs).
      destruct (new_runs all_keys get render_mark Hmark P0 P0 (honest P0)) with (s := start (K := value) c0) (tr := trc) (fs := fs) (s' := (c, gs)) (j := j) (request := Some (key_list m))
        as (g1 & Hg1 & Hok1); [by intros c1 (_ & _ & ?)| |done|done|apply counted_start| | |done|].
      { intros. by eapply (honest_step all_keys get render_mark). }
      { split_and!; [done|by left|by left]. }
      { apply list.Forall_forall. intros cc Hcc. by right. }
      cbn in Hg1, Hok1. rewrite Hgj in Hg1. injection Hg1 as <-.
      destruct (iter_ok_reads all_keys get P0 c (Some (key_list m)) (given trc j) g) as (cc & Hcc & Hr); [exists c0; by left|done|]. cbn [reads_request] in Hr.
      destruct (reads_facts cc _ _ _ Hr) as (R1 & R2 & R3 & R4).
      assert (forall k v, (k, v) ∈ given trc j -> is_Some (m !! k)) as Hin.
      { intros k v Hkv. apply elem_of_key_list. destruct R1 as [l ->]. apply elem_of_app. left. apply elem_of_list_fmap. by exists (k, v). }
      assert ((docs_given tr i).*1.*2 = (given trc j).*1) as Ekeys.
      { rewrite Hgiv. clear -Hin. induction (given trc j) as [|[k v] l IH]; [done|]. destruct (Hin k v) as [doc Hdoc]; [by left|].
        cbn [omap list_omap]. unfold item at 1. cbn [fst snd]. rewrite Hdoc. cbn [fmap option_fmap option_map list_fmap fst snd]. f_equal. apply IH.
        intros k' v' Hkv. apply (Hin k' v'). by right. }
      assert (NoDup (key_list m)) as Hnd.
      { unfold key_list. rewrite merge_sort_Permutation. apply NoDup_fst_map_to_list. }
      assert (Sorted value_le (key_list m)) as Hsort by (apply (Sorted_merge_sort value_le)).
      exists d, cc. split; [done|]. split.
      { apply elem_of_cons in Hcc as [->|Hcc]; [by left|]. by apply (proj1 (list.Forall_forall _ _) Hfs cc). }
      split_and!.
      + intros doc k v Hx. rewrite Hgiv in Hx. apply elem_of_list_omap in Hx as ([k' v'] & Hkv & Hx). unfold item in Hx. cbn in Hx.
        destruct (m !! k') as [doc'|] eqn:Em; [|done]. cbn in Hx. injection Hx as -> -> ->. apply Hspec in Em as [? ?]. split_and!; [done|done|]. by apply R2.
      + rewrite Ekeys. destruct R1 as [l El]. rewrite El in Hnd. by apply NoDup_app in Hnd as [? _].
      + rewrite Ekeys. destruct R1 as [l El]. rewrite El in Hsort. clear -Hsort. apply Sorted_StronglySorted in Hsort; [|apply value_le_trans].
        by apply StronglySorted_Sorted, elem_of_StronglySorted_app in Hsort || (apply StronglySorted_Sorted; by eapply StronglySorted_app_inv_l).
      + intros (E1 & E2 & E3) doc Hdoc. destruct (Hs doc Hdoc) as [k Hk]. assert (m !! k = Some doc) as Emk by (by apply Hspec).
        assert (ended g = Some (Ok tt)) as Eg.
        { destruct g as [r|rest sc|[[[]|e]|]]; cbn in Hst |- *; [done| |done| |].
          - by destruct Hst as [[? _] _].
          - by destruct (E3 e); apply Hst.
          - by destruct E2; apply Hst. }
        assert (k ∈ (given trc j).*1) as Hkin by (rewrite (R3 Eg); apply elem_of_key_list; by eexists).
        apply elem_of_list_fmap in Hkin as ([k' v] & -> & Hkv). exists k', v. rewrite Hgiv. apply elem_of_list_omap. exists (k', v). split; [done|]. unfold item. cbn in *. by rewrite Emk.
      + intros e He. right. assert (ended g = Some (Err e)) as Eg.
        { destruct g as [r|rest sc|[[[]|e']|]]; cbn in Hst |- *; [done| | | |].
          - destruct Hst as [[_ Hn] _]. by destruct (Hn e).
          - by destruct (Hst e).
          - destruct Hst as [_ Hst]. by rewrite (Hst e He).
          - destruct Hst as [_ Hn]. by destruct (Hn e). }
        destruct (R4 e Eg) as (k & Hk & Hx). apply elem_of_key_list in Hk as [doc Hdoc]. apply Hspec in Hdoc as [? ?]. by exists doc, k.
    - destruct Hok as [H1 [[[o H2] H3]|(H2 & H3 & H4)]].
      + apply Hempty; [done|intros (_ & Hn & _); apply Hn; by exists o|intros e He; by destruct (H3 e)|by left].
      + apply Hempty; [done|intros (_ & _ & Hn); by destruct (Hn IndexError)| |right; by eexists]. intros e He. split; [by apply H3|done].
  Qed.
End documents.
