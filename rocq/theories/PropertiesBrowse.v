(** PropertiesBrowse.v: C118-C120, iterating over the values of a field and over the documents
    of a query, item by item. *)
From Verif Require Import BrowseProofs IndexCalls.

(** ** C118: an iteration over the values of a field shows one committed state of the index,
    whatever else is called and whoever commits (indexing too) before it is over. *)
Theorem C118_one_state : forall d0 tr fs s i field min,
  bruns (bstart d0) tr fs s -> Forall (fun x => keeps_values x.1) tr -> asked tr !! i = Some (field, min) ->
  exists d rows, d ∈ d0 :: fs /\ lists_values d field min rows /\
    rows_given tr i `prefix_of` rows /\ (exhausted s i -> rows_given tr i = rows).
Proof.
  intros d0 tr fs s i field min H _ Hi. set (P d := d ∈ d0 :: fs).
  destruct (bruns_new P (bstart d0) tr fs s i (field, min) H) as (g & Hg & Hok); [|apply list.Forall_forall; intros d Hd; by right|done|].
  { split; by left. }
  cbn in Hg, Hok. destruct (viter_ok_lists P _ _ _ ltac:(exists d0; by left) Hok) as (d & rows & Hd & Hl & Hp & He).
  exists d, rows. split_and!; [done..|]. intros Hx. apply He. unfold exhausted in Hx. congruence.
Qed.
Print Assumptions C118_one_state.
(** It is the state at its first step, if no other iteration is underway then. *)
Theorem C118_present_state : forall d0 tr1 fs1 s1 i field min o tr2 fs2 s2,
  bruns (bstart d0) tr1 fs1 s1 -> ~ underway s1 -> b_its s1 !! i = Some (VFresh field min) ->
  bruns s1 ((Advance i, o) :: tr2) fs2 s2 -> Forall (fun x => keeps_values x.1) tr2 ->
  exists rows, lists_values (b_file s1) field min rows /\
    rows_given ((Advance i, o) :: tr2) i `prefix_of` rows /\ (exhausted s2 i -> rows_given ((Advance i, o) :: tr2) i = rows).
Proof.
  intros d0 tr1 fs1 s1 i field min o tr2 fs2 s2 H1 Hu Hi H2 _. inversion H2 as [|? ? s3 ? ? fs3 ? He Hrest]; subst.
  pose proof (bruns_btight _ _ _ _ H1 (or_introl eq_refl)) as Ht.
  assert (b_view s1 = None) as Ev by (destruct Ht as [?|Ht]; [done|by rewrite not_underway in Ht]).
  set (P d := d = b_file s1). assert (exists d, P d) as HPx by (by exists (b_file s1)).
  destruct (bstep_iter P s1 (Advance i) s3 o i (VFresh field min) (field, min) [] He Hi) as (g3 & Hi3 & Hok3 & _);
    [intros _; unfold P, now; by rewrite Ev|done|done|].
  assert (forall fl m, g3 <> VFresh fl m) as Hnf.
  { intros fl m ->. cbn [bstep] in He. rewrite Hi in He. assert (i < length (b_its s1)) as Hlt by (by eapply lookup_lt_Some).
    unfold give in He. destruct (iter_field_docs (now s1) field min); injection He as <- _; cbn in Hi3; by rewrite list_lookup_insert in Hi3. }
  destruct (bruns_started P s3 tr2 fs3 s2 i g3 (field, min) (row_given i (Advance i, o)) HPx Hrest Hi3 Hnf Hok3) as (g & Hg & Hok).
  rewrite rows_given_cons. destruct (viter_ok_lists P _ _ _ HPx Hok) as (d & rows & -> & Hl & Hp & Hx).
  exists rows. split_and!; [done|done|]. intros E. apply Hx. unfold exhausted in E. congruence.
Qed.
Print Assumptions C118_present_state.

(** ** C119 (partial): calls made while iterating read the index as it is now, and can change
    it: true if no iteration is underway, or nobody else has committed. *)
Theorem C119_calls_partial : forall d0 tr fs s,
  bruns (bstart d0) tr fs s -> ~ underway s \/ Forall (fun x => ~ commits_elsewhere x.1) tr ->
  (bstep s Look).2 = Saw_index (b_file s) /\
  forall f, match f (b_file s) with
            | Ok d => (bstep s (Change f)).2 = BQuiet /\ b_file (bstep s (Change f)).1 = d
            | Err e => (bstep s (Change f)).2 = BRaised e /\ b_file (bstep s (Change f)).1 = b_file s
            end.
Proof.
  intros d0 tr fs s H Hor.
  assert (b_view s = None \/ b_view s = Some (b_file s, b_ver s)) as Hv.
  { destruct Hor as [Hu|Hno].
    - left. destruct (bruns_btight _ _ _ _ H (or_introl eq_refl)) as [?|Ht]; [done|]. by rewrite not_underway in Ht.
    - assert (forall s1 e o s2, bstep s1 e = (s2, o) -> ~ commits_elsewhere e -> b_view s1 = None \/ b_view s1 = Some (b_file s1, b_ver s1) ->
        b_view s2 = None \/ b_view s2 = Some (b_file s2, b_ver s2)) as Hstep.
      { intros s1 e o s2 He Hn Hs.
        assert (forall its, b_view (settle s1 its) = None \/ b_view (settle s1 its) = Some (b_file (settle s1 its), b_ver (settle s1 its))) as Hset.
        { intros its. unfold settle. cbn. destruct (existsb _ _); [right|by left]. by destruct Hs as [-> | ->]. }
        destruct e as [fl m|i|i| |f|d]; cbn [bstep] in He; [by injection He as <- _| | |by injection He as <- _| |by destruct Hn].
        - destruct (b_its s1 !! i) as [[fl m|rest|b]|]; [| |by injection He as <- _|by injection He as <- _]; unfold give in He.
          + destruct (iter_field_docs (now s1) fl m); injection He as <- _; apply Hset.
          + destruct rest; injection He as <- _; apply Hset.
        - destruct (b_its s1 !! i) as [[fl m|rest|b]|]; try (by injection He as <- _); injection He as <- _; apply Hset.
        - destruct (match b_view s1 with Some (_, v) => negb (v =? b_ver s1) | None => false end); [by injection He as <- _|].
          destruct (f (now s1)) as [d|]; injection He as <- _; [|done]. cbn. destruct (b_view s1); [by right|by left]. }
      revert Hno. assert (b_view (bstart d0) = None \/ b_view (bstart d0) = Some (b_file (bstart d0), b_ver (bstart d0))) as Hs by by left. revert Hs.
      induction H as [|s e s1 o tr fs s' He _ IH]; intros Hs Hno; [done|]. apply Forall_cons in Hno as [Hn Hno]. apply IH; [by eapply Hstep|done]. }
  assert (now s = b_file s) as En by (unfold now; by destruct Hv as [-> | ->]). cbn [bstep]. rewrite En. split; [done|]. intros f.
  assert (match b_view s with Some (_, v) => negb (v =? b_ver s) | None => false end = false) as ->.
  { destruct Hv as [-> | ->]; [done|]. by rewrite Nat.eqb_refl. }
  by destruct (f (b_file s)).
Qed.
Print Assumptions C119_calls_partial.
(** Otherwise, until an iteration goes on, all calls read the old index, and every change
    fails, also one that would succeed on the old and on the new index. *)
Theorem C119_out_of_date : forall d0 tr fs s d o tr' fs' s',
  bruns (bstart d0) tr fs s -> underway s ->
  bruns s ((Elsewhere d, o) :: tr') fs' s' -> Forall (fun x => match x.1 with Advance _ | Stop _ => False | _ => True end) tr' ->
  (exists seen, (bstep s Look).2 = Saw_index seen /\ forall o, (Look, o) ∈ tr' -> o = Saw_index seen) /\
  forall f o, (Change f, o) ∈ tr' -> o = BRaised OperationalError.
Proof.
  intros d0 tr fs s d o tr' fs' s' H Hu H' Hno. inversion H' as [|? ? s1 ? ? fs1 ? He Hrest]; subst. cbn [bstep] in He. injection He as <- <-.
  assert (exists sd v, b_view s = Some (sd, v) /\ v <= b_ver s) as (sd & v & Ev & Hle).
  { assert (forall s tr fs s', bruns s tr fs s' ->
      (forall x, b_view s = Some x -> x.2 <= b_ver s) /\ (existsb unfinished (b_its s) = true -> is_Some (b_view s)) ->
      (forall x, b_view s' = Some x -> x.2 <= b_ver s') /\ (existsb unfinished (b_its s') = true -> is_Some (b_view s'))) as Hinv.
    { clear. induction 1 as [|s e s1 o tr fs s' He _ IH]; intros [H1 H2]; [done|]. apply IH.
      assert (forall its, (forall x, b_view (settle s its) = Some x -> x.2 <= b_ver (settle s its)) /\
        (existsb unfinished (b_its (settle s its)) = true -> is_Some (b_view (settle s its)))) as Hset.
      { intros its. unfold settle. cbn. destruct (existsb unfinished its); [|done]. split; [|by eexists]. intros x [= <-].
        destruct (b_view s) as [y|] eqn:E; [by apply H1|done]. }
      destruct e as [fl m|i|i| |f|d]; cbn [bstep] in He.
      - injection He as <- _. cbn. split; [done|]. rewrite existsb_app. cbn. rewrite orb_false_r. done.
      - destruct (b_its s !! i) as [[fl m|rest|b]|]; [| |by injection He as <- _|by injection He as <- _]; unfold give in He.
        + destruct (iter_field_docs (now s) fl m); injection He as <- _; apply Hset.
        + destruct rest; injection He as <- _; apply Hset.
      - destruct (b_its s !! i) as [[fl m|rest|b]|]; try (by injection He as <- _); injection He as <- _; apply Hset.
      - by injection He as <- _.
      - destruct (match b_view s with Some (_, v) => negb (v =? b_ver s) | None => false end); [by injection He as <- _|].
        destruct (f (now s)) as [d|]; injection He as <- _; [|done]. cbn. split.
        + intros x Hx. destruct (b_view s); [|done]. by injection Hx as <-.
        + intros Hx. apply H2 in Hx as [y ->]. by eexists.
      - injection He as <- _. cbn. split; [|done]. intros x Hx. apply H1 in Hx. lia. }
    destruct (Hinv _ _ _ _ H) as [I1 I2]; [done|]. destruct Hu as (i & r0 & rest0 & Hi). destruct I2 as [[sd v] Ev].
    { apply existsb_exists. exists (VRunning (r0 :: rest0)). split; [apply elem_of_list_In; by eapply elem_of_list_lookup_2|done]. }
    exists sd, v. split; [done|]. by apply (I1 (sd, v)). }
  assert (forall s tr fs s', bruns s tr fs s' -> Forall (fun x => match x.1 with Advance _ | Stop _ => False | _ => True end) tr ->
    b_view s = Some (sd, v) -> v < b_ver s ->
    (forall o, (Look, o) ∈ tr -> o = Saw_index sd) /\ forall f o, (Change f, o) ∈ tr -> o = BRaised OperationalError) as Hrun.
  { clear. induction 1 as [|s e s1 o tr fs s' He _ IH]; intros Hno Ev Hlt; [split; [by intros ? ?%elem_of_nil|by intros ? ? ?%elem_of_nil]|].
    apply Forall_cons in Hno as [Hn Hno].
    assert (b_view s1 = Some (sd, v) /\ v < b_ver s1 /\ (e = Look -> o = Saw_index sd) /\ (forall f, e = Change f -> o = BRaised OperationalError)) as (E1 & E2 & E3 & E4).
    { destruct e as [fl m|i|i| |f|d]; cbn [bstep] in He; [|done|done| | |].
      - injection He as <- <-. by split_and!.
      - injection He as <- <-. split_and!; [done|done| |done]. intros _. unfold now. by rewrite Ev.
      - rewrite Ev in He. assert (v =? b_ver s = false) as Hne by (apply Nat.eqb_neq; lia). rewrite Hne in He. cbn in He. injection He as <- <-. by split_and!.
      - injection He as <- <-. cbn. split_and!; [done|lia|done|done]. }
    destruct (IH Hno E1 E2) as [I1 I2]. split.
    - intros o' [[= <- <-]|Hin]%elem_of_cons; [by apply E3|by apply I1].
    - intros f o' [[= <- <-]|Hin]%elem_of_cons; [by eapply E4|by eapply I2]. }
  destruct (Hrun _ _ _ _ Hrest Hno) as [R1 R2]; [cbn; done|cbn; lia|]. split; [|done].
  exists sd. split; [cbn; unfold now; by rewrite Ev|done].
Qed.
Print Assumptions C119_out_of_date.

(** ** C120: the documents given by [docs(query)]: those of one committed index and one
    committed corpus, each under its own number and key, in the order of the keys, none twice;
    all of them if it ends by itself; and it raises only for a document that is missing. *)
Theorem C120_documents : forall {D V : Type} (all_keys : D -> res (list value)) (get : D -> value -> res V) (render_mark : option string),
  render_mark ≠ Some "docs" -> forall d0 c0 tr fi fc s i q,
  druns all_keys get render_mark (dstart d0 c0) tr fi fc s -> Forall keys_differ (d0 :: fi) -> queries_asked tr !! i = Some q ->
  exists d c, d ∈ d0 :: fi /\ c ∈ c0 :: fc /\
    (forall doc k v, (doc, k, v) ∈ docs_given tr i -> doc ∈ q /\ doc_key d !! doc = Some k /\ get c k = Ok v) /\
    NoDup (docs_given tr i).*1.*2 /\ Sorted value_le (docs_given tr i).*1.*2 /\
    (ended_by_itself tr i -> forall doc, doc ∈ q -> exists k v, (doc, k, v) ∈ docs_given tr i) /\
    (forall e, raised tr i e -> (exists doc, doc ∈ q /\ doc_key d !! doc = None /\ e = IndexError) \/
                                (exists doc k, doc ∈ q /\ doc_key d !! doc = Some k /\ get c k = Err e)).
Proof. intros. by eapply docs_one_state. Qed.
Print Assumptions C120_documents.

(** ** Concrete cases *)
Fixpoint bplay (s : bstate) (es : list bevent) : list boutput * bstate :=
  match es with [] => ([], s) | e :: es => let '(s1, o) := bstep s e in let '(os, s') := bplay s1 es in (o :: os, s') end.
Lemma bruns_play es s : exists fs, bruns s (zip es (bplay s es).1) fs (bplay s es).2.
Proof.
  revert s. induction es as [|e es IH]; intros s; [exists []; constructor|]. cbn. destruct (bstep s e) as [s1 o] eqn:E.
  destruct (IH s1) as [fs H]. destruct (bplay s1 es) as [os s']. exists (b_file s1 :: fs). cbn. by econstructor.
Qed.
Local Notation t := VText.
Definition first_index : db := set_inverted_index
  {[1%N := FeatureRow "year" (VInt 2020) 2 {[0; 1]}%N; 2%N := FeatureRow "year" (VInt 2019) 1 {[2]}%N; 3%N := FeatureRow "text" (t "a") 1 {[0]}%N]} empty_db.
Definition second_index : db := set_inverted_index {[1%N := FeatureRow "year" (VInt 2021) 1 {[0]}%N]} empty_db.
(** Another process indexes again between two steps: the iteration goes on with the old index;
    a call in between sees the old one and cannot change anything; then all is as usual. *)
Example C118_example : exists tr fs s, bruns (bstart first_index) tr fs s /\ Forall (fun x => keeps_values x.1) tr /\
  asked tr = [("year", 1%Z)] /\ exhausted s 0 /\ b_file s = second_index /\
  rows_given tr 0 = [(VInt 2019, 1%N, {[2]}%N); (VInt 2020, 2%N, {[0; 1]}%N)].
Proof.
  set (es := [Iterate "year" 1; Advance 0; Elsewhere second_index; Look; Change Ok; Advance 0; Look; Change Ok; Advance 0]).
  destruct (bruns_play es (bstart first_index)) as [fs H]. eexists _, fs, _. split; [exact H|]. split; [|by split_and!; vm_compute].
  assert (forall l os, Forall keeps_values l -> Forall (fun x : bevent * boutput => keeps_values x.1) (zip l os)) as Hz.
  { induction l as [|x l IH]; intros [|o os] Hl; try constructor; [by inversion Hl|]. apply IH. by inversion Hl. }
  apply Hz. repeat constructor; by intros ? ? [= ->].
Qed.
Theorem C119_calls_see_present_refuted :
  ~ (forall d0 tr fs s, bruns (bstart d0) tr fs s ->
      (bstep s Look).2 = Saw_index (b_file s) /\
      forall f d, f (now s) = Ok d -> f (b_file s) = Ok d -> (bstep s (Change f)).2 = BQuiet).
Proof.
  intros H. set (es := [Iterate "year" 1; Advance 0; Elsewhere second_index]).
  destruct (bruns_play es (bstart first_index)) as [fs Hr]. destruct (H _ _ _ _ Hr) as [_ H2].
  specialize (H2 (fun _ => Ok first_index) first_index eq_refl eq_refl). vm_compute in H2. discriminate H2.
Qed.
Print Assumptions C119_calls_see_present_refuted.

Definition read_keys (c : list (value * string)) : res (list value) := Ok c.*1.
Definition read_doc (c : list (value * string)) (k : value) : res string :=
  match List.find (fun kv => bool_decide (kv.1 = k)) c with Some kv => Ok kv.2 | None => Err IndexError end.
Fixpoint dplay (s : dstate (list (value * string))) (es : list (devent (list (value * string)))) : list (doutput string) * list db * dstate (list (value * string)) :=
  match es with
  | [] => ([], [], s)
  | e :: es => let '(s1, o) := dstep read_keys read_doc None s e in
      let '(os, fi, s') := dplay s1 es in (o :: os, b_file (d_index s1) :: fi, s')
  end.
Lemma druns_play es s : exists fc, druns read_keys read_doc None s (zip es (dplay s es).1.1) (dplay s es).1.2 fc (dplay s es).2.
Proof.
  revert s. induction es as [|e es IH]; intros s; [exists []; constructor|]. cbn. destruct (dstep read_keys read_doc None s e) as [s1 o] eqn:E.
  destruct (IH s1) as [fc H]. destruct (dplay s1 es) as [[os fi] s']. exists (c_file (d_corpus s1).1 :: fc). cbn in *. by econstructor.
Qed.
Definition keyed_index : db := set_doc_key {[0%N := t "b"; 1%N := t "a"; 2%N := t "c"]} empty_db.
Lemma keyed_differ : keys_differ keyed_index.
Proof.
  intros i j k. unfold keyed_index. cbn. intros Hi Hj.
  repeat first [rewrite lookup_insert_Some in Hi | rewrite lookup_singleton_Some in Hi]. repeat first [rewrite lookup_insert_Some in Hj | rewrite lookup_singleton_Some in Hj].
  naive_solver.
Qed.
(** The index is emptied and the corpus replaced by other processes while the documents are
    given: they are still the old ones; a second iteration then raises. *)
Example C120_example : exists tr fi fc s, druns read_keys read_doc None (dstart keyed_index [(t "a", "A"); (t "b", "B")]) tr fi fc s /\
  Forall keys_differ (keyed_index :: fi) /\ queries_asked tr = [{[0; 1]}%N; {[1]}%N; {[1; 2]}%N] /\
  docs_given tr 0 = [(1%N, t "a", "A"); (0%N, t "b", "B")] /\ ended_by_itself tr 0 /\
  raised tr 1 IndexError /\ docs_given tr 2 = [(1%N, t "a", "A")] /\ raised tr 2 IndexError.
Proof.
  set (es := [Docs {[0; 1]}%N; Docs {[1]}%N; Docs {[1; 2]}%N; NextDoc 0; NextDoc 2; OnIndex (Elsewhere empty_db); Recorded [(t "a", "new")];
              NextDoc 2; NextDoc 0; NextDoc 1; NextDoc 0]).
  destruct (druns_play es (dstart keyed_index [(t "a", "A"); (t "b", "B")])) as [fc H]. eexists _, _, fc, _. split; [exact H|]. split.
  - assert (keys_differ empty_db) as He by (by intros ? ? ?).
    assert (forall l : list db, Forall (fun d => d = keyed_index \/ d = empty_db) l -> Forall keys_differ l) as Hl.
    { intros l Hl. eapply Forall_impl; [exact Hl|]. intros d [-> | ->]; [apply keyed_differ|done]. }
    apply Hl. constructor; [by left|].
    assert ((dplay (dstart keyed_index [(t "a", "A"); (t "b", "B")]) es).1.2 =
      [keyed_index; keyed_index; keyed_index; keyed_index; keyed_index; empty_db; empty_db; empty_db; empty_db; empty_db; empty_db]) as -> by (vm_compute; reflexivity).
    repeat (constructor; [by (left + right)|]). constructor.
  - assert (zip es (dplay (dstart keyed_index [(t "a", "A"); (t "b", "B")]) es).1.1 =
      zip es [Other_output; Other_output; Other_output; Given 1%N (t "a") "A"; Given 1%N (t "a") "A"; Other_output; Other_output; DRaised IndexError; Given 0%N (t "b") "B"; DRaised IndexError; Finished]) as -> by (vm_compute; reflexivity).
    split_and!; try (by vm_compute); unfold ended_by_itself, closed, raised, es; cbn [zip zip_with]; split_and?;
    match goal with
    | |- ~ _ => intros [o Hin]; repeat (apply elem_of_cons in Hin as [Hin|Hin]; [discriminate Hin|]); by apply elem_of_nil in Hin
    | |- forall _, _ => intros e Hin; repeat (apply elem_of_cons in Hin as [Hin|Hin]; [discriminate Hin|]); by apply elem_of_nil in Hin
    | |- _ ∈ _ => repeat (apply elem_of_cons; first [left; reflexivity | right])
    end.
Qed.
