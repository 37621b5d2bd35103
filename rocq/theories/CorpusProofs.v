(** CorpusProofs.v *)
From Verif Require Export SpecCorpus BaseProofs.

(** ** Rowids *)
Lemma foldr_max_le (l : list N) x : x ∈ l -> (x <= foldr N.max 0 l)%N.
Proof. induction l as [|y l IH]; [by intros ?%elem_of_nil|]. cbn. intros [->|H]%elem_of_cons; [lia|]. specialize (IH H). lia. Qed.
Lemma foldr_max_in (l : list N) : l ≠ [] -> foldr N.max 0%N l ∈ l.
Proof.
  induction l as [|y l IH]; [done|]. intros _. cbn. destruct l as [|z l].
  - cbn. rewrite N.max_0_r. by left.
  - destruct (N.max_spec y (foldr N.max 0 (z :: l))%N) as [[_ ->]|[_ ->]]; [right; by apply IH|by left].
Qed.
Lemma new_rowid_fresh {A} (m : gmap N A) : m !! new_rowid m = None.
Proof.
  destruct (m !! new_rowid m) as [x|] eqn:E; [|done]. exfalso. apply elem_of_map_to_list in E.
  assert (new_rowid m ∈ (map_to_list m).*1) as Hin by (apply elem_of_list_fmap; by exists (new_rowid m, x)).
  apply foldr_max_le in Hin. unfold new_rowid in Hin at 1. lia.
Qed.
Lemma new_rowid_gt {A} (m : gmap N A) k x : m !! k = Some x -> (k < new_rowid m)%N.
Proof.
  intros E. apply elem_of_map_to_list in E.
  assert (k ∈ (map_to_list m).*1) as Hin by (apply elem_of_list_fmap; by exists (k, x)).
  apply foldr_max_le in Hin. unfold new_rowid. lia.
Qed.

Lemma new_rowid_numbered {A} (xs : list A) (m : gmap N A) : numbered xs m -> new_rowid m = N.of_nat (S (length xs)).
Proof.
  intros H. unfold new_rowid. rewrite Nat2N.inj_succ, <- N.add_1_l. f_equal.
  assert (forall k x, m !! k = Some x -> (k <= N.of_nat (length xs))%N) as Hle.
  { intros k x Hk. rewrite H in Hk. destruct (N.eqb_spec k 0); [done|]. apply lookup_lt_Some in Hk. lia. }
  apply N.le_antisymm.
  - destruct (decide ((map_to_list m).*1 = [])) as [->|Hne]; [cbn; lia|].
    apply foldr_max_in in Hne. apply elem_of_list_fmap in Hne as ([k x] & -> & Hin).
    apply elem_of_map_to_list in Hin. by eapply Hle.
  - destruct xs as [|y xs']; [cbn; lia|]. set (xs := y :: xs') in *.
    assert (is_Some (m !! N.of_nat (length xs))) as [x Hx].
    { rewrite H. destruct (N.eqb_spec (N.of_nat (length xs)) 0); [cbn in *; lia|].
      apply lookup_lt_is_Some. cbn. lia. }
    apply foldr_max_le. apply elem_of_list_fmap. exists (N.of_nat (length xs), x). split; [done|]. by apply elem_of_map_to_list.
Qed.

Lemma numbered_app {A} (xs : list A) (m : gmap N A) x : numbered xs m -> numbered (xs ++ [x]) (<[new_rowid m := x]> m).
Proof.
  intros H k. rewrite (new_rowid_numbered xs m H). destruct (decide (k = N.of_nat (S (length xs)))) as [->|Hne].
  - rewrite lookup_insert. destruct (N.eqb_spec (N.of_nat (S (length xs))) 0); [lia|].
    replace (N.to_nat (N.of_nat (S (length xs))) - 1) with (length xs) by lia. by rewrite list_lookup_middle.
  - rewrite lookup_insert_ne by done. rewrite H. destruct (N.eqb_spec k 0); [done|].
    destruct (decide (N.to_nat k - 1 < length xs)) as [Hl|Hl].
    + by rewrite lookup_app_l.
    + rewrite lookup_app_r by lia. rewrite (proj2 (lookup_ge_None xs _)) by lia.
      symmetry. apply lookup_ge_None. cbn. lia.
Qed.

(** ** Plain text *)
Lemma inserts_ok vs : inserts (Ok <$> vs) = (PInsert <$> vs, false).
Proof. induction vs as [|v vs IH]; [done|]. cbn. by rewrite IH. Qed.
Lemma inserts_failed xs e : Err e ∈ xs -> (inserts xs).2 = true.
Proof.
  induction xs as [|[v|e'] xs IH]; [by intros ?%elem_of_nil| |done].
  intros [?|H]%elem_of_cons; [done|]. cbn. specialize (IH H). by destruct (inserts xs).
Qed.
Lemma inserts_only xs s : s ∈ (inserts xs).1 -> exists v, s = PInsert v.
Proof.
  induction xs as [|[v|e'] xs IH]; cbn; [by intros ?%elem_of_nil| |by intros ?%elem_of_nil].
  destruct (inserts xs) as [l f]. cbn. intros [->|H]%elem_of_cons; [by eexists|auto].
Qed.

(** While the savepoint is open nothing committed changes. *)
Definition keeps (s : pt_stmt) : Prop := s ≠ PRelease.
Lemma exec_keeps_disk st l : Forall keeps l -> pt_disk (foldl pt_exec st l) = pt_disk st.
Proof.
  revert st. induction l as [|s l IH]; intros st H; [done|]. apply Forall_cons in H as [Hs H]. cbn. rewrite (IH _ H).
  destruct st as [dk [[m|]|]], s as [| | | |[v|]| |]; try done; by contradiction Hs.
Qed.
Lemma exec_inserts dk m l : Forall (fun s => exists v, s = PInsert v) l ->
  exists m', foldl pt_exec (PtDb dk (Some (Some m))) l = PtDb dk (Some (Some m')).
Proof.
  revert m. induction l as [|s l IH]; intros m H; [by eexists|]. apply Forall_cons in H as [[v ->] H].
  destruct v as [v|]; cbn; by apply IH.
Qed.
Lemma exec_numbered dk m xs vs : numbered xs m ->
  exists m', foldl pt_exec (PtDb dk (Some (Some m))) (PInsert <$> vs) = PtDb dk (Some (Some m')) /\ numbered (xs ++ omap id vs) m'.
Proof.
  revert m xs. induction vs as [|[v|] vs IH]; intros m xs H.
  - exists m. split; [done|]. cbn. by rewrite app_nil_r.
  - cbn [fmap list_fmap foldl pt_exec pt_open pt_disk]. destruct (IH _ _ (numbered_app xs m v H)) as (m' & E & Hn).
    exists m'. split; [done|]. cbn. by rewrite cons_middle, app_assoc.
  - cbn [fmap list_fmap foldl pt_exec pt_open pt_disk]. by apply IH.
Qed.

Lemma replace_ok vs st : pt_open st = None ->
  exists m, foldl pt_exec st (replace_statements (Ok <$> vs)) = PtDb (Some m) None /\ numbered (omap id vs) m.
Proof.
  intros Ho. unfold replace_statements. rewrite inserts_ok. rewrite !foldl_app. destruct st as [dk op]. cbn in Ho. subst op. cbn [foldl pt_exec pt_open pt_disk].
  destruct (exec_numbered dk ∅ [] vs) as (m & -> & Hm).
  { intros k. rewrite lookup_empty. by destruct (k =? 0)%N. }
  exists m. by split.
Qed.
Lemma replace_failed xs e st : pt_open st = None -> Err e ∈ xs -> foldl pt_exec st (replace_statements xs) = st.
Proof.
  intros Ho Hin. unfold replace_statements. pose proof (inserts_failed xs e Hin) as Hf. pose proof (inserts_only xs) as Hi.
  destruct (inserts xs) as [l f]. cbn in Hf, Hi. subst f. rewrite !foldl_app. destruct st as [dk op]. cbn in Ho. subst op. cbn [foldl pt_exec pt_open pt_disk].
  destruct (exec_inserts dk ∅ l) as (m & ->); [by apply Forall_forall|]. done.
Qed.
Lemma replace_crash_cases xs st n : pt_open st = None ->
  replace_crash xs st n = pt_disk st \/ replace_crash xs st n = pt_disk (replace_docs xs st).1.
Proof.
  intros Ho. unfold replace_crash, replace_docs. cbn [fst].
  assert (exists l, replace_statements xs = l ++ [PRelease] /\ Forall keeps l) as (l & E & Hl).
  { unfold replace_statements. pose proof (inserts_only xs) as Hi. destruct (inserts xs) as [ins f]. cbn in Hi.
    exists ([PSavepoint; PDrop; PCreate; PDelete] ++ ins ++ (if f then [PRollback] else [])).
    split; [by rewrite <- !app_assoc|]. rewrite !Forall_app. split_and!.
    - by repeat constructor.
    - apply Forall_forall. intros s Hs. by destruct (Hi s Hs) as [v ->].
    - destruct f; by repeat constructor. }
  rewrite E. destruct (decide (n <= length l)) as [Hle|Hgt].
  - left. rewrite take_app_le by done. apply exec_keeps_disk. by apply Forall_take.
  - right. rewrite take_ge; [done|]. rewrite app_length. cbn. lia.
Qed.

(** ** Generators *)
Lemma generate_ok {A B} (f : A -> res B) l ys : Forall2 (fun x y => f x = Ok y) l ys -> generate f l = (ys, Ok tt).
Proof. induction 1 as [|x y l ys H _ IH]; [done|]. cbn. by rewrite H, IH. Qed.
Lemma generate_err {A B} (f : A -> res B) l1 x l2 ys e :
  Forall2 (fun x y => f x = Ok y) l1 ys -> f x = Err e -> generate f (l1 ++ x :: l2) = (ys, Err e).
Proof. intros H Hx. induction H as [|x' y l1 ys H _ IH]; cbn; [by rewrite Hx|]. by rewrite H, IH. Qed.

(** ** Splitting *)
Lemma split_at_in sep l : forall cur part, part ∈ split_at sep cur l ->
  (forall a, a ∈ cur -> sep a = false) -> forall a, a ∈ part -> sep a = false.
Proof.
  induction l as [|x l IH]; intros cur part Hin Hcur a Ha; cbn in Hin.
  - apply elem_of_list_singleton in Hin as ->. apply Hcur. by apply elem_of_list_In, in_rev, elem_of_list_In.
  - destruct (sep x) eqn:E.
    + apply elem_of_cons in Hin as [->|Hin].
      * apply Hcur. by apply elem_of_list_In, in_rev, elem_of_list_In.
      * eapply IH; [done| |done]. by intros ? ?%elem_of_nil.
    + eapply IH; [done| |done]. intros b [->|Hb]%elem_of_cons; auto.
Qed.
Lemma split_at_plain sep l cur rest : (forall a, a ∈ l -> sep a = false) ->
  split_at sep cur (l ++ rest) = split_at sep (rev l ++ cur) rest.
Proof.
  revert cur. induction l as [|x l IH]; intros cur H; [done|]. cbn. rewrite H by (by left).
  rewrite IH by (intros; apply H; by right). f_equal. by rewrite <- app_assoc.
Qed.

Lemma chars_app a b : chars (a ++ b)%string = chars a ++ chars b.
Proof. induction a as [|x a IH]; [done|]. change (x :: chars (a ++ b)%string = x :: chars a ++ chars b). by rewrite IH. Qed.
Lemma string_chars s : String.string_of_list_ascii (chars s) = s.
Proof. apply String.string_of_list_ascii_of_string. Qed.
Lemma chars_string l : chars (String.string_of_list_ascii l) = l.
Proof. apply String.list_ascii_of_string_of_list_ascii. Qed.
Lemma bracket_false a : bracket a = false <-> a ≠ "<"%char /\ a ≠ ">"%char.
Proof.
  unfold bracket. rewrite orb_false_iff. rewrite !Ascii.eqb_neq. done.
Qed.
Lemma plain_tag_chars t : plain_tag t <-> forall a, a ∈ chars t -> bracket a = false.
Proof.
  unfold plain_tag. split.
  - intros [H1 H2] a Ha. apply bracket_false. split; intros ->; done.
  - intros H. split; intros Hin; apply H in Hin; done.
Qed.

Lemma split_tags_exact tags : (forall t, t ∈ tags -> plain_tag t /\ t ≠ "") -> split_tags (tag_string tags) = tags.
Proof.
  unfold split_tags, Corpus.split. induction tags as [|t tags IH]; intros H; [done|].
  assert (chars (tag_string (t :: tags)) = "<"%char :: chars t ++ ">"%char :: chars (tag_string tags)) as E.
  { change (tag_string (t :: tags)) with ("<" ++ (t ++ (">" ++ tag_string tags)))%string. by rewrite !chars_app. }
  unfold chars at 1 in E. rewrite E. clear E.
  cbn [split_at]. change (bracket "<") with true. cbn iota.
  destruct (H t) as [Hp Hne]; [by left|]. rewrite split_at_plain by (by apply plain_tag_chars).
  cbn [split_at app]. change (bracket ">") with true. cbn iota. rewrite app_nil_r, rev_involutive.
  cbn [fmap list_fmap rev]. rewrite filter_cons_False by (intros Hn; by apply Hn). rewrite filter_cons_True by (by rewrite string_chars).
  rewrite string_chars. f_equal. apply IH. intros t' Ht. apply H. by right.
Qed.

Lemma split_tags_plain s t : t ∈ split_tags s -> plain_tag t /\ t ≠ "".
Proof.
  unfold split_tags, Corpus.split. intros [Hne Hin]%elem_of_list_filter. split; [|done].
  apply elem_of_list_fmap in Hin as (l & -> & Hl). apply plain_tag_chars. rewrite chars_string.
  eapply split_at_in; [done|]. by intros ? ?%elem_of_nil.
Qed.
