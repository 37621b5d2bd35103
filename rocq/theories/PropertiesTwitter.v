(** PropertiesTwitter.v: C90-C92: the Twittersphere corpus. Vocabulary: SpecTwitter.v. *)
From Verif Require Import TwitterProofs PropertiesIndexing PropertiesCorpus.

(** ** C90: tweets are found by exactly what they say *)
Theorem C90_tweets_found : forall tokens lower hostname times T bsz pos s cn,
  index_ready cn -> quiet (disk cn) -> pool_works cn -> (forall i, fault s i = None) ->
  twitter_sound T -> directly_collected_tweet T ≠ ∅ ->
  (* the collected tweets, their authors and their dates are there *)
  (forall id, id ∈ directly_collected_tweet T -> exists r name l, latest_version T id r /\ author T r name /\ times (tl_created r) = Ok l) ->
  (* with positions: so is everything they refer to (see C63) *)
  (pos = true -> forall id r, id ∈ directly_collected_tweet T -> latest_version T id r -> all_known T r) ->
  let cp := twitter_corpus tokens lower hostname times T in
  complete s (length (batches bsz cp)) ->
  exists cn' ids, run_index bsz pos cp s cn = (cn', Ok tt) /\
    ids ≡ₚ elements (directly_collected_tweet T) /\ StronglySorted Z.le ids /\
    (forall i, doc_key (disk cn') !! N.of_nat i = VInt <$> ids !! i) /\
    forall field v, exists docs, getitem (disk cn') (KFeature (field, v)) = Some docs /\
      forall i, N.of_nat i ∈ docs <->
        exists id r, ids !! i = Some id /\ latest_version T id r /\ says tokens lower hostname times T r field v.
Proof.
  intros tokens lower hostname times T bsz pos s cn Hr Hq Hp Hf Hs Hne Hk Hpos cp Hc.
  assert (forall id, id ∈ twitter_keys T -> exists r name l fs, latest_version T id r /\ author T r name /\ times (tl_created r) = Ok l /\
    rbind (twitter_doc hostname T id) (fun '(created, tw) => rmap (fun l => tweet_index tokens lower (with_times l tw)) (times created)) = Ok fs /\
    forall field v, doc_has fs field v <-> says tokens lower hostname times T r field v) as Hdoc.
  { intros id Hid. unfold twitter_keys in Hid. rewrite ClusterProofs.elem_of_z_list in Hid. destruct (Hk id Hid) as (r & name & l & H1 & H2 & H3).
    destruct (features_say tokens lower hostname times T id r name l Hs H1 H2 H3) as (fs & H4 & H5). by exists r, name, l, fs. }
  assert (well_formed pos cp) as Hw.
  { split_and!.
    - unfold cp, twitter_corpus. intros E. apply fmap_nil_inv in E. unfold twitter_keys in E. apply Hne.
      pose proof (ClusterProofs.z_list_perm (directly_collected_tweet T)) as Hpm. rewrite E in Hpm. apply Permutation_nil_l in Hpm.
      apply leibniz_equiv. by apply elements_empty_inv.
    - unfold cp, twitter_corpus. rewrite <- list_fmap_compose. apply NoDup_fmap_2; [intros a b Hab; by injection Hab|].
      apply ClusterProofs.NoDup_z_list.
    - intros k x Hin. apply elem_of_list_fmap in Hin as (id & Heq & Hin). injection Heq as -> ->.
      destruct (Hdoc id Hin) as (r & name & l & fs & H1 & H2 & H3 & H4 & _). exists fs. split; [done|].
      intros -> field vs Hseq. eapply known_no_none; [done|exact H1|exact H2|exact H3| |exact H4|done].
      apply (Hpos eq_refl id); [|done]. unfold twitter_keys in Hin. by rewrite ClusterProofs.elem_of_z_list in Hin. }
  destruct (C06_indexing_succeeds bsz pos cp s cn Hr Hq Hp Hw Hc Hf) as (cn' & Hrun & _).
  exists cn', (twitter_keys T). split; [done|]. split; [apply ClusterProofs.z_list_perm|]. split; [apply ClusterProofs.sorted_z_list|].
  pose proof (C11_documents_and_keys bsz pos cp s cn cn' ∅ Hr Hc Hrun) as [Hkeys _]. split.
  - intros i. apply option_eq. intros k. rewrite Hkeys, Nat2N.id. unfold cp, twitter_corpus. unfold corpus. rewrite list_lookup_fmap.
    destruct (twitter_keys T !! i) as [id|]; cbn; [|done]. split; intros [= <-]; done.
  - intros field v. destruct (C06_boolean_index_exact bsz pos cp s cn cn' Hr Hc Hrun field v) as (docs & Hd & Hiff & _).
    exists docs. split; [done|]. intros i. rewrite Hiff. unfold doc_matches, cp, twitter_corpus, corpus. rewrite Nat2N.id, list_lookup_fmap. split.
    + intros (key & fs & Hl & Hh). destruct (twitter_keys T !! i) as [id|] eqn:Ei; [|done]. cbn in Hl.
      destruct (Hdoc id) as (r & name & l & fs' & H1 & H2 & H3 & H4 & H5); [by eapply elem_of_list_lookup_2|].
      cbn in H4. rewrite H4 in Hl. injection Hl as _ <-. exists id, r. split_and!; [done|done|by apply H5].
    + intros (id & r & Hi & Hv & Hsay). rewrite Hi. cbn.
      destruct (Hdoc id) as (r' & name & l & fs' & H1 & H2 & H3 & H4 & H5); [by eapply elem_of_list_lookup_2|].
      assert (r' = r) as -> by (destruct Hs as (Hs & _), H1, Hv; apply Hs; congruence).
      cbn in H4. exists (VInt id), fs'. rewrite H4. split; [done|by apply H5].
Qed.
Print Assumptions C90_tweets_found.

(** ** C91: opening *)
(** A database is accepted exactly if it has a schema version of at least 15, and refused
    with ValueError if it has an older or no version; ... *)
Theorem C91_opening_partial : forall metadata,
  (twitter_open metadata = Ok tt <-> exists version, metadata = Some (Some version) /\ (15 <= version)%Z) /\
  (forall m, metadata = Some m -> twitter_open metadata = Ok tt \/ twitter_open metadata = Err ValueError).
Proof.
  intros metadata. unfold twitter_open. destruct metadata as [[version|]|]; cbn.
  - destruct (Z.ltb_spec version 15) as [H|H].
    + split; [|by right]. split; [done|]. intros (v & [= <-] & ?). lia.
    + split; [|by left]. split; [by exists version|done].
  - split; [|by right]. split; [done|]. by intros (v & ? & _).
  - split; [|done]. split; [done|]. by intros (v & ? & _).
Qed.
Print Assumptions C91_opening_partial.
(** ... but any other database, without such a table, with OperationalError. *)
Theorem C91_unrelated_database_refuted : ~ (forall metadata, twitter_open metadata = Ok tt \/ twitter_open metadata = Err ValueError).
Proof. intros H. by destruct (H None). Qed.
Print Assumptions C91_unrelated_database_refuted.

(** ** C92: the documents *)
(** Requested documents come in the order of the request; without a request, all collected
    tweets in the order of their ids; an unknown tweet or author raises IndexError after the
    documents before it. *)
Theorem C92_documents : forall hostname T ks, twitter_sound T ->
  (forall id, id ∈ ks -> exists r name, latest_version T id r /\ author T r name) ->
  exists out, twitter_docs hostname T (Some ks) = (out, Ok tt) /\ out.*1 = ks /\
    forall id created tw, (id, (created, tw)) ∈ out ->
      exists r, latest_version T id r /\ author T r (tw_user tw) /\ created = tl_created r /\ tw_text tw = tl_text r /\
        (forall u, u ∈ tw_urls tw <-> links_to T r u /\ ~ to_twitter u).
Proof.
  intros hostname T ks Hs H. unfold twitter_docs. cbn.
  assert (exists out, Forall2 (fun id p => rmap (fun d => (id, d)) (twitter_doc hostname T id) = Ok p) ks out) as [out Ho].
  { induction ks as [|id ks IH]; [exists []; constructor|]. destruct (H id) as (r & name & H1 & H2); [by left|].
    destruct (twitter_doc_ok hostname T id r name Hs H1 H2) as (tw & E & _). destruct IH as [out Ho]; [intros; apply H; by right|].
    eexists (_ :: out). constructor; [|done]. by rewrite E. }
  exists out. split; [by apply generate_ok|].
  assert (forall id p, rmap (fun d => (id, d)) (twitter_doc hostname T id) = Ok p -> p.1 = id /\ twitter_doc hostname T id = Ok p.2) as Hp.
  { intros id p Hx. destruct (twitter_doc hostname T id); [|done]. cbn in Hx. by injection Hx as <-. }
  split.
  - clear H. induction Ho as [|id p ks out Hx _ IH]; [done|]. cbn. f_equal; [by apply Hp|done].
  - intros id created tw Hin. apply elem_of_list_lookup in Hin as [i Hi]. destruct (Forall2_lookup_r _ _ _ _ _ Ho Hi) as (id' & Hi' & Hx).
    destruct (Hp _ _ Hx) as [<- Hd]. cbn in Hd. destruct (H id) as (r & name & H1 & H2); [by eapply elem_of_list_lookup_2|].
    destruct (twitter_doc_ok hostname T id r name Hs H1 H2) as (tw' & E & E1 & E2 & _ & _ & _ & _ & _ & _ & _ & _ & _ & E3 & _).
    rewrite E in Hd. injection Hd as <- <-. exists r. split_and!; [done|by rewrite E2|done|done|]. intros u. rewrite E3. by apply elem_of_external.
Qed.
Print Assumptions C92_documents.
Theorem C92_all_documents : forall hostname T, twitter_docs hostname T None = twitter_docs hostname T (Some (twitter_keys T)) /\
  twitter_keys T ≡ₚ elements (directly_collected_tweet T) /\ StronglySorted Z.le (twitter_keys T).
Proof. intros. split; [done|]. split; [apply ClusterProofs.z_list_perm|apply ClusterProofs.sorted_z_list]. Qed.
Print Assumptions C92_all_documents.
Theorem C92_unknown : forall hostname T ks id rest, twitter_sound T ->
  (forall id, id ∈ ks -> exists r name, latest_version T id r /\ author T r name) ->
  (~ exists r name, latest_version T id r /\ author T r name) ->
  exists out, twitter_docs hostname T (Some (ks ++ id :: rest)) = (out, Err IndexError) /\ out.*1 = ks.
Proof.
  intros hostname T ks id rest Hs H Hno. destruct (C92_documents hostname T ks Hs H) as (out & Ho & Hk & _).
  exists out. split; [|done]. unfold twitter_docs in *. cbn in *. revert out Ho Hk. induction ks as [|k ks IH]; intros out Ho Hk.
  - cbn in *. injection Ho as <-. assert (twitter_doc hostname T id = Err IndexError) as ->; [|done].
    unfold twitter_doc. destruct (latest_tweet T id) as [|r l] eqn:E; [done|]. destruct (of_id (tl_user r) (user_latest T)) as [|n l'] eqn:Eu; [done|].
    exfalso. apply Hno. exists r, n. split; [apply elem_of_latest; rewrite E; by left|]. apply elem_of_of_id. rewrite Eu. by left.
  - cbn in *. destruct (rmap _ (twitter_doc hostname T k)) as [p|e]; [|done].
    destruct (generate _ ks) as [ys x] eqn:Eg. injection Ho as <- ->. cbn in Hk. injection Hk as <- Hk.
    rewrite (IH ltac:(intros; apply H; by right) ys eq_refl Hk). done.
Qed.
Print Assumptions C92_unknown.

(** Which fields are sequences (indexed with positions, see C63) and which are sets. *)
Definition sequence_fields (fs : features) : list string :=
  omap (fun p : string * field_values => match p.2 with Seq _ => Some p.1 | Coll _ => None end) fs.
Definition set_fields (fs : features) : list string :=
  omap (fun p : string * field_values => match p.2 with Seq _ => None | Coll _ => Some p.1 end) fs.
Theorem C90_fields : forall tokens lower tw,
  let fs := tweet_index tokens lower tw in
  match tw_retweeted tw with
  | None => sequence_fields fs = ["text"; "conversation_id"; "by"; "quoted_tweet_id"; "quoted_user"; "replied_to_tweet_id"; "replied_to_user"] ++ (tw_times tw).*1 /\
            set_fields fs = ["#"; "@"; "url"; "domain"; "collection_label"]
  | Some _ => sequence_fields fs = ["by"; "retweeted_tweet_id"; "retweeted_user"] ++ (tw_times tw).*1 /\ set_fields fs = []
  end.
Proof.
  intros tokens lower tw. cbv zeta. unfold tweet_index.
  assert (forall l : list (string * string), sequence_fields ((fun t : string * string => (t.1, Seq [Some (VText t.2)])) <$> l) = l.*1 /\
    set_fields ((fun t : string * string => (t.1, Seq [Some (VText t.2)])) <$> l) = []) as Ht.
  { unfold sequence_fields, set_fields. induction l as [|x l [IH1 IH2]]; [done|]. cbn. cbn in IH1, IH2. by rewrite IH1, IH2. }
  destruct (Ht (tw_times tw)) as [H1 H2]. unfold sequence_fields, set_fields in *.
  destruct (tw_retweeted tw); cbn [app omap list_omap fst snd]; by rewrite H1, H2.
Qed.
Print Assumptions C90_fields.

(** Two collected tweets, one of them a retweet of the other, and one not collected. *)
Definition row1 := TwRow 10 "t2" 1 "Look! &amp; see" "2020" (Some 10%Z) None None None.
Definition row2 := TwRow 11 "t2" 2 "RT" "2021" (Some 11%Z) (Some 10%Z) None None.
Definition row3 := TwRow 12 "t1" 3 "other" "2021" None None None None.
Definition tw_sample : twitter := Twitter [row3; row1; row2]
  [(10, 1, 1); (10, 2, 0); (11, 1, 1)]%Z [(1, "search"); (2, "stream")]%Z
  [(10, "Cats"); (12, "Dogs")]%Z [(10, "Bob")]%Z
  [(10, "t2", "u1"); (10, "t1", "u3"); (10, "t2", "u2")]%Z
  [UrlRow "u1" "t2" (Some "https://a.org/x") None; UrlRow "u2" "t2" None (Some "HTTPS://Twitter.com/y"); UrlRow "u3" "t1" None None]
  [(2, "bob"); (1, "ann"); (3, "eve")]%Z [(1, "t1", "old_ann"); (1, "t2", "Ann")]%Z {[11; 10]}%Z.
Definition tw_times0 (s : string) : res (list (string * string)) := Ok [("created_year", s)].
Definition tw_host (s : string) : option string := if bool_decide (s = "https://a.org/x") then Some "a.org" else None.
Definition tw_cp := twitter_corpus two_words id tw_host tw_times0 tw_sample.
Definition find_docs (pos : bool) (field : string) (v : value) : option bitmap :=
  getitem (disk (run_index 1 pos tw_cp (in_order 2) conn0).1) (KFeature (field, v)).
Example C90_example :
  (twitter_sound tw_sample /\ directly_collected_tweet tw_sample ≠ ∅ /\
   (forall id, id ∈ directly_collected_tweet tw_sample ->
      exists r name l, latest_version tw_sample id r /\ author tw_sample r name /\ tw_times0 (tl_created r) = Ok l)) /\
  (complete (in_order 2) (length (batches 1 tw_cp)) /\ index_ready conn0 /\ quiet (disk conn0) /\ pool_works conn0) /\
  find_docs false "#" (VText "cats") = Some {[0]}%N /\ find_docs false "by" (VText "bob") = Some {[1]}%N /\
  find_docs false "retweeted_user" (VText "Ann") = Some {[1]}%N /\ find_docs false "url" (VText "https://a.org/x") = Some {[0]}%N /\
  find_docs false "url" (VText "HTTPS://Twitter.com/y") = Some ∅ /\ find_docs false "url" (VText "u3") = Some ∅ /\
  find_docs false "collection_label" (VText "stream") = Some ∅ /\ find_docs false "collection_label" (VText "search") = Some {[0]}%N /\
  find_docs false "text" (VText "RT") = Some ∅ /\ find_docs false "text" (VText "see") = Some {[0]}%N /\ find_docs false "#" (VText "dogs") = Some ∅.
Proof.
  split; [split; [|split]|split; [split; [apply complete_in_order|apply conn0_ready]|split_and!; by_computation]].
  - split; [|split].
    + intros r1 r2 H1 H2. cbn in H1, H2.
      repeat (apply elem_of_cons in H1 as [H1|H1]); [..|by apply elem_of_nil in H1]; repeat (apply elem_of_cons in H2 as [H2|H2]);
        try (by apply elem_of_nil in H2); subst; cbn; done.
    + intros u n1 n2 H1 H2. cbn in H1, H2.
      repeat (apply elem_of_cons in H1 as [H1|H1]); [..|by apply elem_of_nil in H1]; repeat (apply elem_of_cons in H2 as [H2|H2]);
        try (by apply elem_of_nil in H2); congruence.
    + intros u w n1 n2 H1 H2. cbn in H1, H2.
      repeat (apply elem_of_cons in H1 as [H1|H1]); [..|by apply elem_of_nil in H1]; repeat (apply elem_of_cons in H2 as [H2|H2]);
        try (by apply elem_of_nil in H2); congruence.
  - by_computation.
  - intros id Hid. change (directly_collected_tweet tw_sample) with ({[11; 10]}%Z : gset Z) in Hid.
    apply elem_of_union in Hid as [->%elem_of_singleton| ->%elem_of_singleton].
    + exists row2, "bob", [("created_year", "2021")]. split; [|split; [|done]]; [split; [|done]|]; unfold author; cbn; set_solver.
    + exists row1, "ann", [("created_year", "2020")]. split; [|split; [|done]]; [split; [|done]|]; unfold author; cbn; set_solver.
Qed.
Example C92_example :
  (twitter_docs tw_host tw_sample None).1.*1 = [10; 11]%Z /\ (twitter_docs tw_host tw_sample None).2 = Ok tt /\
  (twitter_docs tw_host tw_sample (Some [11; 12; 11]%Z)).1.*1 = [11; 12; 11]%Z /\
  (twitter_docs tw_host tw_sample (Some [12; 9; 11]%Z)).1.*1 = [12]%Z /\
  (twitter_docs tw_host tw_sample (Some [12; 9; 11]%Z)).2 = Err IndexError.
Proof. split_and!; vm_compute; reflexivity. Qed.
Example C91_example : twitter_open (Some (Some 15%Z)) = Ok tt /\ twitter_open (Some (Some 14%Z)) = Err ValueError /\
  twitter_open (Some None) = Err ValueError /\ twitter_open None = Err OperationalError.
Proof. done. Qed.
