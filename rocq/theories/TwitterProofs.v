(** TwitterProofs.v: the features of a tweet are what the tables say. *)
From Verif Require Export SpecTwitter CorpusCalls.
Arguments related_user : simpl never.

Lemma elem_of_latest T id r : r ∈ latest_tweet T id <-> latest_version T id r.
Proof. unfold latest_tweet, latest_version. rewrite elem_of_list_filter. tauto. Qed.
Lemma latest_head T id r : twitter_sound T -> latest_version T id r -> exists l, latest_tweet T id = r :: l.
Proof.
  intros (H1 & _) Hr. pose proof Hr as Hin. apply elem_of_latest in Hin. destruct (latest_tweet T id) as [|x l] eqn:E; [by apply elem_of_nil in Hin|].
  exists l. f_equal. assert (latest_version T id x) as [Hx Ex] by (apply elem_of_latest; rewrite E; by left). destruct Hr as [Hr Er].
  apply H1; congruence.
Qed.
Lemma elem_of_of_id {A} id (l : list (Z * A)) x : x ∈ of_id id l <-> (id, x) ∈ l.
Proof.
  unfold of_id. rewrite elem_of_list_fmap. split.
  - intros ([i y] & -> & H). apply elem_of_list_filter in H as [E H]. cbn in *. by subst.
  - intros H. exists (id, x). split; [done|]. apply elem_of_list_filter. done.
Qed.
Lemma find_find {A} (f : A -> bool) l x : List.find f l = Some x -> x ∈ l /\ f x = true.
Proof. intros H. apply List.find_some in H as [H1 H2]. split; [by apply elem_of_list_In|done]. Qed.
Lemma related_iff T other name : twitter_sound T ->
  related_user T other = Some name <-> exists id, other = Some id /\ author_then T id name.
Proof.
  intros Hs. pose proof Hs as (H1 & _ & H3). unfold related_user. destruct other as [id|]; [|split; [done|by intros (? & ? & _)]].
  destruct (latest_tweet T id) as [|r l] eqn:E.
  - split; [done|]. intros (id' & [= <-] & r & Hr & _). apply elem_of_latest in Hr. rewrite E in Hr. by apply elem_of_nil in Hr.
  - assert (latest_version T id r) as Hr by (apply elem_of_latest; rewrite E; by left). split.
    + destruct (List.find _ _) as [[[u w] n]|] eqn:F; [|done]. intros [= <-]. apply find_find in F as [F1 F2]. apply bool_decide_eq_true in F2. cbn in F2.
      injection F2 as -> ->. exists id. split; [done|]. exists r. done.
    + intros (id' & [= <-] & r' & Hr' & Hu). destruct Hr as [Hr Er], Hr' as [Hr' Er']. rewrite (H1 r' r) in Hu by congruence.
      destruct (List.find _ _) as [[[u w] n]|] eqn:F.
      * apply find_find in F as [F1 F2]. apply bool_decide_eq_true in F2. cbn in F2. injection F2 as -> ->. cbn. f_equal. by eapply H3.
      * exfalso. apply elem_of_list_In in Hu. pose proof (List.find_none _ _ F _ Hu) as Hf. cbn in Hf. by rewrite bool_decide_true in Hf.
Qed.
Lemma prefix_iff p : forall s, String.prefix p s = true <-> exists rest, s = (p ++ rest)%string.
Proof.
  induction p as [|a p IH]; intros s; [split; [by exists s|]; by destruct s|]. destruct s as [|b s]; cbn.
  - split; [done|]. by intros (? & ?).
  - destruct (Ascii.ascii_dec a b) as [->|Hne].
    + rewrite IH. split; intros (rest & E); exists rest; [by rewrite E|by injection E].
    + split; [done|]. intros (rest & E). by injection E as -> _.
Qed.
Lemma internal_iff s : internal_url s = false <-> ~ to_twitter s.
Proof. unfold internal_url, to_twitter. rewrite <- prefix_iff. by rewrite not_true_iff_false. Qed.
Lemma full_url_iff u link : link = full_url u <->
  match ur_unwound u, ur_expanded u with Some s, _ => link = s | None, Some s => link = s | None, None => link = ur_url u end.
Proof. unfold full_url. by destruct (ur_unwound u), (ur_expanded u). Qed.
Lemma elem_of_concat {A B} (f : A -> list B) l y : y ∈ concat (f <$> l) <-> exists x, x ∈ l /\ y ∈ f x.
Proof.
  induction l as [|x l IH]; cbn.
  - split; [by intros ?%elem_of_nil|]. by intros (x & ?%elem_of_nil & _).
  - rewrite elem_of_app, IH. split.
    + intros [H|(z & Hz & H)]; [exists x; split; [by left|done]|exists z; split; [by right|done]].
    + intros (z & [->|Hz]%elem_of_cons & H); [by left|right; eauto].
Qed.
Lemma elem_of_external T id r s : twitter_sound T -> latest_version T id r ->
  s ∈ external_urls T id <-> links_to T r s /\ ~ to_twitter s.
Proof.
  intros (Hs & _) Hr. unfold external_urls. rewrite elem_of_list_filter, internal_iff.
  enough (s ∈ concat ((fun r => concat ((fun t : Z * string * string =>
        full_url <$> filter (fun u => ur_url u = t.2 /\ ur_retrieved u = tl_retrieved r) (url_table T))
      <$> filter (fun t => t.1 = (id, tl_retrieved r)) (tweet_url T))) <$> latest_tweet T id) <-> links_to T r s) as -> by tauto.
  rewrite elem_of_concat. pose proof Hr as [Hr1 Hr2]. split.
  - intros (r' & Hr' & H). apply elem_of_latest in Hr' as [Ha Hb]. assert (r' = r) as -> by (apply Hs; congruence).
    apply elem_of_concat in H as ([[i w] u] & Ht & H). apply elem_of_list_filter in Ht as [Et Ht]. cbn in Et. injection Et as -> ->.
    apply elem_of_list_fmap in H as (x & Hx & H). apply elem_of_list_filter in H as [[E1 E2] H]. cbn in E1. subst u.
    exists x. split_and!; [done|done| |by apply full_url_iff]. by rewrite Hr2.
  - intros (u & Hu & E1 & Ht & Hl). exists r. split; [by apply elem_of_latest|]. apply elem_of_concat.
    exists (id, tl_retrieved r, ur_url u). split; [apply elem_of_list_filter; split; [done|by rewrite <- Hr2]|].
    apply elem_of_list_fmap. exists u. split; [by apply full_url_iff|]. apply elem_of_list_filter. done.
Qed.
Lemma elem_of_labels T id l : l ∈ labels_of T id <-> exists c, (id, c, 1%Z) ∈ tweet_at_time T /\ (c, l) ∈ collection_context T.
Proof.
  unfold labels_of. rewrite elem_of_concat. split.
  - intros ([[i c] x] & H & Hl). apply elem_of_list_filter in H as [[E1 E2] H]. cbn in *. subst. exists c. split; [done|by apply elem_of_of_id].
  - intros (c & H & Hl). exists (id, c, 1%Z). split; [apply elem_of_list_filter; done|by apply elem_of_of_id].
Qed.

(** The document of a known tweet. *)
Section doc.
Context (tokens : string -> list string) (lower : string -> string) (hostname : string -> option string)
        (times : string -> res (list (string * string))) (T : twitter).
Lemma twitter_doc_ok id r name : twitter_sound T -> latest_version T id r -> author T r name ->
  exists tw, twitter_doc hostname T id = Ok (tl_created r, tw) /\ tw_text tw = tl_text r /\ tw_user tw = name /\
    tw_conversation tw = VInt <$> tl_conversation r /\
    tw_retweeted tw = VInt <$> tl_retweeted r /\ tw_quoted tw = VInt <$> tl_quoted r /\ tw_replied tw = VInt <$> tl_replied r /\
    tw_retweeted_user tw = related_user T (tl_retweeted r) /\ tw_quoted_user tw = related_user T (tl_quoted r) /\
    tw_replied_user tw = related_user T (tl_replied r) /\
    tw_hashtags tw = (sql_lower <$> of_id id (tweet_hashtag T)) /\ tw_mentions tw = (sql_lower <$> of_id id (tweet_mention T)) /\
    tw_urls tw = external_urls T id /\ tw_domains tw = (hostname <$> external_urls T id) /\ tw_labels tw = labels_of T id.
Proof.
  intros Hs Hr Hn. destruct (latest_head T id r Hs Hr) as [l E]. unfold twitter_doc. rewrite E.
  pose proof Hn as Hu. apply elem_of_of_id in Hu. destruct (of_id (tl_user r) (user_latest T)) as [|n rest] eqn:Eu; [by apply elem_of_nil in Hu|].
  assert (n = name) as ->.
  { destruct Hs as (_ & H2 & _). apply (H2 (tl_user r)); [|done]. apply elem_of_of_id. rewrite Eu. by left. }
  eexists. split; [reflexivity|]. cbn. done.
Qed.
Lemma some_in_fmap {A} (f : A -> value) (l : list A) v : Some v ∈ ((fun x => Some (f x)) <$> l) <-> exists x, x ∈ l /\ v = f x.
Proof. rewrite elem_of_list_fmap. split; [intros (x & [= ->] & H); eauto|intros (x & H & ->); eauto]. Qed.
Lemma some_in_one {A} (f : A -> value) (o : option A) v : Some v ∈ [f <$> o] <-> exists x, o = Some x /\ v = f x.
Proof.
  rewrite elem_of_list_singleton. destruct o; cbn; split.
  - intros [= ->]. eauto.
  - by intros (x & [= <-] & ->).
  - done.
  - by intros (x & ? & _).
Qed.
Lemma features_say id r name l : twitter_sound T -> latest_version T id r -> author T r name -> times (tl_created r) = Ok l ->
  exists fs, rbind (twitter_doc hostname T id) (fun '(created, tw) => rmap (fun l => tweet_index tokens lower (with_times l tw)) (times created)) = Ok fs /\
    forall field v, doc_has fs field v <-> says tokens lower hostname times T r field v.
Proof.
  intros Hs Hr Hn Ht. destruct (twitter_doc_ok id r name Hs Hr Hn) as (tw & E & H). rewrite E. cbn. rewrite Ht. cbn.
  eexists. split; [reflexivity|]. intros field v.
  destruct tw as [t1 t2 t3 t4 t5 t6 t7 t8 t9 t10 t11 t12 t13 t14 t15]. cbn in H. unfold with_times. cbn [tw_text tw_user tw_conversation tw_retweeted tw_retweeted_user tw_quoted tw_quoted_user tw_replied tw_replied_user tw_hashtags tw_mentions tw_urls tw_domains tw_labels].
  destruct H as (-> & -> & -> & -> & -> & -> & -> & -> & -> & -> & -> & -> & -> & ->).
  unfold doc_has, tweet_index. cbn [tw_text tw_user tw_conversation tw_retweeted tw_retweeted_user tw_quoted tw_quoted_user tw_replied tw_replied_user tw_hashtags tw_mentions tw_urls tw_domains tw_labels tw_times].
  assert (forall u, u ∈ external_urls T id <-> links_to T r u /\ ~ to_twitter u) as Hurl by (intros u; by apply elem_of_external).
  destruct Hr as [Hr1 Hr2]. split.
  - intros (fv & Hin & Hv). apply elem_of_app in Hin as [Hin|Hin].
    + destruct (tl_retweeted r) as [rid|] eqn:Er; cbn [fmap option_fmap option_map] in Hin.
      * repeat (apply elem_of_cons in Hin as [Hin|Hin]; [injection Hin as -> ->; cbn [values_of] in Hv|]); [..|by apply elem_of_nil in Hin].
        -- apply elem_of_list_singleton in Hv as [= ->]. by apply says_by.
        -- apply elem_of_list_singleton in Hv as [= ->]. by apply says_retweeted.
        -- apply some_in_one in Hv as (n & Hx & ->). apply related_iff in Hx as (i & [= <-] & Hx); [|done]. by eapply says_retweeted_user.
      * repeat (apply elem_of_cons in Hin as [Hin|Hin]; [injection Hin as -> ->; cbn [values_of] in Hv|]); [..|by apply elem_of_nil in Hin].
        -- apply some_in_fmap in Hv as (w & Hw & ->). by apply says_word.
        -- apply (some_in_fmap (fun s => VText (lower s))) in Hv as (w & Hw & ->). apply elem_of_list_fmap in Hw as (h & -> & Hh). apply elem_of_of_id in Hh.
           apply says_hashtag; [done|by rewrite Hr2].
        -- apply (some_in_fmap (fun s => VText (lower s))) in Hv as (w & Hw & ->). apply elem_of_list_fmap in Hw as (h & -> & Hh). apply elem_of_of_id in Hh.
           apply says_mention; [done|by rewrite Hr2].
        -- apply some_in_one in Hv as (x & Hx & ->). by apply says_conversation.
        -- apply elem_of_list_singleton in Hv as [= ->]. by apply says_by.
        -- apply some_in_fmap in Hv as (u & Hu & ->). apply Hurl in Hu as [H1 H2]. by apply says_url.
        -- apply elem_of_list_fmap in Hv as (h & Hh & Hv). apply elem_of_list_fmap in Hv as (u & -> & Hu). apply Hurl in Hu as [H1 H2].
           destruct (hostname u) as [h|] eqn:Eh; [|discriminate Hh]. injection Hh as ->. by eapply says_domain.
        -- apply some_in_one in Hv as (x & Hx & ->). by apply says_quoted.
        -- apply some_in_one in Hv as (n & Hx & ->). apply related_iff in Hx as (i & Hi & Hx); [|done]. by eapply says_quoted_user.
        -- apply some_in_one in Hv as (x & Hx & ->). by apply says_replied.
        -- apply some_in_one in Hv as (n & Hx & ->). apply related_iff in Hx as (i & Hi & Hx); [|done]. by eapply says_replied_user.
        -- apply some_in_fmap in Hv as (x & Hx & ->). apply elem_of_labels in Hx as (c & H1 & H2). eapply says_label; [done|by rewrite Hr2|done].
    + apply elem_of_list_fmap in Hin as ([g w] & Heq & Hin). injection Heq as -> ->. cbn [values_of fst snd] in Hv.
      apply elem_of_list_singleton in Hv as [= ->]. by eapply says_created.
  - intros Hsay. destruct Hsay as [n Hx|g w l' Hl Hx|i Er|i n Er Hx|w Er Hw|h Er Hh|m Er Hm|i Er Hi|u Er Hu Hnt|u h Er Hu Hnt Hh|i Er Hi|i n Er Hi Hx|i Er Hi|i n Er Hi Hx|c lb Er Hc Hlb].
    + assert (n = name) as -> by (destruct Hs as (_ & H2 & _); by eapply H2).
      exists (Seq [Some (VText name)]). split; [|by left]. apply elem_of_app. left.
      destruct (tl_retweeted r); cbn [fmap option_fmap option_map]; set_solver.
    + rewrite Ht in Hl. injection Hl as <-. exists (Seq [Some (VText w)]). split; [|by left]. apply elem_of_app. right.
      apply elem_of_list_fmap. exists (g, w). done.
    + rewrite Er. cbn [fmap option_fmap option_map]. exists (Seq [Some (VInt i)]). split; [set_solver|by left].
    + rewrite Er. cbn [fmap option_fmap option_map]. eexists. split; [apply elem_of_app; left; right; right; left|].
      cbn [values_of]. apply some_in_one. exists n. split; [|done]. apply related_iff; [done|]. eauto.
    + rewrite Er. cbn [fmap option_fmap option_map]. eexists. split; [apply elem_of_app; left; left|]. cbn [values_of]. apply some_in_fmap. eauto.
    + rewrite Er. cbn [fmap option_fmap option_map]. eexists. split; [apply elem_of_app; left; right; left|]. cbn [values_of].
      apply (some_in_fmap (fun s => VText (lower s))). eexists. split; [|done]. apply elem_of_list_fmap. exists h. split; [done|]. apply elem_of_of_id. by rewrite <- Hr2.
    + rewrite Er. cbn [fmap option_fmap option_map]. eexists. split; [apply elem_of_app; left; do 2 right; left|]. cbn [values_of].
      apply (some_in_fmap (fun s => VText (lower s))). eexists. split; [|done]. apply elem_of_list_fmap. exists m. split; [done|]. apply elem_of_of_id. by rewrite <- Hr2.
    + rewrite Er. cbn [fmap option_fmap option_map]. eexists. split; [apply elem_of_app; left; do 3 right; left|]. cbn [values_of]. apply some_in_one. eauto.
    + rewrite Er. cbn [fmap option_fmap option_map]. eexists. split; [apply elem_of_app; left; do 5 right; left|]. cbn [values_of]. apply some_in_fmap. exists u. split; [|done]. by apply Hurl.
    + rewrite Er. cbn [fmap option_fmap option_map]. eexists. split; [apply elem_of_app; left; do 6 right; left|]. cbn [values_of].
      apply elem_of_list_fmap. exists (Some h). split; [done|]. apply elem_of_list_fmap. exists u. split; [done|]. by apply Hurl.
    + rewrite Er. cbn [fmap option_fmap option_map]. eexists. split; [apply elem_of_app; left; do 7 right; left|]. cbn [values_of]. apply some_in_one. eauto.
    + rewrite Er. cbn [fmap option_fmap option_map]. eexists. split; [apply elem_of_app; left; do 8 right; left|]. cbn [values_of]. apply some_in_one.
      exists n. split; [|done]. apply related_iff; [done|]. eauto.
    + rewrite Er. cbn [fmap option_fmap option_map]. eexists. split; [apply elem_of_app; left; do 9 right; left|]. cbn [values_of]. apply some_in_one. eauto.
    + rewrite Er. cbn [fmap option_fmap option_map]. eexists. split; [apply elem_of_app; left; do 10 right; left|]. cbn [values_of]. apply some_in_one.
      exists n. split; [|done]. apply related_iff; [done|]. eauto.
    + rewrite Er. cbn [fmap option_fmap option_map]. eexists. split; [apply elem_of_app; left; do 11 right; left|]. cbn [values_of]. apply some_in_fmap.
      exists lb. split; [|done]. apply elem_of_labels. exists c. split; [by rewrite <- Hr2|done].
Qed.
Lemma known_no_none id r name l fs field vs : twitter_sound T -> latest_version T id r -> author T r name -> times (tl_created r) = Ok l ->
  all_known T r ->
  rbind (twitter_doc hostname T id) (fun '(created, tw) => rmap (fun l => tweet_index tokens lower (with_times l tw)) (times created)) = Ok fs ->
  (field, Seq vs) ∈ fs -> None ∉ vs.
Proof.
  intros Hs Hr Hn Ht Hk. destruct (twitter_doc_ok id r name Hs Hr Hn) as (tw & E & H). rewrite E. cbn. rewrite Ht. cbn. intros [= <-] Hin.
  refine (proj1 (tweet_sequences tokens lower (with_times l tw)) _ field vs Hin). unfold references_known, with_times. cbn.
  destruct H as (_ & _ & -> & -> & -> & -> & -> & -> & -> & _). unfold all_known in Hk. destruct (tl_retweeted r) as [rid|] eqn:Er; cbn.
  - destruct Hk as (n & Hk). exists n. apply related_iff; [done|]. eauto.
  - destruct Hk as ([x Hx] & (q & n & Hq & Hqn) & (i & m & Hi & Him)). rewrite Hx, Hq, Hi. cbn. split_and!; [by eexists|by eexists| |by eexists|].
    + exists n. apply related_iff; [done|]. eauto.
    + exists m. apply related_iff; [done|]. eauto.
Qed.
End doc.
