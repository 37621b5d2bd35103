(** PropertiesWeb.v: C60, C61, C73-C79: the web application. Vocabulary: Web.v (requests,
    pages), SpecWeb.v, SpecQuery.v, SpecConn.v, SpecCluster.v. *)
From Verif Require Import SpecWeb HistoryProofs QueryProofs WebProofs SampleDb PropertiesCluster PropertiesRefine PropertiesQuery.

(** ** C60 *)
(** [next d] / [prev d]: the cluster the links of a cluster page lead to; no page (404)
    exists for an unknown cluster. *)
Definition links (d : db) (c : Z) : option (Z * Z) := neighbours (cluster_ids d) c.
Definition next (d : db) (c : Z) : option Z := snd <$> links d c.
Definition prev (d : db) (c : Z) : option Z := fst <$> links d c.

Theorem C60_links_of_the_page : forall rnd workers arrival g d w c f fc n rt,
  (c ∉ dom (cluster d) -> cluster_page_of rnd workers arrival g d w c f fc n rt = PageError 404) /\
  (forall p, cluster_page_of rnd workers arrival g d w c f fc n rt = Page p ->
     c ∈ dom (cluster d) /\ next d c = Some (cp_next p) /\ prev d c = Some (cp_prev p)).
Proof.
  intros. unfold cluster_page_of, next, prev, links. assert (c ∈ dom (cluster d) <-> c ∈ cluster_ids d) as Hd by (by rewrite elem_of_cluster_ids).
  split.
  - intros Hn. rewrite Hd in Hn. apply position_of_None in Hn. unfold neighbours. by rewrite Hn.
  - intros p H. destruct (neighbours (cluster_ids d) c) as [[a b]|] eqn:E; [|done].
    split.
    { apply Hd. destruct (decide (c ∈ cluster_ids d)) as [|Hn]; [done|]. apply position_of_None in Hn. unfold neighbours in E. by rewrite Hn in E. }
    revert H. match goal with |- match ?x with _ => _ end = _ -> _ => destruct x as [p'|] eqn:Ep end; [|done].
    intros [= ->]. repeat (apply rbind_ok in Ep as (? & _ & Ep)). injection Ep as <-. done.
Qed.
Print Assumptions C60_links_of_the_page.

Theorem C60_next_and_prev_inverse : forall d c x,
  (next d c = Some x <-> prev d x = Some c).
Proof.
  assert (forall d, NoDup (cluster_ids d)) as Hnd by (intros; apply NoDup_cluster_ids).
  intros d c x. unfold next, prev, links. split; intros H.
  - destruct (neighbours (cluster_ids d) c) as [[a b]|] eqn:E; [|done]. cbn in H. injection H as <-.
    destruct (neighbours_inverse _ _ _ _ (Hnd d) E) as [_ [p' ->]]. done.
  - destruct (neighbours (cluster_ids d) x) as [[a b]|] eqn:E; [|done]. cbn in H. injection H as <-.
    destruct (neighbours_inverse _ _ _ _ (Hnd d) E) as [[p' ->] _]. done.
Qed.
Print Assumptions C60_next_and_prev_inverse.

Theorem C60_visits_every_cluster : forall d c, c ∈ dom (cluster d) ->
  let n := size (dom (cluster d)) in
  follow (next d) n c = Some c /\
  omap (fun k => follow (next d) k c) (seq 0 n) ≡ₚ elements (dom (cluster d)).
Proof.
  intros d c Hc n. assert (cluster_ids d ≡ₚ elements (dom (cluster d))) as Hp by apply merge_sort_Permutation.
  assert (length (cluster_ids d) = n) as Hl by (by rewrite Hp).
  destruct (follow_visits (cluster_ids d) c (NoDup_cluster_ids d)) as [H1 H2]; [by apply elem_of_cluster_ids|].
  rewrite Hl in H1, H2. split; [done|]. by rewrite H2.
Qed.
Print Assumptions C60_visits_every_cluster.

Example C60_example :
  dom (cluster sample_db) = {[0; 1]}%Z /\ next sample_db 0 = Some 1%Z /\ next sample_db 1 = Some 0%Z /\ prev sample_db 0 = Some 1%Z /\
  neighbours [2; 5; 9]%Z 9 = Some (5, 2)%Z.
Proof. by_computation. Qed.

(** ** C61 *)
Theorem C61_parameters_become_lists : forall kw ps ps', NoDup kw.*1 ->
  ensure_list kw ps = Ok ps' ->
  (forall key, key ∉ kw.*1 -> ps' !! key = ps !! key) /\
  (forall key convert, (key, convert) ∈ kw -> exists l, ps' !! key = Some (Several l) /\
     length l = length (given ps key) /\
     forall i x, given ps key !! i = Some x -> exists y, l !! i = Some y /\ convert x = Ok y).
Proof.
  intros kw ps ps' Hnd H. destruct (ensure_list_ok _ _ _ Hnd H) as [H1 H2]. split; [done|].
  intros key conv Hin. destruct (H2 _ _ Hin) as (l & Hl & HF). exists l. split; [done|]. split; [symmetry; by eapply Forall2_length|].
  intros i x Hx. destruct (Forall2_lookup_l _ _ _ _ _ HF Hx) as (y & Hy & Hc). eauto.
Qed.
Print Assumptions C61_parameters_become_lists.

Theorem C61_raises_exactly : forall kw ps, NoDup kw.*1 ->
  ((exists e, ensure_list kw ps = Err e) <->
   (exists key convert x e, (key, convert) ∈ kw /\ x ∈ given ps key /\ convert x = Err e)).
Proof.
  intros kw ps Hnd. split.
  - intros [e H]. destruct (ensure_list_err _ _ _ Hnd H) as (key & conv & x & ?). eauto 10.
  - intros (key & conv & x & e & Hin & Hx & Hc). destruct (ensure_list kw ps) as [ps'|e'] eqn:E; [|eauto].
    destruct (ensure_list_ok _ _ _ Hnd E) as [_ H2]. destruct (H2 _ _ Hin) as (l & _ & HF).
    apply elem_of_list_lookup in Hx as [i Hi]. destruct (Forall2_lookup_l _ _ _ _ _ HF Hi) as (y & _ & Hy). congruence.
Qed.
Print Assumptions C61_raises_exactly.

(** A toy [int()] for the examples. *)
Definition digits (s : string) : option Z :=
  match s with "0" => Some 0 | "1" => Some 1 | "2" => Some 2 | "3" => Some 3 | "99" => Some 99 | _ => None end%Z.
Example C61_example :
  let kw := [("a", int_item digits); ("b", int_item digits); ("c", int_item digits)] in
  let ps : params := {["b" := One (Text "2"); "c" := Several [Text "1"; Text "3"]; "d" := One (Text "x")]} in
  ensure_list kw ps = Ok (<["a" := Several []]> (<["b" := Several [Int 2]]> (<["c" := Several [Int 1; Int 3]]> ps))) /\
  ensure_list kw (<["c" := Several [Text "1"; Text "x"]]> ps) = Err ValueError.
Proof. by_computation. Qed.

(** ** C73 *)
(** The precise cases in which a request that does not succeed changes something: refining or
    pinning clusters when no cluster is named, and recreating the model. *)
Theorem C73_failed_request_partial : forall parse p g1 g2 q d d' a,
  usable d -> serve parse p g1 g2 q d = (d', a) -> ~ success a ->
  d' = d \/
  (quiet d' /\ same_index d d' /\
   ((q_route q = RRefine \/ q_route q = RPinClusters) /\ given (q_params q) "cluster_id" = [] \/ q_route q = RRecreate)).
Proof.
  intros parse p g1 g2 q d d' a Hu H Hn.
  destruct (serve_cases _ _ _ _ _ _ _ _ H) as [[-> _]|(_ & ps & c & x & He & Hh & -> & ->)]; [by left|].
  destruct (handle_cases parse g1 g2 (q_route q) ps (open_index d p) (idle_open d p) Hu) as (c' & x' & Hh' & Ho).
  rewrite Hh in Hh'. injection Hh' as <- <-. unfold handle_outcome in Ho. change (disk (open_index d p)) with d in Ho.
  destruct Ho as [(e & _ & ->)|[(t & -> & ?)|[(Hr & Hi & _ & ? & ?)|(Hr & ? & ?)]]]; [by left| |right|right].
  - exfalso. by apply Hn.
  - split_and!; [done|done|]. left. split; [done|].
    assert (ensure_list [("cluster_id", int_item parse)] (q_params q) = Ok ps) as He'.
    { destruct Hr as [Hr|Hr]; rewrite Hr in He; exact He. }
    apply ensure_ints in He' as [He' _]. rewrite Hi in He'. unfold numbers in He'. apply mapM_Some in He'.
    by inversion He'.
  - split_and!; [done|done|]. by right.
Qed.
Print Assumptions C73_failed_request_partial.

Definition post_request (r : route) (ps : params) : request := Request true "0" r ps.
(** A request to unpin, or to refine, without saying which cluster, and one to recreate the
    model with a number that is none, all report failure; the last two replace the model. *)
Theorem C73_failed_request_refuted :
  ~ (forall parse p g1 g2 q d d' a, quiet d -> serve parse p g1 g2 q d = (d', a) -> ~ success a -> d' = d) /\
  (serve digits pool_ok rng0 rng0 (post_request RRefine ∅) sample_db).2 = Crashed IndexError /\
  members (serve digits pool_ok rng0 rng0 (post_request RRefine ∅) sample_db).1 0 ≠ members sample_db 0 /\
  (serve digits pool_ok rng0 rng0 (post_request RRecreate {["clusters" := One (Text "1"); "min_docs" := One (Text "1"); "iterations" := One (Text "x")]}) sample_db).2 = Crashed ValueError /\
  cluster_ids (serve digits pool_ok rng0 rng0 (post_request RRecreate {["clusters" := One (Text "1"); "min_docs" := One (Text "1"); "iterations" := One (Text "x")]}) sample_db).1 = [0%Z].
Proof.
  assert ((serve digits pool_ok rng0 rng0 (post_request RRecreate {["clusters" := One (Text "1"); "min_docs" := One (Text "1"); "iterations" := One (Text "x")]}) sample_db).2 = Crashed ValueError) as E1 by by_computation.
  assert (cluster_ids (serve digits pool_ok rng0 rng0 (post_request RRecreate {["clusters" := One (Text "1"); "min_docs" := One (Text "1"); "iterations" := One (Text "x")]}) sample_db).1 = [0%Z]) as E2 by by_computation.
  split_and!; [|by_computation|by_computation|done|done].
  intros H. destruct (serve _ _ _ _ (post_request RRecreate _) sample_db) as [d' a] eqn:E in E1, E2. cbn in E1, E2. subst a.
  pose proof (H _ _ _ _ _ _ _ _ sample_db_quiet E (fun x => x)) as ->.
  assert (cluster_ids sample_db = [0;1]%Z) as E3 by by_computation. rewrite E3 in E2. discriminate E2.
Qed.
Print Assumptions C73_failed_request_refuted.

(** ** C74 *)
(** What a successful request changed: nothing but the clustering; all summaries are right. *)
Definition model_changed (d d' : db) : Prop := quiet d' /\ same_index d d'.
(** Where the user is sent: to the page of the cluster named by a parameter, if there is
    one; after refining or pinning clusters, to the page of the first of them, unless the
    request says to return to the overview. *)
Definition sent_back (ps : params) (t : target) : Prop :=
  (ps !! "cluster_id" = None -> t = ToIndex) /\ (forall x, ps !! "cluster_id" = Some x -> t = ToCluster x).
Definition sent_on (ps : params) (c : Z) (t : target) : Prop :=
  (ps !! "return_to" = None \/ ps !! "return_to" = Some (One (Text "cluster")) -> t = ToCluster (One (Int c))) /\
  (forall x, ps !! "return_to" = Some x -> x <> One (Text "cluster") -> t = ToIndexOf c).
Lemma return_to_sent ps ps0 cn c l : ints ps "cluster_id" = c :: l -> ps !! "return_to" = ps0 !! "return_to" ->
  exists t, return_to ps cn = (cn, Ok t) /\ sent_on ps0 c t.
Proof.
  intros Hi Hr. unfold return_to, sent_on. rewrite Hi, Hr. eexists. split; [reflexivity|].
  destruct (ps0 !! "return_to") as [x|]; [case_bool_decide|]; split; try naive_solver.
Qed.

Theorem C74_delete_clusters : forall parse p g1 g2 q d cs,
  accepted parse q -> q_route q = RDelete -> usable d -> p 0 = None ->
  numbers parse (q_params q) "cluster_id" = Some cs ->
  exists d' t, serve parse p g1 g2 q d = (d', Redirect t) /\ model_changed d d' /\
    (forall f, assigned d' f = match assigned d f with
                               | Some x => if decide (x ∈ cs) then None else Some x
                               | None => None
                               end) /\
    feature_pins_kept d d' /\ cluster_pins_kept d d' /\
    (q_params q !! "return_cluster_id" = None -> t = ToIndex) /\
    (forall s, q_params q !! "return_cluster_id" = Some (One (Text s)) -> t = if bool_decide (s = "") then ToIndex else ToCluster (One (Text s))).
Proof.
  intros parse p g1 g2 q d cs Ha Hr Hu Hp Hn. destruct (numbers_ensure _ _ _ _ Hn) as (ps & He & Hi & Ho).
  destruct (succeeded _ _ _ _ (C25_delete_clusters cs (open_index d p) (idle_open d p) Hu Hp)) as (c' & Hc & Hq & Hs & Hpost).
  rewrite (serve_accepted parse p g1 g2 q d ps Ha) by (rewrite Hr; exact He). rewrite Hr. cbn [handle]. rewrite Hi.
  unfold pbind. rewrite Hc. eexists _, _. split; [reflexivity|]. split; [split; done|].
  destruct Hpost as (P1 & P2 & P3). split; [exact P1|]. split; [exact P2|]. split; [exact P3|].
  rewrite (Ho "return_cluster_id") by done. split.
  - by intros ->.
  - intros s ->. cbn. by case_bool_decide.
Qed.
Print Assumptions C74_delete_clusters.

Theorem C74_merge_clusters : forall parse p g1 g2 q d m rest,
  accepted parse q -> q_route q = RMerge -> usable d -> p 0 = None ->
  numbers parse (q_params q) "cluster_id" = Some (m :: rest) ->
  exists d', serve parse p g1 g2 q d = (d', Redirect (ToCluster (One (Int m)))) /\ model_changed d d' /\
    (forall f, assigned d' f = match assigned d f with
                               | Some x => if decide (x ∈ rest) then Some m else Some x
                               | None => None
                               end) /\
    (forall f, feature_pinned d' f = feature_pinned d f) /\ cluster_pins_kept d d'.
Proof.
  intros parse p g1 g2 q d m rest Ha Hr Hu Hp Hn. destruct (numbers_ensure _ _ _ _ Hn) as (ps & He & Hi & _).
  destruct (succeeded _ _ _ _ (C23_merge_clusters m rest (open_index d p) (idle_open d p) Hu Hp)) as (c' & Hc & Hq & Hs & Hpost).
  rewrite (serve_accepted parse p g1 g2 q d ps Ha) by (rewrite Hr; exact He). rewrite Hr. cbn [handle]. rewrite Hi.
  unfold pbind. rewrite Hc. eexists. split; [reflexivity|]. split; [split; done|]. exact Hpost.
Qed.
Print Assumptions C74_merge_clusters.

(** The user is sent to the page of the new cluster. *)
Theorem C74_create_cluster : forall parse p g1 g2 q d zs,
  accepted parse q -> q_route q = RCreate -> usable d -> p 0 = None ->
  numbers parse (q_params q) "feature_id" = Some zs ->
  let fs := Z.to_N <$> zs in
  (forall f, f ∈ fs -> is_Some (inverted_index d !! f)) ->
  exists d' id, serve parse p g1 g2 q d = (d', Redirect (ToCluster (One (Int id)))) /\ model_changed d d' /\
    (forall x, x ∈ cluster_ids d -> (x < id)%Z) /\
    (forall f, assigned d' f = if decide (f ∈ fs) then Some id else assigned d f) /\
    (forall f, feature_pinned d' f = feature_pinned d f).
Proof.
  intros parse p g1 g2 q d zs Ha Hr Hu Hp Hn fs Hk. unfold fs in *. clear fs. destruct (numbers_ensure _ _ _ _ Hn) as (ps & He & Hi & _).
  destruct (C24_create_cluster_from_features (Z.to_N <$> zs) (open_index d p) (idle_open d p) Hu Hp Hk) as (id & Hid & Hcall).
  destruct (succeeded _ _ _ _ Hcall) as (c' & Hc & Hq & Hs & H1 & H2 & _).
  rewrite (serve_accepted parse p g1 g2 q d ps Ha) by (rewrite Hr; exact He). rewrite Hr. cbn [handle].
  unfold feature_numbers. rewrite Hi. unfold pbind. rewrite Hc. eexists _, _. split; [reflexivity|]. split; [split; done|]. done.
Qed.
Print Assumptions C74_create_cluster.

Theorem C74_remove_features : forall parse p g1 g2 q d zs,
  accepted parse q -> q_route q = RRemove -> usable d -> p 0 = None ->
  numbers parse (q_params q) "feature_id" = Some zs ->
  exists d' t, serve parse p g1 g2 q d = (d', Redirect t) /\ model_changed d d' /\
    (forall f, assigned d' f = if decide (f ∈ Z.to_N <$> zs) then None else assigned d f) /\
    feature_pins_kept d d' /\ cluster_pins_kept d d' /\ sent_back (q_params q) t.
Proof.
  intros parse p g1 g2 q d zs Ha Hr Hu Hp Hn. destruct (numbers_ensure _ _ _ _ Hn) as (ps & He & Hi & Ho).
  destruct (succeeded _ _ _ _ (C25_delete_features (Z.to_N <$> zs) (open_index d p) (idle_open d p) Hu Hp)) as (c' & Hc & Hq & Hs & Hpost).
  rewrite (serve_accepted parse p g1 g2 q d ps Ha) by (rewrite Hr; exact He). rewrite Hr. cbn [handle].
  unfold feature_numbers. rewrite Hi. unfold pbind. rewrite Hc. eexists _, _. split; [reflexivity|]. split; [split; done|].
  destruct Hpost as (P1 & P2 & P3). split; [exact P1|]. split; [exact P2|]. split; [exact P3|].
  unfold sent_back, to_cluster_or_index. rewrite (Ho "cluster_id") by done. split; [by intros ->|by intros x ->].
Qed.
Print Assumptions C74_remove_features.

Theorem C74_pin_features : forall parse p g1 g2 q d zs b,
  accepted parse q -> q_route q = RPinFeatures -> usable d -> p 0 = None ->
  numbers parse (q_params q) "feature_id" = Some zs -> flag parse (q_params q) "pinned" b ->
  exists d' t, serve parse p g1 g2 q d = (d', Redirect t) /\ model_changed d d' /\
    (forall f, assigned d' f = assigned d f) /\
    (forall f, feature_pinned d' f =
       if decide (f ∈ Z.to_N <$> zs /\ is_Some (assigned d f)) then b else feature_pinned d f) /\
    cluster_pins_kept d d' /\ sent_back (q_params q) t.
Proof.
  intros parse p g1 g2 q d zs b Ha Hr Hu Hp Hn Hf. destruct (numbers_ensure _ _ _ _ Hn) as (ps & He & Hi & Ho).
  destruct (int_param_flag _ _ _ _ Hf) as (z & Hz & ->).
  destruct (succeeded _ _ _ _ (C26_pin_features (Z.to_N <$> zs) (negb (z =? 0)%Z) (open_index d p) (idle_open d p) Hu Hp)) as (c' & Hc & Hq & Hs & Hpost).
  rewrite (serve_accepted parse p g1 g2 q d ps Ha) by (rewrite Hr; exact He). rewrite Hr. cbn [handle].
  unfold feature_numbers. rewrite Hi. unfold pbind, lift. rewrite (int_param_other _ _ _ _ "pinned" 1 Ho), Hz by done.
  rewrite Hc. eexists _, _. split; [reflexivity|]. split; [split; done|].
  destruct Hpost as (P1 & P2 & P3). split; [exact P1|]. split; [exact P2|]. split; [exact P3|].
  unfold sent_back, to_cluster_or_index. rewrite (Ho "cluster_id") by done. split; [by intros ->|by intros x ->].
Qed.
Print Assumptions C74_pin_features.

Theorem C74_pin_clusters : forall parse p g1 g2 q d c cs b,
  accepted parse q -> q_route q = RPinClusters -> usable d -> p 0 = None ->
  numbers parse (q_params q) "cluster_id" = Some (c :: cs) -> flag parse (q_params q) "pinned" b ->
  exists d' t, serve parse p g1 g2 q d = (d', Redirect t) /\ model_changed d d' /\
    (forall f, assigned d' f = assigned d f) /\
    (forall f, feature_pinned d' f = feature_pinned d f) /\
    (forall x, members d x ≠ ∅ ->
       cluster_pinned d' x = if decide (x ∈ c :: cs) then b else cluster_pinned d x) /\
    sent_on (q_params q) c t.
Proof.
  intros parse p g1 g2 q d c cs b Ha Hr Hu Hp Hn Hf. destruct (numbers_ensure _ _ _ _ Hn) as (ps & He & Hi & Ho).
  destruct (int_param_flag _ _ _ _ Hf) as (z & Hz & ->).
  destruct (succeeded _ _ _ _ (C26_pin_clusters (c :: cs) (negb (z =? 0)%Z) (open_index d p) (idle_open d p) Hu Hp)) as (c' & Hc & Hq & Hs & Hpost).
  rewrite (serve_accepted parse p g1 g2 q d ps Ha) by (rewrite Hr; exact He). rewrite Hr. cbn [handle].
  rewrite Hi. unfold pbind, lift. rewrite (int_param_other _ _ _ _ "pinned" 1 Ho), Hz by done.
  rewrite Hc. destruct (return_to_sent ps (q_params q) c' c cs Hi (Ho "return_to" ltac:(done))) as (t & -> & Ht). cbn [fst snd].
  eexists _, t. split; [reflexivity|]. split; [split; done|].
  destruct Hpost as (P1 & P2 & P3). split; [exact P1|]. split; [exact P2|]. split; [exact P3|]. exact Ht.
Qed.
Print Assumptions C74_pin_clusters.

(** Refinement, of some clusters or of the whole model: whatever the answer, the clustered
    features, the pins, pinned features and pinned clusters stay; so does every cluster
    that was not among the named ones. *)
Theorem C74_refine : forall parse p g1 g2 q d d' a,
  q_route q = RRefine \/ q_route q = RRefineModel -> usable d ->
  serve parse p g1 g2 q d = (d', a) ->
  (d' = d \/ model_changed d d') /\
  (forall f, is_Some (assigned d' f) <-> is_Some (assigned d f)) /\
  (forall f, feature_pinned d' f = feature_pinned d f) /\ cluster_pins_kept d d' /\
  (forall f, feature_pinned d f = true -> assigned d' f = assigned d f) /\
  (forall x, cluster_pinned d x = true -> members d' x = members d x) /\
  (forall cs x, q_route q = RRefine -> numbers parse (q_params q) "cluster_id" = Some cs -> cs <> [] ->
     x ∉ cs -> x ∈ cluster_ids d -> members d' x = members d x) /\
  (forall t, a = Redirect t ->
     match q_route q with
     | RRefine => exists c cs, numbers parse (q_params q) "cluster_id" = Some (c :: cs) /\ sent_on (q_params q) c t
     | _ => t = ToIndex
     end).
Proof.
  assert (forall args g p d c' x, usable d -> refine_clusters args g (open_index d p) = (c', x) ->
    (disk c' = d \/ model_changed d (disk c')) /\
    (forall f, is_Some (assigned (disk c') f) <-> is_Some (assigned d f)) /\
    (forall f, feature_pinned (disk c') f = feature_pinned d f) /\ cluster_pins_kept d (disk c') /\
    (forall f, feature_pinned d f = true -> assigned (disk c') f = assigned d f) /\
    (forall x, cluster_pinned d x = true -> members (disk c') x = members d x) /\
    (forall l x, r_selection args = Some l -> l <> [] -> x ∉ l -> x ∈ cluster_ids d -> members (disk c') x = members d x)) as Hcall.
  { intros args g p d c' x Hu Hrun. destruct (call_cases (RefineClusters args g) (open_index d p) (idle_open d p) Hu) as [(e & c1 & H & Hd)|(Hp & _)].
    - cbn in H. rewrite Hrun in H. injection H as -> ->. cbn in Hd. rewrite Hd. split_and!; try done. by left.
    - pose proof (C30_refine_conserves_features args g (open_index d p) (idle_open d p) Hu Hp) as H1.
      pose proof (C31_pinned_and_unselected_untouched args g (open_index d p) (idle_open d p) Hu Hp) as H2.
      destruct H1 as [(e & c1 & H & _ & Hd & _)|H1].
      { rewrite Hrun in H. injection H as -> ->. cbn in Hd. rewrite Hd. split_and!; try done. by left. }
      apply succeeded in H1 as (c1 & H & Hq & Hs & A1 & A2 & A3 & A4). rewrite Hrun in H. injection H as <- ->.
      destruct H2 as [(e & c1 & H & _)|H2]; [by rewrite Hrun in H|].
      apply succeeded in H2 as (c1 & H & _ & _ & B1 & B2 & B3). rewrite Hrun in H. injection H as <-.
      split_and!; try done. by right. }
  intros parse p g1 g2 q d d' a Hr Hu H.
  assert (~ success a -> forall t, a <> Redirect t) as Hns by (intros Hn t ->; by apply Hn).
  assert (d' = d -> (forall t, a <> Redirect t) -> (d' = d \/ model_changed d d') /\
    (forall f, is_Some (assigned d' f) <-> is_Some (assigned d f)) /\
    (forall f, feature_pinned d' f = feature_pinned d f) /\ cluster_pins_kept d d' /\
    (forall f, feature_pinned d f = true -> assigned d' f = assigned d f) /\
    (forall x, cluster_pinned d x = true -> members d' x = members d x) /\
    (forall cs x, q_route q = RRefine -> numbers parse (q_params q) "cluster_id" = Some cs -> cs <> [] ->
       x ∉ cs -> x ∈ cluster_ids d -> members d' x = members d x) /\
    (forall t, a = Redirect t ->
     match q_route q with
     | RRefine => exists c cs, numbers parse (q_params q) "cluster_id" = Some (c :: cs) /\ sent_on (q_params q) c t
     | _ => t = ToIndex
     end)) as Hsame.
  { intros -> Hno. split_and!; try done; [by left|]. intros t Ht. by destruct (Hno t). }
  destruct (serve_cases _ _ _ _ _ _ _ _ H) as [[-> ?]|(_ & ps & c & x & He & Hh & -> & ->)]; [by apply Hsame, Hns|]. clear H Hns.
  destruct Hr as [Hr|Hr]; rewrite Hr in Hh, He; cbn [handle] in Hh; unfold pbind, lift in Hh.
  - destruct (target_param parse ps 0) as [t|e]; [|injection Hh as <- <-; by apply Hsame].
    destruct (int_param parse ps "minimum_cluster_features" 1) as [mcf|e]; [|injection Hh as <- <-; by apply Hsame].
    destruct (int_param parse ps "iterations" 10) as [it|e]; [|injection Hh as <- <-; by apply Hsame].
    destruct (refine_clusters _ g1 (open_index d p)) as [c1 r] eqn:Er.
    destruct (Hcall _ _ _ _ _ _ Hu Er) as (A1 & A2 & A3 & A4 & A5 & A6 & A7).
    assert (c = c1) as ->.
    { destruct r as [u|e]; [|by injection Hh]. unfold return_to in Hh. destruct (ints ps "cluster_id"); by injection Hh. }
    apply ensure_ints in He as [He Ho].
    split_and!; try done.
    + intros cs y _ Hn Hne Hy1 Hy2. apply (A7 cs y); try done. cbn. congruence.
    + intros t' Ht. rewrite Hr. destruct r as [u|e]; [|injection Hh as <-; discriminate Ht].
      destruct (ints ps "cluster_id") as [|k ks] eqn:Ek.
      { unfold return_to in Hh. rewrite Ek in Hh. injection Hh as <-. discriminate Ht. }
      destruct (return_to_sent ps (q_params q) c1 k ks Ek (Ho "return_to" ltac:(done))) as (t2 & E2 & Ht2).
      rewrite E2 in Hh. injection Hh as <-. injection Ht as <-. exists k, ks. split; [congruence|done].
  - destruct (target_param parse ps 0) as [t|e]; [|injection Hh as <- <-; by apply Hsame].
    destruct (int_param parse ps "iterations" 10) as [it|e]; [|injection Hh as <- <-; by apply Hsame].
    destruct (int_param parse ps "minimum_cluster_features" 1) as [mcf|e]; [|injection Hh as <- <-; by apply Hsame].
    destruct (refine_clusters _ g1 (open_index d p)) as [c1 r] eqn:Er.
    destruct (Hcall _ _ _ _ _ _ Hu Er) as (A1 & A2 & A3 & A4 & A5 & A6 & A7).
    assert (c = c1) as -> by (destruct r as [u|e]; by injection Hh).
    split_and!; try done.
    + intros cs y Hr'. rewrite Hr in Hr'. done.
    + intros t' Ht. rewrite Hr. destruct r as [u|e]; injection Hh as <-; [by injection Ht|discriminate Ht].
Qed.
Print Assumptions C74_refine.

Ltac split_and_base H := destruct H as (?B1 & ?B2 & ?B3 & ?B4); split; [assumption|split; [assumption|split; [assumption|split; [assumption|]]]].
(** Recreating the model, even when refinement fails afterwards: exactly the eligible
    features are clustered, nothing is pinned. *)
Theorem C74_recreate : forall parse p g1 g2 q d n md fields,
  accepted parse q -> q_route q = RRecreate -> usable d -> (forall i, p i = None) ->
  setting parse (q_params q) "clusters" 64 n -> setting parse (q_params q) "min_docs" 10 md ->
  given (q_params q) "include_fields" = Text <$> fields -> NoDup fields -> (1 <= n)%Z ->
  exists d' a, serve parse p g1 g2 q d = (d', a) /\ model_changed d d' /\
    (forall f, is_Some (assigned d' f) <-> eligible d md fields f) /\
    (forall f, feature_pinned d' f = false) /\ (forall x, members d' x ≠ ∅ -> cluster_pinned d' x = false) /\
    (forall t, a = Redirect t -> t = ToIndex).
Proof.
  intros parse p g1 g2 q d n md fields Ha Hr Hu Hp Hs1 Hs2 Hg Hnd Hn.
  destruct (ensure_texts _ _ _ Hg) as (ps & He & Ht & Ho).
  rewrite (serve_accepted parse p g1 g2 q d ps Ha) by (rewrite Hr; exact He). rewrite Hr. cbn [handle]. unfold pbind, lift.
  rewrite (int_param_other _ _ _ _ "clusters" 64 Ho), (int_param_setting _ _ _ _ _ Hs1) by done.
  rewrite (int_param_other _ _ _ _ "min_docs" 10 Ho), (int_param_setting _ _ _ _ _ Hs2) by done. rewrite Ht.
  destruct (C22_initialise_clusters (Z.to_nat n) md fields g1 (open_index d p) (idle_open d p) Hu (Hp _) ltac:(lia) Hnd)
    as (c1 & Hc1 & Hi1 & Hq1 & Hs & (B1 & _ & _ & B4 & B5) & _).
  pose proof (pool_run_write (Initialise (Z.to_nat n) md fields g1) (open_index d p)) as Hpool. cbn [run_write] in Hpool.
  rewrite Hc1 in Hpool |- *. cbn in Hpool.
  assert (model_changed d (disk c1) /\ (forall f, is_Some (assigned (disk c1) f) <-> eligible d md fields f) /\
    (forall f, feature_pinned (disk c1) f = false) /\ (forall x, members (disk c1) x ≠ ∅ -> cluster_pinned (disk c1) x = false)) as Hbase.
  { split; [split; done|]. split; [done|]. split; [done|]. by intros. }
  destruct (int_param parse ps "iterations" 10) as [it|e]; [|eexists _, _; split; [reflexivity|by split_and_base Hbase]].
  destruct (int_param parse ps "minimum_cluster_features" 1) as [mcf|e]; [|eexists _, _; split; [reflexivity|by split_and_base Hbase]].
  assert (pool_works c1) as Hp1 by (unfold pool_works; rewrite Hpool; apply Hp).
  destruct (C30_refine_conserves_features (refine_with it None mcf None) g2 c1 Hi1 (quiet_usable _ Hq1) Hp1)
    as [(e & c2 & H & _ & Hd & _)|H].
  - rewrite H. eexists _, _. split; [reflexivity|]. cbn. rewrite Hd. by split_and_base Hbase.
  - apply succeeded in H as (c2 & H & Hq2 & Hs2' & A1 & _ & A3 & A4). rewrite H. eexists _, _. split; [reflexivity|]. cbn.
    split; [split; [done|by eapply same_index_trans]|]. split_and!.
    + intros f. rewrite A1. apply B1.
    + intros f. rewrite A3. apply B4.
    + intros x Hx. rewrite (A4 x Hx). apply B5.
    + by intros t [= <-].
Qed.
Print Assumptions C74_recreate.

Example C74_example :
  accepted digits (post_request RMerge {["cluster_id" := Several [Text "1"; Text "0"]]}) /\ usable sample_db /\
  numbers digits {["cluster_id" := Several [Text "1"; Text "0"]]} "cluster_id" = Some [1; 0]%Z /\
  (serve digits pool_ok rng0 rng0 (post_request RMerge {["cluster_id" := Several [Text "1"; Text "0"]]}) sample_db).2
    = Redirect (ToCluster (One (Int 1))) /\
  members (serve digits pool_ok rng0 rng0 (post_request RMerge {["cluster_id" := Several [Text "1"; Text "0"]]}) sample_db).1 1
    = {[1; 2; 3; 4; 5]}%N /\
  (serve digits pool_ok rng0 rng0 (post_request RPinFeatures {["feature_id" := One (Text "2"); "pinned" := One (Text "0")]}) sample_db).2
    = Redirect ToIndex /\
  setting digits {["clusters" := One (Text "2")]} "clusters" 64 2 /\
  (serve digits pool_ok rng0 rng0 (post_request RRecreate {["clusters" := One (Text "2"); "min_docs" := One (Text "2")]}) sample_db).2
    = Redirect ToIndex.
Proof.
  split; [done|]. split; [apply quiet_usable, sample_db_quiet|]. split; [done|]. split; [by_computation|]. split; [by_computation|].
  split; [by_computation|]. split; [done|]. by_computation.
Qed.

(** ** C75 *)
(** Whatever requests arrive, and whatever the worker pool does during each of them: every
    feature of a cluster is in the index, every stored summary is right, the index itself
    is untouched, and a request that fails because of the pool leaves no trace. *)
Theorem C75_requests_keep_the_model : forall parse vs d d' answers,
  quiet d -> serve_all parse vs d = (d', answers) ->
  quiet d' /\ same_index d d' /\ length answers = length vs.
Proof.
  intros parse vs. induction vs as [|v vs IH]; intros d d' answers Hq H; cbn in H.
  - injection H as <- <-. split; [done|]. split; [repeat split|done].
  - destruct (serve parse (v_pool v) (v_g1 v) (v_g2 v) (v_request v) d) as [d1 a] eqn:E1.
    destruct (serve_all parse vs d1) as [d2 l] eqn:E2. injection H as <- <-.
    pose proof (serve_consistent parse (v_pool v) (v_g1 v) (v_g2 v) (v_request v) d (quiet_usable _ Hq)) as Hc.
    rewrite E1 in Hc. cbn in Hc. assert (quiet d1 /\ same_index d d1) as [Hq1 Hs1].
    { destruct Hc as [->|]; [|done]. split; [done|repeat split]. }
    destruct (IH _ _ _ Hq1 E2) as (A & B & C). split; [done|]. split; [by eapply same_index_trans|]. cbn. by rewrite C.
Qed.
Print Assumptions C75_requests_keep_the_model.

(** A pool failure is reported and leaves no trace; the next request is served as if it
    had not happened. *)
Theorem C75_pool_failure_contained : forall parse p k g1 g2 q d,
  usable d -> p 0 = Some k -> (serve parse p g1 g2 q d).1 = d.
Proof.
  intros parse p k g1 g2 q d Hu Hp.
  assert (forall w, (exists e c', run_write w (open_index d p) = (c', Err e) /\ disk c' = d)) as Hw.
  { intros w. destruct (call_cases w (open_index d p) (idle_open d p) Hu) as [(e & c' & H & Hd)|(Hx & _)]; [eauto|].
    unfold pool_works in Hx. cbn in Hx. congruence. }
  destruct (serve parse p g1 g2 q d) as [d' a] eqn:E. cbn.
  destruct (serve_cases _ _ _ _ _ _ _ _ E) as [[-> _]|(_ & ps & c & x & _ & Hh & -> & _)]; [done|].
  destruct (q_route q); cbn [handle] in Hh; unfold pbind, lift in Hh.
  - destruct (Hw (DeleteClusters (ints ps "cluster_id"))) as (e & c' & H & Hd). cbn in H. rewrite H in Hh. by injection Hh as <- <-.
  - destruct (Hw (CreateCluster (feature_numbers ps "feature_id"))) as (e & c' & H & Hd). apply ignore_inv in H. rewrite H in Hh. by injection Hh as <- <-.
  - destruct (Hw (MergeClusters (ints ps "cluster_id"))) as (e & c' & H & Hd). apply ignore_inv in H. rewrite H in Hh. by injection Hh as <- <-.
  - repeat match type of Hh with context [match ?x with Ok _ => _ | Err _ => _ end] =>
      lazymatch x with context [refine_clusters] => fail | _ => destruct x end end; try (by injection Hh as <- <-).
    match type of Hh with context [refine_clusters ?a ?g _] => destruct (Hw (RefineClusters a g)) as (e & c' & H & Hd) end.
    cbn in H. rewrite H in Hh. by injection Hh as <- <-.
  - destruct (int_param parse ps "pinned" 1) as [b|]; [|by injection Hh as <- <-].
    destruct (Hw (PinClusters (ints ps "cluster_id") (negb (b =? 0)%Z))) as (e & c' & H & Hd). cbn in H. rewrite H in Hh. by injection Hh as <- <-.
  - destruct (Hw (DeleteFeatures (feature_numbers ps "feature_id"))) as (e & c' & H & Hd). cbn in H. rewrite H in Hh. by injection Hh as <- <-.
  - destruct (int_param parse ps "pinned" 1) as [b|]; [|by injection Hh as <- <-].
    destruct (Hw (PinFeatures (feature_numbers ps "feature_id") (negb (b =? 0)%Z))) as (e & c' & H & Hd). cbn in H. rewrite H in Hh. by injection Hh as <- <-.
  - destruct (int_param parse ps "clusters" 64) as [n|]; [|by injection Hh as <- <-].
    destruct (int_param parse ps "min_docs" 10) as [md|]; [|by injection Hh as <- <-].
    destruct (Hw (Initialise (Z.to_nat n) md (texts ps "include_fields") g1)) as (e & c' & H & Hd). cbn in H. rewrite H in Hh. by injection Hh as <- <-.
  - repeat match type of Hh with context [match ?x with Ok _ => _ | Err _ => _ end] =>
      lazymatch x with context [refine_clusters] => fail | _ => destruct x end end; try (by injection Hh as <- <-).
    match type of Hh with context [refine_clusters ?a ?g _] => destruct (Hw (RefineClusters a g)) as (e & c' & H & Hd) end.
    cbn in H. rewrite H in Hh. by injection Hh as <- <-.
Qed.
Print Assumptions C75_pool_failure_contained.

Definition visits : list visit :=
  [ Visit (post_request RRefine {["cluster_id" := One (Text "1")]}) (fun _ => Some 0) rng0 rng0;
    Visit (post_request RCreate {["feature_id" := Several [Text "1"; Text "2"]]}) pool_ok rng0 rng0;
    Visit (post_request RDelete {["cluster_id" := One (Text "x")]}) pool_ok rng0 rng0;
    Visit (post_request RPinClusters {["cluster_id" := One (Text "2")]}) pool_ok rng0 rng0 ].
Example C75_example :
  quiet sample_db /\
  (serve_all digits visits sample_db).2 =
    [Crashed PoolError; Redirect (ToCluster (One (Int 2))); Crashed ValueError; Redirect (ToCluster (One (Int 2)))] /\
  members (serve_all digits visits sample_db).1 2 = {[1; 2]}%N /\ cluster_pinned (serve_all digits visits sample_db).1 2 = true.
Proof. split; [apply sample_db_quiet|]. by_computation. Qed.
