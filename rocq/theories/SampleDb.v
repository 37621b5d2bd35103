(** SampleDb.v: a small index used by the examples beside the theorems. *)
From Verif Require Export ClusterCalls.

(** Six features of two fields over six documents, no clusters. *)
Definition sample_index : db :=
  set_field_summary (<["lang" := FsumRow 1 (VText "en") (VText "en") 0]>
                     {["text" := FsumRow 5 (VText "a") (VText "e") 0]})
  (set_inverted_index
    (list_to_map [
      (1%N, FeatureRow "text" (VText "a") 3 {[0;1;2]});
      (2%N, FeatureRow "text" (VText "b") 2 {[1;3]});
      (3%N, FeatureRow "text" (VText "c") 2 {[3;4]});
      (4%N, FeatureRow "text" (VText "d") 1 {[5]});
      (5%N, FeatureRow "lang" (VText "en") 4 {[0;2;4;5]});
      (6%N, FeatureRow "text" (VText "e") 0 ∅)])%N empty_db).

Lemma run_eq {A} (p : conn * res A) a : p.2 = a -> p = (p.1, a).
Proof. destruct p. simpl. by intros ->. Qed.

Definition pool_ok : nat -> option nat := fun _ => None.
Definition rng0 : rng := Rng (fun n => n * 7 + 3) 0.

Definition sample_conn : conn := open_index sample_index pool_ok.
(** ... and after creating two clusters from its features. *)
Definition sample_conn2 : conn := (initialise_clusters 2 1 [] rng0 sample_conn).1.
Definition sample_db : db := disk sample_conn2.

Lemma quiet_unclustered d :
  feature_cluster d = ∅ -> cluster d = ∅ -> changed_cluster d = ∅ ->
  map_Forall (fun _ ii => f_docs_count ii = N.of_nat (size (f_doc_ids ii))) (inverted_index d) ->
  quiet d.
Proof.
  intros H1 H2 H3 H4. split; split_and!.
  - intros f row. rewrite H1, lookup_empty. done.
  - intros f ii Hf. apply (H4 f ii Hf).
  - rewrite H3. set_solver.
  - intros c row. rewrite H2, lookup_empty. done.
  - intros c. rewrite H2, lookup_empty. split; [by intros []|]. intros Hm. exfalso. apply Hm.
    unfold members. rewrite H1. by rewrite map_filter_empty, dom_empty_L.
  - done.
Qed.

Lemma sample_index_quiet : quiet sample_index.
Proof. apply quiet_unclustered; by_computation. Qed.

Lemma quiet_usable d : quiet d -> usable d.
Proof. intros [H1 H2]. by apply summaries_winv. Qed.

Lemma sample_conn_ready : idle sample_conn /\ quiet (disk sample_conn) /\ pool_works sample_conn.
Proof. split; [apply idle_open|]. split; [apply sample_index_quiet|done]. Qed.

Lemma sample_conn2_ready : idle sample_conn2 /\ quiet (disk sample_conn2) /\ pool_works sample_conn2.
Proof.
  destruct sample_conn_ready as (H1 & H2 & H3).
  destruct (initialise_call 2 1 [] rng0 sample_conn H1 (quiet_usable _ H2) H3 ltac:(lia) ltac:(constructor))
    as (c' & Hc & Hi & Hq & _).
  unfold sample_conn2. rewrite Hc. split; [done|]. split; [done|].
  assert (pool_works sample_conn2) as Hp by reflexivity.
  unfold sample_conn2 in Hp. by rewrite Hc in Hp.
Qed.
