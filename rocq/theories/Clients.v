(** Clients.v: the transactions of the clients of an index file (see Concurrent.v): which
    part of each public call is one transaction. *)
From Verif Require Export Concurrent History Web Passages.

(** What a transaction gives its client. *)
Inductive outcome :=
  | Finished
  | Answered (a : answer)
  | Found (docs : option bitmap)
  | Scored (passages : gmap N (list passage))
  | Saw (d : db).
#[global] Instance outcome_eq_dec : EqDecision outcome.
Proof. solve_decision. Defined.

(** Arbitrary behaviour, see [t_torn]. *)
Definition behaviour := db -> list db -> db * res outcome.

(** A method decorated with [@atomic(writes=True)] (index.py:80-133), called on a connection
    without open transaction: one transaction, released or rolled back at the end. [p]: how
    the pool behaves. When the pool fails the transaction stays open until the connection is
    closed (see C18): here, it may end arbitrarily late. *)
Definition write_txn (w : write) (p : nat -> option nat) (torn : behaviour) : txn outcome :=
  Txn true (fun d => let '(c, r) := run_write w (open_index d p) in (disk c, rmap (fun _ => Finished) r)) torn.

(** index.py:338-537: the first transaction of [index]: from [begin] to the first [commit],
    or rolled back (index.py:543-546). The workers read the corpus and write the temporary
    database; they do not use the index file (index.py:2056-2210). *)
Definition merge_txn (batch_size : nat) (positions : bool) (cp : corpus) (s : schedule) (torn : behaviour) : txn outcome :=
  Txn false (fun d => match rebuild batch_size positions cp s d with
                      | (d1, Ok _) => (d1, Ok Finished)
                      | (_, Err e) => (d, Err e)
                      end) torn.

(** index.py:539-541: the second transaction of [index], without foreign keys. *)
Definition refresh_summaries : M unit :=
  pbind sql_begin (fun _ => pbind update_changed_clusters (fun _ => sql_commit)).
Definition refresh_txn (p : nat -> option nat) (torn : behaviour) : txn outcome :=
  Txn true (fun d => match refresh_summaries (set_fk false (open_index d p)) with
                     | (c, Ok _) => (disk c, Ok Finished)
                     | (c, Err e) => (disk c, Err e)
                     end) torn.

(** index.py:244-268 [idx[...]]. *)
Definition lookup_txn (k : item_key) (torn : behaviour) : txn outcome :=
  Txn false (fun d => (d, Ok (Found (getitem d k)))) torn.

(** Any call that only reads and uses no worker processes: what it gives its client is a
    function of the database it sees. *)
Definition read_txn (torn : behaviour) : txn outcome :=
  Txn false (fun d => (d, Ok (Saw d))) torn.

(** index.py:1894-1950 [score_passages_dnf], with workers reading other databases: the
    features and the partitions are read by the call itself, the i-th job to complete has
    read the i-th database. *)
Definition score_passages_torn (sorter : clause_sorter) (arrival : list nat) (d : db) (seen : list db)
    (clauses : list (list feature_ref)) (w : N) : res (gmap N (list passage)) :=
  rbind (resolve_clauses d clauses) (fun rcl =>
  rbind (rtraverse (fun '(k, i) =>
    match passage_jobs d rcl !! i with
    | Some (field, first) => score_partition sorter (default d (seen !! k)) field first (field_query field rcl) w
    | None => Err IndexError
    end) (imap pair arrival)) (fun results =>
  Ok (foldl merge_scores ∅ results))).
Definition passages_txn (sorter : clause_sorter) (arrival : list nat) (clauses : list (list feature_ref)) (w : N) : txn outcome :=
  Txn true (fun d => (d, rmap Scored (score_passages_dnf sorter arrival d clauses w)))
           (fun d seen => (d, rmap Scored (score_passages_torn sorter arrival d seen clauses w))).

(** A POST request to the web application (server.py:22-35, 187-543, 593-604), which opens the index
    for itself; all but [recreate_model] call one method of the index that writes. *)
Definition request_txn (parse : string -> option Z) (v : visit) (torn : behaviour) : txn outcome :=
  Txn true (fun d => let '(d1, a) := serve parse (v_pool v) (v_g1 v) (v_g2 v) (v_request v) d in (d1, Ok (Answered a))) torn.

(** The transactions clients use. [recreate_model] and the command line tool use
    [write_txn]s one after the other, [index] a [merge_txn] and, if that returns, a
    [refresh_txn]. *)
Inductive client_txn (parse : string -> option Z) : txn outcome -> Prop :=
  | uses_write w p torn : client_txn parse (write_txn w p torn)
  | uses_merge bsz pos cp s torn : finish_order s ≡ₚ seq 0 (length (batches bsz cp)) ->
      client_txn parse (merge_txn bsz pos cp s torn)
  | uses_refresh p torn : client_txn parse (refresh_txn p torn)
  | uses_lookup k torn : client_txn parse (lookup_txn k torn)
  | uses_read torn : client_txn parse (read_txn torn)
  | uses_passages sorter arrival clauses w : client_txn parse (passages_txn sorter arrival clauses w)
  | uses_request v torn : q_route (v_request v) ≠ RRecreate -> client_txn parse (request_txn parse v torn).

(** ** A page as several reads *)

(** server.py:51-169 [Cluster.index]: a page does not run in one transaction. [view k] is the
    database its k-th read sees: 0: the ids of the clusters, 1: the features of the cluster,
    2: its documents, 3: those of the feature, 4 and 5: documents and features of the other
    cluster, 6: the pivot, 7: what is shown, 8: the pinned clusters. Reads 3, 4 and 5 are
    only done if asked for; otherwise the view is not used. Simplification: the pivot with
    its worker processes is one read, so are the documents shown. Otherwise as
    [cluster_page_of]. *)
Definition cluster_page_at (rnd : Qc -> Qc) (workers : nat) (arrival : list nat) (g : rng)
    (view : nat -> db) (w : option web_corpus) (c : Z) (feature : option N) (filter_cluster : option Z)
    (sample : Z) (result_type : option string) : page_answer cluster_page :=
  match neighbours (cluster_ids (view 0)) c with
  | None => PageError 404
  | Some (prev, next) =>
      let fs := cluster_features (view 1) c None in
      match
        rbind (docs_or_type_error (view 2) c) (fun q0 =>
        let q1 := match feature with Some f => q0 ∩ docs_of (view 3) f | None => q0 end in
        rbind (match filter_cluster with
               | Some fc => rbind (docs_or_type_error (view 4) fc) (fun x => Ok (q1 ∩ x))
               | None => Ok q1
               end) (fun query =>
        let others := match filter_cluster with Some fc => cluster_features (view 5) fc None | None => [] end in
        let refs := ((fun r : N * string * value * N => ByKey r.1.1.2 r.1.2) <$> fs)
                    ++ match feature with Some f => [ById f] | None => [] end
                    ++ ((fun r : N * string * value * N => ByKey r.1.1.2 r.1.2) <$> others) in
        let pq := [fs.*1.*1.*1] ++ match feature with Some f => [[f]] | None => [] end
                  ++ match filter_cluster with Some _ => [others.*1.*1.*1] | None => [] end in
        rbind (pivot_clusters_by_query rnd workers arrival (view 6) query (Some [c]) (length fs)) (fun sorted =>
        let listed := match sorted with
                      | (_, _, rows) :: _ => rows.*1
                      | [] => fs.*1
                      end in
        rbind (results_of (view 7) w (result_kind result_type) query refs pq sample g) (fun s =>
        Ok (ClusterPage listed (size query) prev next (bool_decide (c ∈ pinned_cluster_ids (view 8))) s)))))
      with
      | Ok p => Page p
      | Err e => PageCrashed e
      end
  end.

(** What client [i] saw, read by read. *)
Definition reads_of (i : nat) (w : world outcome) : list db :=
  omap (fun e => match e_result e with
                 | Ok (Saw d) => if decide (e_client e = i) then Some d else None
                 | _ => None
                 end) (w_log w).
