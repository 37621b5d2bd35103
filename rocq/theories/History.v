(** History.v: sequences of public calls, and programs built from nested atomic methods
    (hyperreal/index.py:80-133 and every method decorated with [@atomic]). *)
From Verif Require Export Refine Indexing SpecConn.

(** A call of a method that changes the clustering, with all its arguments and the
    random numbers it will draw. *)
Inductive write :=
  | Initialise (n_clusters : nat) (min_docs : Z) (include_fields : list string) (g : rng)
  | DeleteClusters (cluster_ids : list Z)
  | MergeClusters (cluster_ids : list Z)
  | DeleteFeatures (feature_ids : list N)
  | CreateCluster (feature_ids : list N)
  | PinFeatures (feature_ids : list N) (pinned : bool)
  | PinClusters (cluster_ids : list Z) (pinned : bool)
  | RefineClusters (a : refine_args) (g : rng).

(** Drop the returned value. *)
Definition ignore {A} (m : M A) : M unit := pbind m (fun _ => pret tt).

Definition run_write (w : write) : M unit :=
  match w with
  | Initialise n md fields g => initialise_clusters n md fields g
  | DeleteClusters cs => delete_clusters cs
  | MergeClusters cs => ignore (merge_clusters cs)
  | DeleteFeatures fs => delete_features fs
  | CreateCluster fs => ignore (create_cluster_from_features fs)
  | PinFeatures fs p => pin_features fs p
  | PinClusters cs p => pin_clusters cs p
  | RefineClusters a g => refine_clusters a g
  end.

(** What may happen to an index: a call that changes the clustering, a call of [index],
    the process stopping at some instant during (or before, or after) such a call,
    after which the index is opened again, or the index being closed and opened again. *)
Inductive event :=
  | Write (w : write)
  | IndexCorpus (batch_size : nat) (positions : bool) (c : corpus) (s : schedule)
  | CrashDuring (w : write)
  | CrashDuringIndex (batch_size : nat) (positions : bool) (c : corpus) (s : schedule)
  | Reopen.

(** One event. Whether the call raises or not, the history goes on. *)
Inductive happens : event -> conn -> conn -> Prop :=
  | happens_write w c : happens (Write w) c (run_write w c).1
  | happens_index bsz pos cp s c : finish_order s ≡ₚ seq 0 (length (batches bsz cp)) ->
      happens (IndexCorpus bsz pos cp s) c (run_index bsz pos cp s c).1
  | happens_crash w c d : crash_states c (run_write w c).1 d ->
      happens (CrashDuring w) c (open_index d (pool c))
  | happens_crash_index bsz pos cp s c d : finish_order s ≡ₚ seq 0 (length (batches bsz cp)) ->
      crash_states c (run_index bsz pos cp s c).1 d ->
      happens (CrashDuringIndex bsz pos cp s) c (open_index d (pool c))
  | happens_reopen c : happens Reopen c (open_index (disk c) (pool c)).

Inductive history : list event -> conn -> conn -> Prop :=
  | history_nil c : history [] c c
  | history_cons e es c1 c2 c3 : happens e c1 c2 -> history es c2 c3 -> history (e :: es) c1 c3.

(** ** Programs of nested atomic methods *)
Inductive prog :=
  | Stmts (m : dbm unit)                               (* statements on the connection *)
  | Then (p q : prog)
  | Raise (e : exn)
  | Try (p handler : prog)                             (* try: p except Exception: handler *)
  | Atomic (name : string) (writes : bool) (p : prog). (* a call of a method decorated with @atomic *)

Fixpoint exec (p : prog) : M unit :=
  match p with
  | Stmts m => on_db m
  | Then p q => pbind (exec p) (fun _ => exec q)
  | Raise e => pfail e
  | Try p h => fun c => match exec p c with
                        | (c1, Ok u) => (c1, Ok u)
                        | (c1, Err _) => exec h c1
                        end
  | Atomic name w p => atomic name w (exec p)
  end.
