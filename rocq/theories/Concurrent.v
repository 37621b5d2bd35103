(** Concurrent.v: several clients (web server threads, other processes) using one index file
    at the same time. Every public call runs as one SQLite transaction on the client's own
    connection: [savepoint] (index.py:80-133) and [begin] (index.py:346, 539) start a deferred
    transaction, the journal is in WAL mode (index.py:163), and the connection does not retry
    (db_utilities.py:12-33). Modelled of SQLite:
    - the first statement fixes the database the transaction sees, until it ends;
    - the first writing statement needs the write lock, which at most one transaction holds;
      it fails if another one holds it (after the timeout), and also if anything has been
      committed since the transaction fixed what it sees;
    - a commit replaces the database for all transactions starting later;
    - worker processes (index.py:196-215, 235-239) have connections of their own and read
      the database committed at that moment.
    Simplification: a transaction is represented by its total effect, since what it does
    on its own connection between these points is invisible to others. *)
From Verif Require Export Db.

Section concurrent.
Context {A : Type}.

(** A transaction. [t_alone]: the database it leaves and its outcome when it sees the
    database [d] and so do the worker processes. [t_torn d seen]: what it would do if the
    workers read the databases [seen], not all of them [d]; arbitrary. *)
Record txn := Txn {
  t_workers : bool;                          (* uses worker processes *)
  t_alone : db -> db * res A;
  t_torn : db -> list db -> db * res A }.
Definition t_run (t : txn) (d : db) (seen : list db) : db * res A :=
  if bool_decide (Forall (fun x => d = x) seen) then t_alone t d else t_torn t d seen.

(** A transaction in progress. *)
Record session := Session {
  s_txn : txn; s_sees : db; s_version : nat; s_seen : list db; s_locked : bool; s_start : nat }.

(** A transaction that ended without being refused the lock or given up: what it saw, what
    the worker processes read for it, when it started and ended, and whether it had the lock. *)
Record entry := Entry {
  e_client : nat; e_txn : txn; e_result : res A; e_start : nat; e_finish : nat; e_locked : bool;
  e_sees : db; e_reads : list db }.

Record world := World {
  w_disk : db; w_version : nat; w_sessions : gmap nat session; w_log : list entry; w_clock : nat }.

Definition start (d : db) : world := World d 0 ∅ [] 0.

Inductive action :=
  | Begin (i : nat) (t : txn)     (* first statement of a transaction *)
  | WorkerRead (i : nat)          (* a worker process reads on behalf of client i *)
  | TakeLock (i : nat)            (* first writing statement: granted *)
  | Refused (i : nat)             (* first writing statement: OperationalError, rolled back. When
                                     it is the refresh of the summaries that is refused, because the
                                     call itself had nothing to write, the savepoint stays open as
                                     in C18: taken here as if the client then closes the connection *)
  | GiveUp (i : nat)              (* any other abort: exception, crash, connection closed *)
  | End (i : nat).                (* release / commit *)

Definition unlocked (w : world) : Prop :=
  forall j s, w_sessions w !! j = Some s -> s_locked s = false.

Inductive step : action -> world -> world -> Prop :=
  | step_begin i t w : w_sessions w !! i = None ->
      step (Begin i t) w
        (World (w_disk w) (w_version w)
               (<[i := Session t (w_disk w) (w_version w) [] false (w_clock w)]> (w_sessions w))
               (w_log w) (S (w_clock w)))
  | step_worker i w s : w_sessions w !! i = Some s -> t_workers (s_txn s) = true ->
      step (WorkerRead i) w
        (World (w_disk w) (w_version w)
               (<[i := Session (s_txn s) (s_sees s) (s_version s) (s_seen s ++ [w_disk w]) (s_locked s) (s_start s)]> (w_sessions w))
               (w_log w) (S (w_clock w)))
  | step_lock i w s : w_sessions w !! i = Some s -> unlocked w -> s_version s = w_version w ->
      step (TakeLock i) w
        (World (w_disk w) (w_version w)
               (<[i := Session (s_txn s) (s_sees s) (s_version s) (s_seen s) true (s_start s)]> (w_sessions w))
               (w_log w) (S (w_clock w)))
  | step_refused i w s : w_sessions w !! i = Some s -> s_locked s = false ->
      ~ unlocked w \/ s_version s ≠ w_version w ->
      step (Refused i) w
        (World (w_disk w) (w_version w) (delete i (w_sessions w)) (w_log w) (S (w_clock w)))
  | step_give_up i w :
      step (GiveUp i) w
        (World (w_disk w) (w_version w) (delete i (w_sessions w)) (w_log w) (S (w_clock w)))
  | step_end_read i w s r : w_sessions w !! i = Some s -> s_locked s = false ->
      t_run (s_txn s) (s_sees s) (s_seen s) = (s_sees s, r) ->
      step (End i) w
        (World (w_disk w) (w_version w) (delete i (w_sessions w))
               (w_log w ++ [Entry i (s_txn s) r (s_start s) (w_clock w) false (s_sees s) (s_seen s)]) (S (w_clock w)))
  | step_end_write i w s r d v : w_sessions w !! i = Some s -> s_locked s = true ->
      t_run (s_txn s) (s_sees s) (s_seen s) = (d, r) ->
      (* a commit without any change need not count as one *)
      v = S (w_version w) \/ (v = w_version w /\ d = w_disk w) ->
      step (End i) w
        (World d v (delete i (w_sessions w))
               (w_log w ++ [Entry i (s_txn s) r (s_start s) (w_clock w) true (s_sees s) (s_seen s)]) (S (w_clock w))).

(** Any number of clients doing anything in any order. *)
Inductive execution : list action -> world -> world -> Prop :=
  | execution_nil w : execution [] w w
  | execution_cons a tr w1 w2 w3 : step a w1 w2 -> execution tr w2 w3 -> execution (a :: tr) w1 w3.
End concurrent.
Arguments txn : clear implicits. Arguments session : clear implicits.
Arguments entry : clear implicits. Arguments world : clear implicits. Arguments action : clear implicits.
