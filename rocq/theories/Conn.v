(** Conn.v: the SQLite connection held by an [Index], the [atomic] decorator and
    the housekeeping function [_update_changed_clusters]. *)
From Verif Require Export Db.

(** The state of an [Index] object and its connection.
    - [disk]: the committed database, the only thing other connections (worker
      processes) see and the only thing that survives a crash;
    - [cur]: the database as this connection sees it;
    - [begun]: an explicit BEGIN is active;
    - [stack]: open savepoints, innermost first, each with the database to which
      ROLLBACK TO returns;
    - [level], [changed]: [self._transaction_level], [self._changed];
    - [fk]: pragma foreign_keys;
    - [pool], [pool_pos]: outcomes of successive uses of the worker pool for
      housekeeping: [None] success, [Some k] an exception after [k] results;
    - [commits]: ghost log of the databases committed so far, newest first: a
      crash at any instant leaves on disk one of them, namely the newest one
      written before that instant.
    Simplification: WAL, locking and other writers are not modelled: one writing
    connection at a time. *)
Record conn := Conn {
  disk : db; cur : db; begun : bool; stack : list (string * db);
  level : nat; changed : bool; fk : bool;
  pool : nat -> option nat; pool_pos : nat; commits : list db }.

(** A commit: [x] becomes the durable database and is logged. *)
Definition set_disk x c := Conn x (cur c) (begun c) (stack c) (level c) (changed c) (fk c) (pool c) (pool_pos c) (x :: commits c).
Definition set_cur x c := Conn (disk c) x (begun c) (stack c) (level c) (changed c) (fk c) (pool c) (pool_pos c) (commits c).
Definition set_begun x c := Conn (disk c) (cur c) x (stack c) (level c) (changed c) (fk c) (pool c) (pool_pos c) (commits c).
Definition set_stack x c := Conn (disk c) (cur c) (begun c) x (level c) (changed c) (fk c) (pool c) (pool_pos c) (commits c).
Definition set_level x c := Conn (disk c) (cur c) (begun c) (stack c) x (changed c) (fk c) (pool c) (pool_pos c) (commits c).
Definition set_changed x c := Conn (disk c) (cur c) (begun c) (stack c) (level c) x (fk c) (pool c) (pool_pos c) (commits c).
Definition set_fk x c := Conn (disk c) (cur c) (begun c) (stack c) (level c) (changed c) x (pool c) (pool_pos c) (commits c).
Definition set_pool_pos x c := Conn (disk c) (cur c) (begun c) (stack c) (level c) (changed c) (fk c) (pool c) x (commits c).

(** A computation by the Python code on an [Index]. *)
Definition M (A : Type) : Type := conn -> conn * res A.
Definition pret {A} (a : A) : M A := fun c => (c, Ok a).
Definition pfail {A} (e : exn) : M A := fun c => (c, Err e).
Definition pbind {A B} (m : M A) (k : A -> M B) : M B := fun c =>
  match m c with
  | (c1, Ok a) => k a c1
  | (c1, Err e) => (c1, Err e)
  end.

(** Is a transaction open? *)
Definition in_txn (c : conn) : bool := begun c || negb (bool_decide (stack c = [])).

(** After a statement outside a transaction SQLite commits at once (autocommit). *)
Definition autocommit (c : conn) : conn := if in_txn c then c else set_disk (cur c) c.

(** Runs statements / a method body on the connection. *)
Definition on_db {A} (m : dbm A) : M A := fun c =>
  let '(d, r) := m (cur c) in (autocommit (set_cur d c), r).

(** [begin]: an error inside a transaction. *)
Definition sql_begin : M unit := fun c =>
  if in_txn c then (c, Err OperationalError) else (set_begun true c, Ok tt).
(** [commit]: an error outside a transaction; closes all savepoints. *)
Definition sql_commit : M unit := fun c =>
  if in_txn c then (set_stack [] (set_begun false (set_disk (cur c) c)), Ok tt)
  else (c, Err OperationalError).
(** [rollback]: an error outside a transaction. *)
Definition sql_rollback : M unit := fun c =>
  if in_txn c then (set_stack [] (set_begun false (set_cur (disk c) c)), Ok tt)
  else (c, Err OperationalError).
(** [pragma foreign_keys = b]: ignored inside a transaction. *)
Definition sql_foreign_keys (b : bool) : M unit := fun c =>
  (if in_txn c then c else set_fk b c, Ok tt).
(** [savepoint "name"]. *)
Definition sql_savepoint (name : string) : M unit := fun c =>
  (set_stack ((name, cur c) :: stack c) c, Ok tt).

(** The stack from the innermost savepoint called [name] downwards. *)
Fixpoint find_savepoint (name : string) (st : list (string * db))
    : option (db * list (string * db)) :=
  match st with
  | [] => None
  | (n, d) :: r => if bool_decide (n = name) then Some (d, r) else find_savepoint name r
  end.
(** [rollback to "name"]: restores the database; the savepoint stays open. *)
Definition sql_rollback_to (name : string) : M unit := fun c =>
  match find_savepoint name (stack c) with
  | None => (c, Err OperationalError)
  | Some (d, r) => (set_stack ((name, d) :: r) (set_cur d c), Ok tt)
  end.
(** [release "name"]: closes the savepoint; commits when it was the outermost one
    of a transaction that it opened itself. *)
Definition sql_release (name : string) : M unit := fun c =>
  match find_savepoint name (stack c) with
  | None => (c, Err OperationalError)
  | Some (_, r) => (autocommit (set_stack r c), Ok tt)
  end.

(** ** Housekeeping *)

(** index.py:2388-2400 [_union_query], run by a worker process, whose own
    connection reads the committed inverted index. [idx[feature_id]]
    (index.py:244-268) is empty for an unknown feature. *)
Definition docs_of (d : db) (f : N) : bitmap :=
  match inverted_index d !! f with Some row => f_doc_ids row | None => ∅ end.
Definition union_query (committed : db) (fs : list N) : bitmap * N :=
  foldl (fun '(q, w) f => (q ∪ docs_of committed f,
                           (w + N.of_nat (size (docs_of committed f)))%N)) (∅, 0%N) fs.

(** index.py:1781-1791: the update of the feature counts of changed clusters. *)
Definition update_feature_counts (d : db) : db :=
  set_cluster (map_imap (fun c row =>
    Some (if bool_decide (c ∈ changed_cluster d)
          then ClusterRow (N.of_nat (length (features_of_cluster c d))) (c_docs_count row)
                          (c_weight row) (c_doc_ids row) (c_pinned row)
          else row)) (cluster d)) d.

(** index.py:1817-1823: [update cluster set (docs_count, weight, doc_ids) = ...]. *)
Definition update_cluster_union (c : Z) (q : bitmap) (w : N) (d : db) : db :=
  match cluster d !! c with
  | None => d
  | Some row =>
      set_cluster (<[c := ClusterRow (c_feature_count row) (N.of_nat (size q)) w (Some q)
                                     (c_pinned row)]> (cluster d)) d
  end.

(** Integers in increasing order. *)
Definition z_list (s : gset Z) : list Z := merge_sort Z.le (elements s).

(** index.py:1793-1816: the arguments passed to the pool, one per changed cluster:
    its id and its features, read on this connection before any result arrives. *)
Definition housekeeping_jobs (d : db) : list (Z * list N) :=
  (fun c => (c, features_of_cluster c d)) <$> z_list (changed_cluster d).

(** The loop index.py:1816-1823 over the first [n] results. *)
Definition apply_unions (committed : db) (jobs : list (Z * list N)) (d : db) : db :=
  foldl (fun d '(c, fs) =>
           let '(q, w) := union_query committed fs in update_cluster_union c q w d) d jobs.

(** index.py:1770-1826 [_update_changed_clusters]. *)
Definition update_changed_clusters : M unit := fun c =>
  let d1 := update_feature_counts (cur c) in
  let jobs := housekeeping_jobs d1 in
  let outcome := pool c (pool_pos c) in
  let c1 := set_pool_pos (S (pool_pos c)) c in
  match outcome with
  | Some k => (autocommit (set_cur (apply_unions (disk c) (take k jobs) d1) c1), Err PoolError)
  | None =>
      on_db (dbind (dstmt (delete_clusters_where (fk c) (fun row => (c_feature_count row =? 0)%N)))
                   (fun _ => dstmt (fun d => Ok (set_changed_cluster ∅ d))))
            (autocommit (set_cur (apply_unions (disk c) jobs d1) c1))
  end.

(** ** The [atomic] decorator, index.py:80-133 *)

(** The [finally] block (index.py:117-129) entered with the outcome [r] of the
    try/except part: an exception raised here replaces it. *)
Definition atomic_finally {A} (name : string) (r : res A) : M A := fun c =>
  let c1 := set_level (pred (level c)) c in
  let '(c2, h) :=
    if (level c1 =? 0) && changed c1 then
      match update_changed_clusters c1 with
      | (c2, Ok _) => (set_changed false c2, Ok tt)
      | (c2, Err e) => (c2, Err e)
      end
    else (c1, Ok tt) in
  match h with
  | Err e => (c2, Err e)
  | Ok _ =>
      match sql_release name c2 with
      | (c3, Ok _) => (c3, r)
      | (c3, Err e) => (c3, Err e)
      end
  end.

(** [@atomic(writes=...)] around a method called [name] with body [body]. *)
Definition atomic {A} (name : string) (writes : bool) (body : M A) : M A := fun c =>
  let c1 := set_level (S (level c)) c in
  match pbind (sql_savepoint name) (fun _ => body) c1 with
  | (c2, Ok a) =>
      atomic_finally name (Ok a) (if writes then set_changed true c2 else c2)
  | (c2, Err e) =>
      match sql_rollback_to name c2 with
      | (c3, Ok _) => atomic_finally name (Err e) c3
      | (c3, Err e') => atomic_finally name (Err e') c3
      end
  end.

(** A freshly opened connection on a committed database, index.py:137-194 (the
    part of [__init__] for a database already at the current schema version). *)
Definition open_index (d : db) (p : nat -> option nat) : conn :=
  Conn d d false [] 0 false true p 0 [].

(** Process crash or [close()] without commit, followed by reopening: only the
    committed database survives. index.py:241-242 [close]. *)
Definition reopen (c : conn) : conn := Conn (disk c) (disk c) false [] 0 false true (pool c) (pool_pos c) (commits c).

(** index.py:229-233 [__enter__] and [__exit__] (which closes the connection,
    rolling back what is not committed). *)
Definition enter : M unit := sql_begin.
Definition exit_and_close (c : conn) : db := disk c.
