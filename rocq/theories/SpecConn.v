(** SpecConn.v: what a caller of the public API observes of a call. *)
From Verif Require Export Conn SpecCluster.

(** A connection between two public calls: no transaction is open and it sees the
    committed database. *)
Record idle (c : conn) : Prop := Idle {
  idle_cur : cur c = disk c; idle_begun : begun c = false; idle_stack : stack c = [];
  idle_level : level c = 0; idle_changed : changed c = false; idle_fk : fk c = true }.

(** The worker pool does not fail in the next refresh of the summaries. *)
Definition pool_works (c : conn) : Prop := pool c (pool_pos c) = None.

(** The databases a crash at some instant during a call from [c] to [c'] may leave
    on disk: the one at the start and every one committed by the call. *)
Definition crash_states (c c' : conn) (d : db) : Prop :=
  d = disk c \/ exists new old, commits c' = new ++ old /\ old = commits c /\ d ∈ new.

(** The call returns [a]; its effect, related to the state before by [post], is
    committed as a whole, the summaries are up to date, the index itself is
    untouched, and the connection is free again. *)
Definition call_succeeds {A} (call : M A) (c : conn) (a : A) (post : db -> db -> Prop) : Prop :=
  exists c', call c = (c', Ok a) /\ idle c' /\ quiet (disk c') /\
    same_index (disk c) (disk c') /\ post (disk c) (disk c') /\
    (forall d, crash_states c c' d -> d = disk c \/ d = disk c').

(** The call raises [e]; nothing changed, the connection is free again. *)
Definition call_raises {A} (call : M A) (c : conn) (e : exn) : Prop :=
  exists c', call c = (c', Err e) /\ idle c' /\ disk c' = disk c /\
    (forall d, crash_states c c' d -> d = disk c).

(** The pins of the clusters that still exist are as before. *)
Definition cluster_pins_kept (d d' : db) : Prop :=
  forall x, members d' x ≠ ∅ -> cluster_pinned d' x = cluster_pinned d x.
Definition feature_pins_kept (d d' : db) : Prop :=
  forall f, is_Some (assigned d' f) -> feature_pinned d' f = feature_pinned d f.
