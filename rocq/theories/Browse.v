(** Browse.v: the generators of an [Index], [iter_field_docs] and [docs] (hyperreal/index.py:
    579-600, 631-636). Their bodies run when the caller asks for the next item, after the
    [atomic] wrapper has returned, in any interleaving with other calls of the object and with
    commits of other processes to the index and to the corpus. Simplifications: the index and
    the corpus are in WAL mode (index.py:164, corpus.py:167, 267); the caller has no
    transaction open; a call that changes the index is one step (ConnProofs.v is about its
    inside) and writes something; re-indexing through the same object is left to the
    hypotheses of the theorems. *)
From Verif Require Export Streams Lookup Query.

(** ** [iter_field_docs] *)
Definition vrow : Type := value * N * bitmap.
(** Not started; running, with the rows not yet given; over: by itself or closed. *)
Inductive viter := VFresh (field : string) (min_docs : Z) | VRunning (rest : list vrow) | VOver (finished : bool).

(** The committed index with a number that changes with each commit; what the connection
    sees, and which commit that was, if a statement keeps its transaction open. *)
Record bstate := BState { b_file : db; b_ver : nat; b_view : option (db * nat); b_its : list viter }.

(** Python's sqlite3 steps a statement once ahead: it is reset, and keeps nothing open, as
    soon as the last row has been given; so is that of a closed generator. *)
Definition unfinished (g : viter) : bool := match g with VRunning (_ :: _) => true | _ => false end.
Definition now (s : bstate) : db := match b_view s with Some (d, _) => d | None => b_file s end.
(** After a statement: the transaction goes on if some statement is unfinished. *)
Definition settle (s : bstate) (its : list viter) : bstate :=
  BState (b_file s) (b_ver s)
    (if existsb unfinished its then Some (default (b_file s, b_ver s) (b_view s)) else None) its.

(** [Look]: any call that only reads, shown as the index that it reads. [Change f]: any call
    that changes the index by [f]. [Elsewhere d]: another process commits. *)
Inductive bevent := Iterate (field : string) (min_docs : Z) | Advance (i : nat) | Stop (i : nat)
                  | Look | Change (f : db -> res db) | Elsewhere (d : db).
Inductive boutput := Row (r : vrow) | Ended | Saw_index (d : db) | BRaised (e : exn) | BQuiet.

(** index.py:597-598 [for item in value_docs: yield item]. *)
Definition give (s : bstate) (i : nat) (rows : list vrow) : bstate * boutput :=
  match rows with
  | [] => (settle s (<[i := VOver true]> (b_its s)), Ended)
  | r :: rest => (settle s (<[i := VRunning rest]> (b_its s)), Row r)
  end.
Definition bstep (s : bstate) (e : bevent) : bstate * boutput :=
  match e with
  | Iterate field min => (BState (b_file s) (b_ver s) (b_view s) (b_its s ++ [VFresh field min]), BQuiet)
  | Advance i =>
      match b_its s !! i with
      | Some (VFresh field min) => give s i (iter_field_docs (now s) field min)
      | Some (VRunning rest) => give s i rest
      | Some (VOver _) => (s, Ended)
      | None => (s, BQuiet)
      end
  | Stop i =>
      match b_its s !! i with
      | Some (VOver _) | None => (s, BQuiet)
      | Some _ => (settle s (<[i := VOver false]> (b_its s)), BQuiet)
      end
  | Look => (s, Saw_index (now s))
  | Change f =>
      (* what the transaction sees is out of date: it cannot write (SQLITE_BUSY_SNAPSHOT) *)
      if match b_view s with Some (_, v) => negb (v =? b_ver s) | None => false end then (s, BRaised OperationalError)
      else match f (now s) with
           | Err e => (s, BRaised e)
           | Ok d => (BState d (S (b_ver s)) (match b_view s with Some _ => Some (d, S (b_ver s)) | None => None end) (b_its s), BQuiet)
           end
  | Elsewhere d => (BState d (S (b_ver s)) (b_view s) (b_its s), BQuiet)
  end.
(** What can happen, with the committed index after each step. *)
Inductive bruns : bstate -> list (bevent * boutput) -> list db -> bstate -> Prop :=
| bruns_nil s : bruns s [] [] s
| bruns_event s e s1 o tr fs s' : bstep s e = (s1, o) -> bruns s1 tr fs s' -> bruns s ((e, o) :: tr) (b_file s1 :: fs) s'.
Definition bstart (d : db) : bstate := BState d 0 None [].

(** ** [docs] *)
Section docs.
  Context {D V : Type} (all_keys : D -> res (list value)) (get : D -> value -> res V) (render_mark : option string).
  Notation happen := (@happen D value V all_keys get render_mark).
  (** Not started; started, with the dict of keys and the iterator of the corpus; ended before
      there was one. *)
  Inductive diter := DFresh (q : bitmap) | DStarted (m : gmap value N) (j : nat) | DDone.
  (** The index, the corpus with its iterators, and the generators made by [docs]. *)
  Record dstate := DState { d_index : bstate; d_corpus : Streams.cstate D * list (Streams.iter value); d_its : list diter }.
  (** [Rendering]: texts are rendered through the corpus object; [Recorded]: another process
      commits to the database of the corpus. *)
  Inductive devent := OnIndex (e : bevent) | Rendering (ks : list value) | Recorded (d : D)
                    | Docs (q : bitmap) | NextDoc (i : nat) | CloseDoc (i : nat).
  Inductive doutput := Given (doc : N) (k : value) (v : V) | Finished | DRaised (e : exn) | Other_output.

  (** index.py:635-636: the next pair of [self.corpus.docs], and [keys[key]]. *)
  Definition next_doc (s : dstate) (i : nat) (m : gmap value N) (j : nat) : dstate * doutput :=
    let '(c, o) := happen (d_corpus s) (Next j) in
    (DState (d_index s) c (<[i := DStarted m j]> (d_its s)),
     match o with
     | Yielded k v => match m !! k with Some doc => Given doc k v | None => DRaised KeyError end
     | Raised e => DRaised e
     | _ => Finished
     end).
  Definition dstep (s : dstate) (e : devent) : dstate * doutput :=
    match e with
    | OnIndex e => (DState (bstep (d_index s) e).1 (d_corpus s) (d_its s), Other_output)
    | Rendering ks => (DState (d_index s) (happen (d_corpus s) (Render ks)).1 (d_its s), Other_output)
    | Recorded d => (DState (d_index s) (happen (d_corpus s) (Other d)).1 (d_its s), Other_output)
    | Docs q => (DState (d_index s) (d_corpus s) (d_its s ++ [DFresh q]), Other_output)
    | NextDoc i =>
        match d_its s !! i with
        | Some (DFresh q) =>
            match convert_query_to_keys (now (d_index s)) q with
            | Err e => (DState (d_index s) (d_corpus s) (<[i := DDone]> (d_its s)), DRaised e)
            | Ok m =>
                let c := (happen (d_corpus s) (New (Some (merge_sort value_le (map_to_list m).*1)))).1 in
                next_doc (DState (d_index s) c (d_its s)) i m (length (d_corpus s).2)
            end
        | Some (DStarted m j) => next_doc s i m j
        | Some DDone => (s, Finished)
        | None => (s, Other_output)
        end
    | CloseDoc i =>
        match d_its s !! i with
        | Some (DFresh _) => (DState (d_index s) (d_corpus s) (<[i := DDone]> (d_its s)), Other_output)
        | Some (DStarted _ j) => (DState (d_index s) (happen (d_corpus s) (Close j)).1 (d_its s), Other_output)
        | _ => (s, Other_output)
        end
    end.
  (** With the committed index and corpus after each step. *)
  Inductive druns : dstate -> list (devent * doutput) -> list db -> list D -> dstate -> Prop :=
  | druns_nil s : druns s [] [] [] s
  | druns_event s e s1 o tr fi fc s' : dstep s e = (s1, o) -> druns s1 tr fi fc s' ->
      druns s ((e, o) :: tr) (b_file (d_index s1) :: fi) (c_file (d_corpus s1).1 :: fc) s'.
  Definition dstart (d : db) (c : D) : dstate := DState (bstart d) (start c) [].
End docs.
Arguments dstate : clear implicits.
Arguments devent : clear implicits.
Arguments doutput : clear implicits.
