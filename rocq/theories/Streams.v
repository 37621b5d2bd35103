(** Streams.v: the connection of a corpus object (hyperreal/corpus.py) while documents are
    iterated over, rendered and replaced, in any interleaving, and other processes change the
    database. Simplifications: the database is in WAL mode (corpus.py:167, 267) and opened;
    its contents are an arbitrary type [D]; rendering reads the documents one by one inside
    its savepoint (in TwittersphereCorpus through [docs], whose own savepoint is balanced). *)
From Verif Require Export Base.

Section conn.
  (** The contents of the database, the keys, and one document (IndexError if missing):
      corpus.py:199-205, 211; 477-541, 719; 846-943, 999. *)
  Context {D K V : Type} (all_keys : D -> res (list K)) (get : D -> K -> res V).
  (** The savepoint of [render_docs_html], if there is one: none in PlainTextSqliteCorpus
      (corpus.py:219); corpus.py:672, 697, 988. *)
  Context (render_mark : option string).

  (** The committed contents with a number that changes with each commit; the open savepoints
      of this connection, innermost first; and, inside a transaction that has read, what it
      sees, which commit that was, and whether it holds the write lock. *)
  Record cstate := CState { c_file : D; c_ver : nat; c_marks : list string; c_view : option (D * nat * bool) }.
  (** An iterator made by [docs]: not yet started; running, with the keys still to come and
      whether they come from [keys()]; over: by itself (with its result) or closed. *)
  Inductive iter := Fresh (ks : option (list K)) | Running (rest : list K) (scanning : bool) | Over (result : option (res unit)).

  (** SQLite: [savepoint], reading, [release]: everything down to the innermost savepoint of
      that name; the outermost commits. *)
  Definition savepoint (n : string) (c : cstate) : cstate := CState (c_file c) (c_ver c) (n :: c_marks c) (c_view c).
  Definition look (c : cstate) : D * cstate :=
    match c_marks c with
    | [] => (c_file c, c)
    | _ => match c_view c with
           | Some (d, _, _) => (d, c)
           | None => (c_file c, CState (c_file c) (c_ver c) (c_marks c) (Some (c_file c, c_ver c, false)))
           end
    end.
  Fixpoint below (n : string) (l : list string) : option (list string) :=
    match l with [] => None | m :: l => if String.eqb m n then Some l else below n l end.
  Definition release (n : string) (c : cstate) : res cstate :=
    match below n (c_marks c) with
    | None => Err OperationalError
    | Some [] =>
        match c_view c with
        | Some (d, _, true) => Ok (CState d (S (c_ver c)) [] None)
        | _ => Ok (CState (c_file c) (c_ver c) [] None)
        end
    | Some l => Ok (CState (c_file c) (c_ver c) l (c_view c))
    end.

  (** What a step gives. *)
  Inductive output := Yielded (k : K) (v : V) | Stopped | Raised (e : exn) | Rendered (l : list (K * V)) | Quiet.

  (** [finally: release docs]; an error of the release replaces the outcome. *)
  Definition finish (c : cstate) (r : res unit) : cstate * iter * output :=
    match release "docs" c with
    | Err e => (c, Over (Some (Err e)), Raised e)
    | Ok c' => (c', Over (Some r), match r with Ok _ => Stopped | Err e => Raised e end)
    end.
  (** corpus.py:199-206: the next document. *)
  Definition advance (c : cstate) (rest : list K) (scanning : bool) : cstate * iter * output :=
    match rest with
    | [] => finish c (Ok tt)
    | k :: rest =>
        let '(d, c1) := look c in
        match get d k with
        | Ok v => (c1, Running rest scanning, Yielded k v)
        | Err e => finish c1 (Err e)
        end
    end.
  (** corpus.py:192-209, 468-546, 835-952: [next(iterator)]. *)
  Definition next (c : cstate) (g : iter) : cstate * iter * output :=
    match g with
    | Fresh (Some ks) => advance (savepoint "docs" c) ks false
    | Fresh None =>
        let '(d, c1) := look (savepoint "docs" c) in
        match all_keys d with
        | Ok ks => advance c1 ks true
        | Err e => finish c1 (Err e)
        end
    | Running rest scanning => advance c rest scanning
    | Over _ => (c, g, Stopped)
    end.
  (** [iterator.close()], also when it is garbage collected. *)
  Definition close (c : cstate) (g : iter) : cstate * iter * output :=
    match g with
    | Running _ _ => match release "docs" c with
                     | Ok c' => (c', Over None, Quiet)
                     | Err e => (c, Over None, Raised e)
                     end
    | Fresh _ => (c, Over None, Quiet)
    | Over _ => (c, g, Quiet)
    end.

  (** corpus.py:219-221, 670-693, 695-717, 987-997: rendering a list of keys. Without a
      savepoint of its own it is a whole iteration. *)
  Fixpoint gets (d : D) (ks : list K) : res (list (K * V)) :=
    match ks with
    | [] => Ok []
    | k :: ks => rbind (get d k) (fun v => rmap (cons (k, v)) (gets d ks))
    end.
  Definition render (c : cstate) (ks : list K) : cstate * output :=
    let m := default "docs" render_mark in
    let '(r, c1) := match ks with
                    | [] => (Ok [], savepoint m c)
                    | _ => let '(d, c1) := look (savepoint m c) in (gets d ks, c1)
                    end in
    match r with
    | Ok l => match release m c1 with Ok c2 => (c2, Rendered l) | Err e => (c1, Raised e) end
    | Err e =>
        (* [docs] cleans up in its [finally]; the others do not *)
        match render_mark with
        | None => match release m c1 with Ok c2 => (c2, Raised e) | Err e' => (c1, Raised e') end
        | Some _ => (c1, Raised e)
        end
    end.

  (** corpus.py:165-190 [replace_docs], with [new]: the table made of the texts, or the
      exception raised by them. Dropping the table fails while another statement is reading
      it ([reading]), and if what the transaction sees is out of date. All exceptions are
      swallowed. *)
  Definition replace (reading : bool) (new : res D) (c : cstate) : cstate * output :=
    let c1 := savepoint "add_texts" c in
    let '(d, v, locked) := match c_view c1 with Some x => x | None => (c_file c1, c_ver c1, false) end in
    let view' :=
      if negb (v =? c_ver c1) then (d, v, locked)                          (* out of date *)
      else if reading then (d, v, true)                                    (* table is locked *)
      else match new with Ok d' => (d', v, true) | Err _ => (d, v, true) end in
    let c2 := CState (c_file c1) (c_ver c1) (c_marks c1) (Some view') in
    match release "add_texts" c2 with Ok c3 => (c3, Quiet) | Err e => (c2, Raised e) end.

  (** Everything that can happen. [Other]: a commit of another process; it has to wait while
      this connection holds the write lock. *)
  Inductive event := New (ks : option (list K)) | Next (i : nat) | Close (i : nat) | Render (ks : list K)
                   | Replace (new : res D) | Other (d : D).
  Definition is_reading (g : iter) : bool := match g with Running (_ :: _) true => true | _ => false end.
  Definition holds_lock (c : cstate) : bool := match c_view c with Some (_, _, true) => true | _ => false end.
  Definition happen (s : cstate * list iter) (e : event) : (cstate * list iter) * output :=
    let '(c, gs) := s in
    match e with
    | New ks => ((c, gs ++ [Fresh ks]), Quiet)
    | Next i => match gs !! i with
                | Some g => let '(c', g', o) := next c g in ((c', <[i := g']> gs), o)
                | None => (s, Quiet)
                end
    | Close i => match gs !! i with
                 | Some g => let '(c', g', o) := close c g in ((c', <[i := g']> gs), o)
                 | None => (s, Quiet)
                 end
    | Render ks => let '(c', o) := render c ks in ((c', gs), o)
    | Replace new => let '(c', o) := replace (existsb is_reading gs) new c in ((c', gs), o)
    | Other d => ((if holds_lock c then c else CState d (S (c_ver c)) (c_marks c) (c_view c), gs), Quiet)
    end.
  (** What may happen from a state on: the events with what each gave, and the committed
      contents after each. A new connection. *)
  Inductive runs : cstate * list iter -> list (event * output) -> list D -> cstate * list iter -> Prop :=
  | runs_nil s : runs s [] [] s
  | runs_event s e s1 o tr fs s' : happen s e = (s1, o) -> runs s1 tr fs s' -> runs s ((e, o) :: tr) (c_file s1.1 :: fs) s'.
  Definition start (d : D) : cstate * list iter := (CState d 0 [] None, []).
End conn.
Arguments cstate : clear implicits.
Arguments iter : clear implicits.
Arguments output : clear implicits.
Arguments event : clear implicits.
