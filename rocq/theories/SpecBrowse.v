(** SpecBrowse.v: what the generators of an index should give. *)
From Verif Require Export Browse.

(** The values of a field with at least [min] documents, in order: one row for each feature
    of the field, with its value, its number of documents and its documents. *)
Definition lists_values (d : db) (field : string) (min : Z) (rows : list vrow) : Prop :=
  exists features : list N, NoDup features /\
    Forall2 (fun f r => exists row, inverted_index d !! f = Some row /\ f_field row = field /\ (min <= Z.of_N (f_docs_count row))%Z /\
      r = (f_value row, f_docs_count row, f_doc_ids row)) features rows /\
    (forall f row, inverted_index d !! f = Some row -> f_field row = field -> (min <= Z.of_N (f_docs_count row))%Z -> f ∈ features) /\
    Sorted value_le rows.*1.*1.

(** The iterations over values: what the [i]-th was asked for, and has given. *)
Definition asked (tr : list (bevent * boutput)) : list (string * Z) :=
  omap (fun x => match x.1 with Iterate field min => Some (field, min) | _ => None end) tr.
Definition rows_given (tr : list (bevent * boutput)) (i : nat) : list vrow :=
  omap (fun x => match x with (Advance j, Row r) => if j =? i then Some r else None | _ => None end) tr.
(** It was asked for an item after the last one (and not closed before). *)
Definition exhausted (s : bstate) (i : nat) : Prop := b_its s !! i = Some (VOver true).
(** It has given some of its rows, not all, and has not been closed. *)
Definition underway (s : bstate) : Prop := exists i r rest, b_its s !! i = Some (VRunning (r :: rest)).

(** Changes other than re-indexing leave the values as they are. *)
Definition keeps_values (e : bevent) : Prop :=
  match e with Change f => forall d d', f d = Ok d' -> inverted_index d' = inverted_index d | _ => True end.
Definition commits_elsewhere (e : bevent) : Prop := match e with Elsewhere _ => True | _ => False end.

(** The keys of the documents of a query, in order. *)
Definition keys_of_query (d : db) (q : bitmap) (ks : list value) : Prop :=
  NoDup ks /\ Sorted value_le ks /\ forall k, k ∈ ks <-> exists doc, doc ∈ q /\ doc_key d !! doc = Some k.
(** No two documents have the same key. *)
Definition keys_differ (d : db) : Prop := forall i j k, doc_key d !! i = Some k -> doc_key d !! j = Some k -> i = j.

(** The document iterations: their queries, and what the [i]-th has given; whether it ended
    with an exception, or by itself. *)
Section docs.
  Context {D V : Type}.
  Definition queries_asked (tr : list (devent D * doutput V)) : list bitmap :=
    omap (fun x => match x.1 with Docs q => Some q | _ => None end) tr.
  Definition docs_given (tr : list (devent D * doutput V)) (i : nat) : list (N * value * V) :=
    omap (fun x => match x with (NextDoc j, Given doc k v) => if j =? i then Some (doc, k, v) else None | _ => None end) tr.
  Definition closed (tr : list (devent D * doutput V)) (i : nat) : Prop := exists o, (CloseDoc i, o) ∈ tr.
  Definition raised (tr : list (devent D * doutput V)) (i : nat) (e : exn) : Prop := (NextDoc i, DRaised e) ∈ tr.
  Definition ended_by_itself (tr : list (devent D * doutput V)) (i : nat) : Prop :=
    (NextDoc i, Finished) ∈ tr /\ ~ closed tr i /\ forall e, ~ raised tr i e.
End docs.
