(** SpecPassages.v: what passage search and collocation counting mean. *)
From Verif Require Export SpecUtilities SpecIndexing Passages.

(** Token number [j] of the sequence document [doc] lists under [F] is [v]. *)
Definition token (c : corpus) (F : string) (doc : N) (j : nat) (v : value) : Prop :=
  exists vs, doc_sequence c F doc vs /\ vs !! j = Some v.

(** The index holds the sequences of the corpus (what indexing with positions
    establishes, C12 and C13). *)
Record encodes (c : corpus) (d : db) : Prop := {
  en_dicts : dicts c;
  en_unique : features_unique (inverted_index d);
  en_partitions : forall F first pm, position_doc_map d !! (F, first) = Some pm ->
    partition_lossless c d F first pm;
  en_covered : forall F doc vs, doc_sequence c F doc vs ->
    exists! first, exists pm, position_doc_map d !! (F, first) = Some pm /\ doc ∈ pm_doc_ids pm;
  en_rows : forall f first row, position_index d !! (f, first) = Some row ->
    p_positions row ≠ ∅ /\ p_count row = N.of_nat (size (p_positions row)) /\
    exists F v pm, lookup_feature d f = Ok (F, v) /\ position_doc_map d !! (F, first) = Some pm;
  en_positional : forall F, F ∈ positional_fields d <-> exists doc vs, doc_sequence c F doc vs }.

(** A feature given by id or by (field, value) is value [v] of field [F]. *)
Definition refers (d : db) (r : feature_ref) (F : string) (v : value) : Prop :=
  match r with
  | ById f => lookup_feature d f = Ok (F, v)
  | ByKey F' v' => F' = F /\ v' = v
  end.

(** Clause [cl] says something about field [F]. *)
Definition concerns (d : db) (cl : list feature_ref) (F : string) : Prop :=
  exists r v, r ∈ cl /\ refers d r F v.

(** One of the features of clause [cl] is token [j] of field [F] of the document. *)
Definition clause_at (c : corpus) (d : db) (cl : list feature_ref) (F : string) (doc : N) (j : nat) : Prop :=
  exists r v, r ∈ cl /\ refers d r F v /\ token c F doc j v.

(** Two token numbers at most [w] apart. *)
Definition near (w : N) (i j : nat) : Prop := within w (N.of_nat i) (N.of_nat j).

(** A worker pool that completes every one of [n] jobs, in some order. *)
Definition all_done (arrival : list nat) (n : nat) : Prop := arrival ≡ₚ seq 0 n.

(** Sorting permutes. *)
Definition permutes (sorter : clause_sorter) : Prop := forall l, sorter l ≡ₚ l.

(** The passages reported for a document. *)
Definition reported (ps : gmap N (list passage)) (doc : N) : list passage := default [] (ps !! doc).

(** A maximal run of members of [M]: in one document, no gap longer than [w], and no
    member of that document within [w] on either side. *)
Definition run (boundaries : gset N) (w : N) (M : gset N) (a b : N) : Prop :=
  a ∈ M /\ b ∈ M /\ (a <= b)%N /\ same_document boundaries a b /\
  (forall x, x ∈ M -> (a <= x < b)%N -> exists y, y ∈ M /\ (x < y <= b)%N /\ (y <= x + w)%N) /\
  (forall x, x ∈ M -> (x < a)%N -> same_document boundaries x a -> (x + w < a)%N) /\
  (forall x, x ∈ M -> (b < x)%N -> same_document boundaries b x -> (b + w < x)%N).

(** The document with the i-th id starts at the i-th boundary; position [p] is in it. *)
Definition in_document (doc_ids boundaries : gset N) (doc start p : N) : Prop :=
  exists i, bm_list doc_ids !! i = Some doc /\ bm_list boundaries !! i = Some start /\
    (start <= p)%N /\ same_document boundaries start p.

(** Occurrences of all clauses close together: [J] are token numbers of one document,
    pairwise at most [w] apart, each an occurrence of a clause, and every clause that
    concerns the field occurs among them. *)
Definition cooccur (c : corpus) (d : db) (clauses : list (list feature_ref)) (F : string) (w : N)
    (doc : N) (J : gset nat) : Prop :=
  (forall i j, i ∈ J -> j ∈ J -> near w i j) /\
  (forall j, j ∈ J -> exists cl, cl ∈ clauses /\ clause_at c d cl F doc j) /\
  (forall cl, cl ∈ clauses -> concerns d cl F -> exists j, j ∈ J /\ clause_at c d cl F doc j).

(** Token [j] of field [F] of the document lies in a reported passage. *)
Definition in_passage (ps : gmap N (list passage)) (F : string) (doc : N) (j : nat) : Prop :=
  exists s e n, (F, s, e, n) ∈ reported ps doc /\ (s <= N.of_nat j <= e)%N.

(** The clause occurs within [w] of token [m] in the same document. *)
Definition clause_near (c : corpus) (d : db) (cl : list feature_ref) (F : string) (w : N) (doc m : N) : Prop :=
  exists j, clause_at c d cl F doc j /\ within w (N.of_nat j) m.

(** Two documents stored in the same partition of the positions of a field. *)
Definition same_partition (d : db) (F : string) (doc doc' : N) : Prop :=
  exists first pm, position_doc_map d !! (F, first) = Some pm /\ doc ∈ pm_doc_ids pm /\ doc' ∈ pm_doc_ids pm.

(** The clause occurs among the last [w] tokens of the preceding document (the last one
    before [doc] that has the field), stored in the same partition. *)
Definition clause_before (c : corpus) (d : db) (cl : list feature_ref) (F : string) (w : N) (doc : N) : Prop :=
  exists doc' vs j, same_partition d F doc' doc /\ (doc' < doc)%N /\ doc_sequence c F doc' vs /\
    (forall doc'' vs'', doc_sequence c F doc'' vs'' -> ~ (doc' < doc'' < doc)%N) /\
    clause_at c d cl F doc' j /\ (N.of_nat (length vs) <= N.of_nat j + w)%N.

(** The clause occurs among the last [w] tokens of the last document of the partition of
    [F] that starts at document [first]. *)
Definition clause_at_end (c : corpus) (d : db) (cl : list feature_ref) (F : string) (w first : N) : Prop :=
  exists pm (doc : N) vs j, position_doc_map d !! (F, first) = Some pm /\ doc ∈ pm_doc_ids pm /\
    (forall doc', doc' ∈ pm_doc_ids pm -> (doc' <= doc)%N) /\ doc_sequence c F doc vs /\
    clause_at c d cl F doc j /\ (N.of_nat (length vs) <= N.of_nat j + w)%N.

(** A reported passage, given what each match must satisfy: it lies in the document, its
    ends are matches, and [n] tokens between them are matches. *)
Definition passage_ok (c : corpus) (d : db) (clauses : list (list feature_ref)) (F : string) (doc s e : N) (n : nat)
    (ok : list feature_ref -> N -> Prop) : Prop :=
  exists vs (ms : gset N), doc_sequence c F doc vs /\ (s <= e < N.of_nat (length vs))%N /\
    size ms = n /\ s ∈ ms /\ e ∈ ms /\
    forall m, m ∈ ms -> (s <= m <= e)%N /\
      (exists cl, cl ∈ clauses /\ clause_at c d cl F doc (N.to_nat m)) /\
      forall cl, cl ∈ clauses -> concerns d cl F -> ok cl m.

(** ** Rendering *)

(** The tokens numbered [i], ..., [k - 1] joined by spaces. *)
Definition joined (tokens : list string) (i k : nat) : string :=
  String.concat " " (take (k - i) (drop i tokens)).

(** The field of a document is this sequence of texts. *)
Definition text_field (fs : features) (F : string) (tokens : list string) : Prop :=
  (F, Seq ((fun s => Some (VText s)) <$> tokens)) ∈ fs.

(** What is shown for a document: for every field with passages, for each passage in
    order the tokens from [before] its start to [after] its end; the other fields only if
    they are not sequences. *)
Definition rendered (fs : features) (pl : list passage) (first_token last_token : passage -> nat)
    (shown : gmap string shown) : Prop :=
  forall F,
    match filter (fun p : passage => p.1.1.1 = F) pl with
    | [] => forall x, shown !! F = Some x <-> exists vs, (F, Coll vs) ∈ fs /\ x = ShownSet vs
    | of_field => forall tokens, text_field fs F tokens ->
        shown !! F = Some (ShownPassages ((fun p => joined tokens (first_token p) (last_token p)) <$> of_field))
    end.
Definition passage_start (p : passage) : nat := N.to_nat p.1.1.2.
Definition passage_end (p : passage) : nat := N.to_nat p.1.2.
