(** SpecReports.v: what reports about samples of documents should contain. *)
From Verif Require Export SpecPassages SpecQuery Reports.

(** The texts among the values of a window. *)
Definition texts (l : list (option value)) : list string :=
  omap (fun x => match x with Some (VText s) => Some s | _ => None end) l.

(** Size of a sample of [n] things, when one was asked for. *)
Definition sample_of (sample : option Z) (n : nat) : nat :=
  match sample with None => n | Some k => min (Z.to_nat k) n end.

(** A feature given by id or by (field, value) is value [v] of field [F]. *)
Definition names (d : db) (r : feature_ref) (F : string) (v : value) : Prop :=
  match r with
  | ById f => exists row, inverted_index d !! f = Some row /\ f_field row = F /\ f_value row = v
  | ByKey F' v' => F' = F /\ v' = v
  end.

(** Document keys are distinct. *)
Definition keys_distinct (d : db) : Prop :=
  forall i j k, doc_key d !! i = Some k -> doc_key d !! j = Some k -> i = j.

(** The corpus has the documents of [q] and can index them. *)
Definition available (d : db) (c : corpus) (q : gset N) : Prop :=
  forall doc, doc ∈ q -> exists k fs, doc_key d !! doc = Some k /\ corpus_lookup c k = Some (Ok fs) /\ NoDup fs.*1.

(** Sequences of the requested fields hold texts (or missing values) only. *)
Definition textual (d : db) (c : corpus) (q : gset N) (refs : list feature_ref) : Prop :=
  forall doc k fs F v vs x, doc ∈ q -> doc_key d !! doc = Some k -> corpus_lookup c k = Some (Ok fs) ->
    (exists r, r ∈ refs /\ names d r F v) -> (F, Seq vs) ∈ fs -> Some x ∈ vs -> exists s, x = VText s.

(** The concordance lines of one document. *)
Definition concordance_lines (d : db) (refs : list feature_ref) (sep : string) (w : nat) (fs : features)
    (lines : list (string * gmap value (list string))) : Prop :=
  forall F v ls, (exists m, (F, m) ∈ lines /\ m !! v = Some ls) <->
    (exists r, r ∈ refs /\ names d r F v) /\
    (exists fv, (F, fv) ∈ fs /\
       match fv with
       | Seq vs => positions_of vs (Some v) <> [] /\
                   ls = (fun i => String.concat sep (texts (around vs w i))) <$> positions_of vs (Some v)
       | Coll vs => Some v ∈ vs /\ ls = []
       end).
