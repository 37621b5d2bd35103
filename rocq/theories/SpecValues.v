(** SpecValues.v: values of every type. *)
From Verif Require Export Values SpecDates SpecIndexing.

(** Python's [==] for the values of a corpus. *)
Inductive py_eq : pvalue -> pvalue -> Prop :=
  | py_same v : py_eq v v
  | py_true_1 : py_eq (PBool true) (PInt 1)
  | py_1_true : py_eq (PInt 1) (PBool true)
  | py_false_0 : py_eq (PBool false) (PInt 0)
  | py_0_false : py_eq (PInt 0) (PBool false).

(** Values that a sqlite database can hold; dates and datetimes are those of the calendar, as
    always in Python. *)
Definition storable (v : pvalue) : Prop :=
  match v with
  | PBool _ | PText _ => True
  | PInt z => (- 2 ^ 63 <= z < 2 ^ 63)%Z
  | PDate y m d => calendar (DateTime y m d 0 0 0 0)
  | PDatetime t => calendar t
  | PObject _ => False
  end.

(** The document lists [v] under the field. *)
Definition lists (fs : pfeatures) (field : string) (v : pvalue) : Prop :=
  exists x, (field, x) ∈ fs /\ Some v ∈ pfield_values x.
(** Some document of the corpus lists [v] under the field. *)
Definition listed (c : pcorpus) (field : string) (v : pvalue) : Prop :=
  exists key fs, (key, Ok fs) ∈ c /\ lists fs field v.
(** Document number [doc] lists a value equal to [v] under the field. *)
Definition lists_equal (c : pcorpus) (field : string) (v : pvalue) (doc : N) : Prop :=
  exists key fs w, c !! N.to_nat doc = Some (key, Ok fs) /\ lists fs field w /\ py_eq w v.

(** One is a text and the other a date or datetime. *)
Definition text_and_date (a b : pvalue) : Prop :=
  match a, b with
  | PText _, (PDate _ _ _ | PDatetime _) | (PDate _ _ _ | PDatetime _), PText _ => True
  | _, _ => False
  end.
(** No field lists texts and dates. *)
Definition unmixed (c : pcorpus) : Prop :=
  forall field a b, listed c field a -> listed c field b -> ~ text_and_date a b.

(** What [index] accepts: documents, different keys, no document raises, no None in a sequence if
    positions are kept, and every value can be stored. *)
Definition acceptable (positions : bool) (c : pcorpus) : Prop :=
  c ≠ [] /\ NoDup (fst <$> c) /\
  forall key r, (key, r) ∈ c -> exists fs, r = Ok fs /\
    (positions = true -> forall field vs, (field, PSeq vs) ∈ fs -> None ∉ vs) /\
    (forall field v, lists fs field v -> storable v).
