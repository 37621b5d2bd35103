(** Base.v: the Python/pyroaring vocabulary used by every other file.

    Simplifications common to the whole model:
    - a pyroaring [BitMap] is a finite set of natural numbers ([gset N]); the
      32 bit limit and the serialised form are not modelled;
    - Python exceptions are values of [exn] carried by [res];
    - every draw from [random.Random] comes from an arbitrary stream of naturals,
      so a theorem quantified over [rng] holds for every random outcome. *)
From stdpp Require Export prelude gmap sorting numbers strings list fin_sets.

(** Exceptions that the modelled code can raise (the class only). *)
Inductive exn :=
| IntegrityError | OperationalError | KeyError | IndexError | ValueError
| TypeError | ZeroDivisionError | AttributeError | NameError | MigrationError
| IndexingError | CorpusMissingError | UnsupportedCorpusOperation
| PoolError | UserError | CsvError.

#[global] Instance exn_eq_dec : EqDecision exn.
Proof. solve_decision. Defined.

(** Result of running a piece of Python: a value or an exception. *)
Inductive res (A : Type) := Ok (a : A) | Err (e : exn).
Arguments Ok {A} a.
Arguments Err {A} e.

#[global] Instance res_eq_dec {A} `{EqDecision A} : EqDecision (res A).
Proof. solve_decision. Defined.

(** Decides a closed decidable proposition by computation (used for concrete
    examples and refutation witnesses). *)
Ltac by_computation := cbv zeta; apply (bool_decide_unpack _); vm_compute; exact I.

Definition rbind {A B} (m : res A) (f : A -> res B) : res B :=
  match m with Ok a => f a | Err e => Err e end.
Definition rmap {A B} (f : A -> B) (m : res A) : res B :=
  match m with Ok a => Ok (f a) | Err e => Err e end.
Definition is_ok {A} (m : res A) : bool := match m with Ok _ => true | Err _ => false end.

(** A Python [for] loop over [l] threading a state, stopping at the first exception. *)
Fixpoint rfold {A S} (f : S -> A -> res S) (l : list A) (s : S) : res S :=
  match l with
  | [] => Ok s
  | x :: r => rbind (f s x) (rfold f r)
  end.

(** [ [f x for x in l] ] where [f] may raise. *)
Fixpoint rtraverse {A B} (f : A -> res B) (l : list A) : res (list B) :=
  match l with
  | [] => Ok []
  | x :: r => rbind (f x) (fun y => rbind (rtraverse f r) (fun ys => Ok (y :: ys)))
  end.

(** ** BitMaps (pyroaring) *)
Notation bitmap := (gset N).

(** Iterating a BitMap yields its members in increasing order. *)
Definition bm_list (b : bitmap) : list N := merge_sort N.le (elements b).

(** [BitMap.rank x]: the number of members less than or equal to [x]. *)
Definition bm_rank (b : bitmap) (x : N) : nat := size (filter (fun y => (y <= x)%N) b).

(** Python subscript of a sequence: a negative index counts from the end,
    out of range raises IndexError. *)
Definition py_nth {A} (l : list A) (i : Z) : res A :=
  let j := if (i <? 0)%Z then (i + Z.of_nat (length l))%Z else i in
  if (j <? 0)%Z then Err IndexError
  else match l !! Z.to_nat j with Some x => Ok x | None => Err IndexError end.

(** [BitMap[i]]: the i-th smallest member. *)
Definition bm_nth (b : bitmap) (i : Z) : res N := py_nth (bm_list b) i.

(** The members of the half-open range [a, b) as a BitMap. *)
Definition bm_range (a b : N) : bitmap :=
  list_to_set ((fun i => (a + N.of_nat i)%N) <$> seq 0 (N.to_nat (b - a))).

(** [BitMap.add_range(a, b)]: adds the half-open range [a, b); empty if b <= a. *)
Definition bm_add_range (x : bitmap) (a b : N) : bitmap := x ∪ bm_range a b.

(** [BitMap.range_cardinality(a, b)]: number of members in [a, b). *)
Definition bm_range_card (x : bitmap) (a b : N) : nat :=
  size (filter (fun y => (a <= y < b)%N) x).

(** ** Python list slicing *)

(** [l[i::n]] for [n >= 1]: every n-th element starting at index i. *)
Fixpoint stride_aux {A} (k n : nat) (l : list A) : list A :=
  match l with
  | [] => []
  | x :: r => match k with
              | 0 => x :: stride_aux (n - 1) n r
              | S k' => stride_aux k' n r
              end
  end.
Definition stride {A} (i n : nat) (l : list A) : list A := stride_aux i n l.

(** [l[a:b]] for non-negative bounds. *)
Definition slice {A} (a b : nat) (l : list A) : list A := take (b - a) (drop a l).

(** ** random.Random *)

(** The generator: an arbitrary stream of naturals and a read position. *)
Record rng := Rng { rsrc : nat -> nat; rpos : nat }.
Definition draw (g : rng) : nat * rng := (rsrc g (rpos g), Rng (rsrc g) (S (rpos g))).

(** [randbelow(n)], for n > 0. *)
Definition rand_below (n : nat) (g : rng) : nat * rng :=
  let '(r, g') := draw g in (r mod n, g').

(** [random() < p]: an arbitrary coin. Simplification: the probability is not modelled. *)
Definition rand_coin (g : rng) : bool * rng :=
  let '(r, g') := draw g in (Nat.odd r, g').

(** Remove the element at index [i]. *)
Definition remove_nth {A} (i : nat) (l : list A) : list A := take i l ++ drop (S i) l.

(** [k] draws without replacement from [l]. Used for both [random.sample(l, k)]
    and [random.shuffle(l)] (k = len(l)). Simplification: CPython's own selection
    algorithms differ, but like this one can produce every outcome and only
    outcomes of this form (k elements at distinct indices). *)
Fixpoint pick {A} (k : nat) (l : list A) (g : rng) : list A * rng :=
  match k with
  | 0 => ([], g)
  | S k' =>
      match l with
      | [] => ([], g)
      | _ =>
          let '(j, g1) := rand_below (length l) g in
          match l !! j with
          | Some x => let '(r, g2) := pick k' (remove_nth j l) g1 in (x :: r, g2)
          | None => ([], g1) (* unreachable: j < length l *)
          end
      end
  end.

Definition py_shuffle {A} (l : list A) (g : rng) : list A * rng := pick (length l) l g.
Definition py_sample {A} (l : list A) (k : nat) (g : rng) : list A * rng := pick k l g.

(** [random.choice(l)]: IndexError on an empty sequence. *)
Definition py_choice {A} (l : list A) (g : rng) : res A * rng :=
  match l with
  | [] => (Err IndexError, g)
  | _ => let '(j, g1) := rand_below (length l) g in
         (match l !! j with Some x => Ok x | None => Err IndexError end, g1)
  end.
