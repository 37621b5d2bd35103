(** Utilities.v: model of hyperreal/utilities.py. *)
From Verif Require Export Base.

(** utilities.py:51-76 [bstm], the loop over [reversed(range(len(bitslice)))].
    [slices] is the bitslice from the most significant layer down. *)
Fixpoint bstm_loop (slices : list bitmap) (e g : bitmap) (top_k : nat) : bitmap * bitmap :=
  match slices with
  | [] => (e, g)
  | b :: rest =>
      let x := g ∪ (e ∩ b) in
      let n := size x in
      if top_k <? n then bstm_loop rest (e ∩ b) g top_k
      else if n <? top_k then bstm_loop rest (e ∖ b) x top_k
      else (e ∩ b, g)
  end.

(** utilities.py:51-76 [bstm]. Simplification: top_k is a natural number. *)
Definition bstm (matching : bitmap) (bitslice : list bitmap) (top_k : nat) : bitmap :=
  if size matching <=? top_k then matching
  else let '(e, g) := bstm_loop (rev bitslice) matching ∅ top_k in g ∪ e.

(** utilities.py:99-104: the carry loop of [compute_bitslice] over the current
    slices; returns the updated slices and the final value of [carry]. *)
Fixpoint ripple (slices : list bitmap) (doc_ids : bitmap) : list bitmap * bitmap :=
  match slices with
  | [] => ([], doc_ids)
  | bs :: rest =>
      let carry := bs ∩ doc_ids in
      let bs' := (bs ∖ doc_ids) ∪ (doc_ids ∖ bs) in
      if bool_decide (carry = ∅) then (bs' :: rest, ∅)
      else let '(rest', c) := ripple rest carry in (bs' :: rest', c)
  end.

(** utilities.py:94-107: one iteration of the outer loop. *)
Definition bitslice_step (st : bitmap * list bitmap) (bitmap_in : bitmap) : bitmap * list bitmap :=
  let '(matching, slices) := st in
  let '(slices', carry) := ripple slices bitmap_in in
  (matching ∪ bitmap_in,
   if bool_decide (carry = ∅) then slices' else slices' ++ [carry]).

(** utilities.py:89-109 [compute_bitslice]. *)
Definition compute_bitslice (bitmaps : list bitmap) : bitmap * list bitmap :=
  foldl bitslice_step (∅, [∅]) bitmaps.

(** Python's order on (int, int) tuples. *)
Definition pair_le (x y : N * N) : Prop :=
  (x.1 < y.1)%N \/ (x.1 = y.1 /\ (x.2 <= y.2)%N).
#[global] Instance pair_le_dec : RelDecision pair_le.
Proof. intros x y. unfold pair_le. apply _. Defined.

(** utilities.py:119-122 [slice_gen]. *)
Definition slice_gen (layer : nat) (bm : bitmap) : list (N * N) :=
  (fun d => (d, (2 ^ N.of_nat layer)%N)) <$> bm_list bm.

(** utilities.py:125 [heapq.merge] of the per-layer generators.
    Simplification: heapq.merge is modelled as repeated two-way merging of sorted lists. *)
Definition merge_all (ls : list (list (N * N))) : list (N * N) :=
  foldr (list_merge pair_le) [] ls.

(** utilities.py:127-130 [itertools.groupby] on the document id, summing weights. *)
Fixpoint group_sum (l : list (N * N)) : list (N * N) :=
  match l with
  | [] => []
  | (k, v) :: r =>
      match group_sum r with
      | (k', s) :: r' => if (k =? k')%N then (k, v + s)%N :: r' else (k, v) :: (k', s) :: r'
      | [] => [(k, v)]
      end
  end.

(** utilities.py:112-130 [weight_bitslice]. *)
Definition weight_bitslice (bitslice : list bitmap) : list (N * N) :=
  group_sum (merge_all (imap slice_gen bitslice)).

(** utilities.py:148-157: state of the loop of [expand_positions_window]: the
    result so far and, once set, (doc_start, next_start). [None] stands for the
    initial next_start = -1. *)
Definition window_state : Type := bitmap * option (N * N).

Definition window_step (doc_boundaries : bitmap) (window_size : N)
    (st : window_state) (position : N) : res window_state :=
  let '(windowed, doc) := st in
  rbind
    (let reset :=
       let rank := Z.of_nat (bm_rank doc_boundaries position) in
       rbind (bm_nth doc_boundaries (rank - 1)) (fun doc_start =>
       rbind (bm_nth doc_boundaries rank) (fun next_start =>
       Ok (doc_start, next_start))) in
     match doc with
     | None => reset
     | Some (doc_start, next_start) =>
         if (next_start <=? position)%N then reset else Ok (doc_start, next_start)
     end)
    (fun '(doc_start, next_start) =>
       let end_range := (N.min next_start (position + window_size) + 1)%N in
       (* [position - window_size] may be negative in Python; the truncated
          subtraction gives the same maximum since doc_start >= 0. *)
       Ok (bm_add_range windowed (N.max doc_start (position - window_size)) end_range,
           Some (doc_start, next_start))).

(** utilities.py:133-159 [expand_positions_window]. *)
Definition expand_positions_window (positions doc_boundaries : bitmap) (window_size : N)
    : res bitmap :=
  if bool_decide (positions = ∅) then Ok ∅
  else rmap fst (rfold (window_step doc_boundaries window_size)
                       (bm_list positions) (positions, None)).

(** A Python datetime: calendar fields (tzinfo, which every [replace] keeps, and
    [fold] are not modelled). *)
Record datetime := DateTime {
  dt_year : N; dt_month : N; dt_day : N; dt_hour : N; dt_minute : N;
  dt_second : N; dt_micro : N }.

Inductive granularity := Minute | Hour | Day | Month | Year.

(** utilities.py:79-86 [round_datetime]: the value under each key of the result. *)
Definition round_datetime (d : datetime) (g : granularity) : datetime :=
  let minute := DateTime (dt_year d) (dt_month d) (dt_day d) (dt_hour d) (dt_minute d) 0 0 in
  let hour := DateTime (dt_year minute) (dt_month minute) (dt_day minute) (dt_hour minute) 0
                       (dt_second minute) (dt_micro minute) in
  let day := DateTime (dt_year hour) (dt_month hour) (dt_day hour) 0 (dt_minute hour)
                      (dt_second hour) (dt_micro hour) in
  let month := DateTime (dt_year day) (dt_month day) 1 (dt_hour day) (dt_minute day)
                        (dt_second day) (dt_micro day) in
  let year := DateTime (dt_year month) 1 (dt_day month) (dt_hour month) (dt_minute month)
                       (dt_second month) (dt_micro month) in
  match g with
  | Minute => minute | Hour => hour | Day => day | Month => month | Year => year
  end.
