(** SpecConcurrent.v: one transaction at a time. *)
From Verif Require Export Concurrent.

(** Running the transactions alone, one after the other, starting from a database, gives
    each the outcome it had and leaves a database. *)
Inductive one_at_a_time {A} : db -> list (entry A) -> db -> Prop :=
  | alone_nil d : one_at_a_time d [] d
  | alone_cons d e d1 es d2 : t_alone (e_txn e) d = (d1, e_result e) ->
      one_at_a_time d1 es d2 -> one_at_a_time d (e :: es) d2.

(** The order respects time: what had ended before another one started comes first. *)
Definition in_time_order {A} (order : list (entry A)) : Prop :=
  forall i j e1 e2, order !! i = Some e1 -> order !! j = Some e2 -> e_finish e1 < e_start e2 -> i < j.

(** All that was read for the transaction comes from one database. *)
Definition coherent {A} (e : entry A) : bool := bool_decide (Forall (fun x => e_sees e = x) (e_reads e)).

(** Only transactions with property [P] are started. *)
Definition only {A} (P : txn A -> Prop) (tr : list (action A)) : Prop :=
  forall i t, Begin i t ∈ tr -> P t.
