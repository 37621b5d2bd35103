(** SpecHistory.v: what a program of nested atomic methods is supposed to do, as a function
    on databases: an atomic part that raises has no effect at all. *)
From Verif Require Export History.

Fixpoint meaning (p : prog) (d : db) : db * res unit :=
  match p with
  | Stmts m => m d
  | Then p q => match meaning p d with
                | (d1, Ok _) => meaning q d1
                | (d1, Err e) => (d1, Err e)
                end
  | Raise e => (d, Err e)
  | Try p h => match meaning p d with
               | (d1, Ok u) => (d1, Ok u)
               | (d1, Err _) => meaning h d1
               end
  | Atomic _ _ p => match meaning p d with
                    | (d1, Ok u) => (d1, Ok u)
                    | (_, Err e) => (d, Err e)
                    end
  end.

(** Whether some method declared to write returned normally. *)
Fixpoint wrote (p : prog) (d : db) : bool :=
  match p with
  | Stmts _ | Raise _ => false
  | Then p q => match meaning p d with
                | (d1, Ok _) => wrote p d || wrote q d1
                | (_, Err _) => wrote p d
                end
  | Try p h => match meaning p d with
               | (_, Ok _) => wrote p d
               | (d1, Err _) => wrote p d || wrote h d1
               end
  | Atomic _ w p => match meaning p d with
                    | (_, Ok _) => wrote p d || w
                    | (_, Err _) => wrote p d
                    end
  end.
