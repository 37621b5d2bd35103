(** Cli.v: the command [hyperreal model] (hyperreal/cli.py:278-408), the command that indexes a
    corpus (cli.py:56-95), and the argument [working_dir] of [Index.index]
    (hyperreal/index.py:300-361, 536-556). *)
From Verif Require Export Web.

(** ** hyperreal model *)

(** The options. [--move-acceptance-probability]: any coin, see Base.v;
    [--group-test-batches] is not negative. *)
Record model_options := ModelOptions {
  m_iterations : Z; m_clusters : option Z; m_min_docs : Z; m_include_fields : list string;
  m_restart : bool; m_tolerance : Qc; m_min_features : Z; m_batches : option nat; m_top_k : nat }.

(** How the command ends: normally, aborted by the user, or with an exception. *)
Inductive ending := Finished | Aborted | Raised (e : exn).
#[global] Instance ending_eq_dec : EqDecision ending.
Proof. solve_decision. Defined.

(** [clusters or 64] *)
Definition clusters_or_default (c : option Z) : Z :=
  match c with None => 64 | Some n => if (n =? 0)%Z then 64 else n end.

(** cli.py:399-408: the refinement. *)
Definition refine_options (o : model_options) (clusters : option Z) : refine_args :=
  RefineArgs (Z.to_nat (m_iterations o)) None (Z.to_nat (m_min_features o)) None clusters
    (m_tolerance o) (m_batches o) (m_top_k o).
Definition run_refine (o : model_options) (clusters : option Z) (g : rng) (c : conn) : conn * ending :=
  match refine_clusters (refine_options o clusters) g c with
  | (c', Ok _) => (c', Finished)
  | (c', Err e) => (c', Raised e)
  end.
(** cli.py:377-386, 388-397. *)
Definition run_initialise (o : model_options) (g1 g2 : rng) (c : conn) : conn * ending :=
  let n := clusters_or_default (m_clusters o) in
  match initialise_clusters (Z.to_nat n) (m_min_docs o) (m_include_fields o) g1 c with
  | (c', Ok _) => run_refine o (Some n) g2 c'
  | (c', Err e) => (c', Raised e)
  end.

(** cli.py:344-408 [model]; [yes]: the answer to the question. *)
Definition cli_model (o : model_options) (yes : bool) (g1 g2 : rng) (c : conn) : conn * ending :=
  if bool_decide (cluster_ids (cur c) ≠ []) then
    if m_restart o then
      if yes then run_initialise o g1 g2 c else (c, Aborted)
    else run_refine o (m_clusters o) g2 c
  else run_initialise o g1 g2 c.

(** ** The argument working_dir *)

(** What the caller passes: nothing, a text, a [pathlib.Path], or an object of the type
    the code expects, with [name] and [cleanup] (a [tempfile.TemporaryDirectory]).
    [Path u]: [u] says whether its last component, which is all that [.name] gives, names
    a directory that can be written to from the current directory.
    Simplification: no [temp_index.db] is left there by an earlier call. *)
Inductive working_dir := DefaultDir | TextDir (s : string) | PathDir (u : bool) | TempDir.

(** index.py:333-343, 346-347, 536-551: an exception before the first commit: rollback,
    foreign keys on again, then [tempdir.cleanup()]. *)
Definition index_attribute_error : M unit := fun cn =>
  let '(cn0, _) := sql_foreign_keys false cn in
  match sql_begin cn0 with
  | (cn1, Err _) => (cn1, Err IndexingError)
  | (cn1, Ok _) =>
      let '(cn2, _) := sql_rollback cn1 in
      let '(cn3, _) := sql_foreign_keys true cn2 in (cn3, Err AttributeError)
  end.

(** [run_index_in] is [index(working_dir=wd)]. [str] has no [.name]: the call fails at once.
    A Path has no [.cleanup]: the [finally] clause raises whatever happened before. *)
Definition run_index_in (wd : working_dir) (batch_size : nat) (positions : bool) (c : corpus) (s : schedule)
    : M unit :=
  match wd with
  | DefaultDir | TempDir => run_index batch_size positions c s
  | TextDir t => if bool_decide (t = "") then run_index batch_size positions c s else index_attribute_error
  | PathDir false => index_attribute_error
  | PathDir true => fun cn =>
      match run_index batch_size positions c s cn with
      | (cn', Err IndexingError) => (cn', Err (if in_txn cn then IndexingError else AttributeError))
      | (cn', _) => (cn', Err AttributeError)
      end
  end.
