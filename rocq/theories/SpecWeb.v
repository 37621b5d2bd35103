(** SpecWeb.v: what a user of the web application expects of requests and pages, from the
    request itself and the stored tables only. *)
From Verif Require Export Web SpecQuery SpecConn.

(** The items given for a parameter: none, one or several. *)
Definition given (ps : params) (key : string) : list item :=
  match ps !! key with None => [] | Some (One x) => [x] | Some (Several l) => l end.

(** The numbers given for a parameter, if all of them are numbers. *)
Definition number (parse : string -> option Z) (x : item) : option Z :=
  match x with Int z => Some z | Text s => parse s end.
Definition numbers (parse : string -> option Z) (ps : params) (key : string) : option (list Z) :=
  mapM (number parse) (given ps key).

(** A flag such as pinned: on unless a number is given and it is 0. *)
Definition flag (parse : string -> option Z) (ps : params) (key : string) (b : bool) : Prop :=
  match ps !! key with
  | None => b = true
  | Some (One x) => exists z, number parse x = Some z /\ b = negb (z =? 0)%Z
  | Some (Several _) => False
  end.

(** A numeric setting: the default unless a number is given. *)
Definition setting (parse : string -> option Z) (ps : params) (key : string) (default z : Z) : Prop :=
  match ps !! key with
  | None => z = default
  | Some (One x) => number parse x = Some z
  | Some (Several _) => False
  end.

(** The page reached after [k] times following [next], if pages are displayed by [page]. *)
Fixpoint follow (next : Z -> option Z) (k : nat) (c : Z) : option Z :=
  match k with
  | 0 => Some c
  | S k' => match next c with Some c' => follow next k' c' | None => None end
  end.

(** A request the application lets through to a handler: by POST, to the only index, with
    parameters the handler has. *)
Definition accepted (parse : string -> option Z) (q : request) : Prop :=
  q_post q = true /\ parse (q_index q) = Some 0%Z /\
  forall names, takes (q_route q) = Some names -> forall key, is_Some (q_params q !! key) -> key ∈ names.

(** Whether an answer reports success. *)
Definition success (a : answer) : Prop := match a with Redirect _ => True | _ => False end.

(** The documents a cluster page is about. *)
Definition page_documents (d : db) (c : Z) (feature : option N) (filter_cluster : option Z) : gset N :=
  cluster_documents d c
  ∩ (match feature with Some f => feature_docs d f | None => cluster_documents d c end)
  ∩ (match filter_cluster with Some x => cluster_documents d x | None => cluster_documents d c end).

(** A line of the exported table: cluster, feature id, field, value, number of documents. *)
Definition export_line (d : db) (x : Z * N * string * value * N) : Prop :=
  let '(c, f, field, v, n) := x in
  assigned d f = Some c /\ exists row, inverted_index d !! f = Some row /\
    f_field row = field /\ f_value row = v /\ n = N.of_nat (size (f_doc_ids row)).
