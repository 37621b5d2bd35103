(** SpecControls.v: what a user expects of the buttons and links of a page. *)
From Verif Require Export SpecWeb Controls.

(** What a browser sends for a form that has been filled in: hidden inputs as they are, any
    of the options of a selection, whatever was typed into a box. *)
Inductive fills : input -> list (string * string) -> Prop :=
  | fills_hidden name v : fills (Hidden name v) [(name, v)]
  | fills_choose name options chosen : chosen `sublist_of` options ->
      fills (Choose name options) ((fun v => (name, v)) <$> chosen)
  | fills_box name initial typed : fills (Box name initial) [(name, typed)].
Definition sends (f : form) (sent : list (string * string)) : Prop :=
  exists parts, Forall2 fills (f_inputs f) parts /\ sent = concat parts.

(** The values sent for a name. *)
Definition values (sent : list (string * string)) (name : string) : list string :=
  (filter (fun kv => kv.1 = name) sent).*2.

(** [int] undoes [str], reads the digits 0 and 1, and the empty text is no number. *)
Definition python_ints (parse : string -> option Z) (show : Z -> string) : Prop :=
  (forall z, parse (show z) = Some z) /\ parse "0" = Some 0%Z /\ parse "1" = Some 1%Z /\ parse "" = None.

(** An index as indexing leaves it: every document has a key of its own. *)
Definition keyed (d : db) : Prop :=
  (forall i j k, doc_key d !! i = Some k -> doc_key d !! j = Some k -> i = j) /\
  forall f row doc, inverted_index d !! f = Some row -> doc ∈ f_doc_ids row -> is_Some (doc_key d !! doc).

(** [p] is a page of cluster [c], as the application shows it: perhaps restricted to the
    documents of a feature or of another cluster, with any kind of result. *)
Definition shown_page (d : db) (c : Z) (p : cluster_page) : Prop :=
  exists rnd workers arrival g w feature filter_cluster n kind,
    rounding rnd /\ 0 < workers /\ arrival ≡ₚ seq 0 (workers * 2) /\
    (forall x, w = Some x -> w_html x = true) /\ (0 <= n)%Z /\
    cluster_page_of rnd workers arrival g d w c feature filter_cluster n kind = Page p.
(** The features a page lists. *)
Definition listed (p : cluster_page) : list N := (cp_features p).*1.*1.

(** A page is not an error. Without a model the overview leads to the details of the index. *)
Definition page_fine (s : shown) : Prop :=
  match s with
  | AtCluster _ (Page _) => True
  | AtOverview (OverviewPage _) | AtOverview ToDetails => True
  | _ => False
  end.
(** The page behind a link opens, whatever the rounding, the workers and the order of their
    answers, the random numbers and the corpus (if it can show documents at all). *)
Definition opens (parse : string -> option Z) (d : db) (k : link) : Prop :=
  forall rnd workers arrival g w,
    rounding rnd -> 0 < workers -> arrival ≡ₚ seq 0 (workers * 2) -> (forall x, w = Some x -> w_html x = true) ->
    page_fine (open_page parse rnd workers arrival g d w k).
(** ... and is the page of a certain cluster. *)
Definition leads_to_cluster (parse : string -> option Z) (t : target) (c : Z) : Prop :=
  exists p, t = ToCluster p /\ url_number parse p = Some c.

(** [o] is an overview as the application shows it, of the documents of a feature or of a
    cluster if one was chosen. *)
Definition shown_overview (d : db) (feature : option N) (c : option Z) (o : overview) : Prop :=
  exists rnd workers arrival g w k n kind,
    rounding rnd /\ 0 < workers /\ arrival ≡ₚ seq 0 (workers * 2) /\ 0 < k /\
    overview_of rnd workers arrival g d w feature c k n kind = OverviewPage o.
