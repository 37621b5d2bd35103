(** Controls.v: the forms, buttons and links of the pages (hyperreal/templates/*.html), what
    a browser sends when one is used, and the page that is then opened.
    Simplifications: a URL is a [target] or a route with parameters, not a text; the layout,
    and the links to the list of indexes, are left out. [show] is [str] of an integer. *)
From Verif Require Export Web.

(** ** What a form sends *)
Inductive input :=
  | Hidden (name value : string)                     (* <input type="hidden"> *)
  | Choose (name : string) (options : list string)   (* <select multiple>, checkboxes *)
  | Box (name initial : string).                     (* <input type="number">: anything may be typed *)
Record form := Form { f_label : string; f_route : route; f_inputs : list input }.

(** CherryPy, [process_urlencoded]: a name given once has a text as its value, one given
    several times the list of its texts. *)
Definition add_pair (ps : params) (kv : string * string) : params :=
  <[kv.1 := match ps !! kv.1 with
            | None => One (Text kv.2)
            | Some (One x) => Several [x; Text kv.2]
            | Some (Several l) => Several (l ++ [Text kv.2])
            end]> ps.
Definition decode_form (sent : list (string * string)) : params := foldl add_pair ∅ sent.

(** ** The page of a cluster *)

(** templates/cluster.html:25-101. The ids of the features the page lists are the options
    (line 43) and the hidden inputs of line 64: visible_features is taken from the same list
    (server.py:124). *)
Definition feature_ids (show : Z -> string) (p : cluster_page) : list string :=
  (fun f => show (Z.of_N f)) <$> (cp_features p).*1.*1.
Definition pin_inputs (show : Z -> string) (c : Z) (p : cluster_page) : list input :=
  [Hidden "return_to" "cluster"; Hidden "cluster_id" (show c);
   Hidden "pinned" (if cp_pinned p then "0" else "1")].
Definition cluster_forms (show : Z -> string) (c : Z) (p : cluster_page) : list form :=
  if cp_pinned p then [Form "Unpin Cluster" RPinClusters (pin_inputs show c p)] else
  let selection := [Hidden "cluster_id" (show c); Choose "feature_id" (feature_ids show p)] in
  [Form "Delete Selected Features" RRemove selection;
   Form "Create From Selected Features" RCreate selection;
   Form "Delete and go to next cluster" RDelete
     [Hidden "return_cluster_id" (show (cp_next p)); Hidden "cluster_id" (show c)]]
  ++ (if bool_decide (cp_features p = []) then [] else
      [Form "Create New Cluster From All Visible Features" RCreate
         (Hidden "feature_id" <$> feature_ids show p)])
  ++ [Form "Pin Cluster" RPinClusters (pin_inputs show c p);
      Form "Split Cluster" RRefine
        [Hidden "cluster_id" (show c); Hidden "return_to" "cluster"; Box "target_clusters" "2";
         Box "iterations" "10"; Box "minimum_cluster_features" "1"]].

(** Links: to a [target], or to a cluster filtered by another one (macros.html:73). *)
Inductive link := Go (t : target) | GoFiltered (c x : Z).

(** templates/cluster.html:15-22, 114; macros.html:1-12 with context "cluster". The links to
    the neighbours are there if one of the two ids is not 0. *)
Definition cluster_links (show : Z -> string) (c : Z) (p : cluster_page) : list (string * link) :=
  let at_cluster x := Go (ToCluster (One (Text (show x)))) in
  [("Model Overview", Go ToIndex); ("Cluster Overview", at_cluster c)]
  ++ (if (cp_prev p =? 0)%Z && (cp_next p =? 0)%Z then [] else
      [("Previous Cluster", at_cluster (cp_prev p)); ("Next Cluster", at_cluster (cp_next p))])
  ++ [("Pivot By Cluster", Go (ToIndexOf c))]
  ++ ((fun f => ("feature", Go (ToClusterFeature (One (Text (show c))) f))) <$> (cp_features p).*1.*1).

(** macros.html:85-102 [render_context_search] and server.py:426-445: the search form sends
    the cluster along [if cluster_id]. [on]: the cluster whose page the form is on. *)
Definition search_from (show : Z -> string) (d : db) (on : option Z) (field typed : string) : answer :=
  search d field typed
    match on with
    | Some c => if (c =? 0)%Z then None else Some (One (Text (show c)))
    | None => None
    end.

(** ** The overview of the model *)

(** templates/index.html:18-27 and macros.html:77-80: the check boxes of the clusters shown
    belong to the form. *)
Definition overview_forms (show : Z -> string) (o : overview) : list form :=
  let inputs := [Hidden "return_to" "model"; Box "target_clusters" "";
                 Choose "cluster_id" (show <$> (o_clusters o).*1)] in
  [Form "Refine Selected Clusters" RRefine inputs; Form "Delete Clusters" RDelete inputs;
   Form "Merge Clusters" RMerge inputs].

(** macros.html:59-83 [render_cluster]: [feature], [c]: the feature or cluster the overview
    was asked about ([highlight_feature_id], [highlight_cluster_id]). *)
Definition overview_links (show : Z -> string) (feature : option N) (c : option Z) (o : overview)
    : list (string * link) :=
  x ← o_clusters o;
  ((fun f => ("feature", Go (ToFeature f))) <$> x.2.*1.*1)
  ++ [match feature, c with
      | Some f, _ => ("Intersect selected feature", Go (ToClusterFeature (One (Text (show x.1))) f))
      | None, Some c => ("Intersect selected cluster", GoFiltered x.1 c)
      | None, None => ("See all in cluster", Go (ToCluster (One (Text (show x.1)))))
      end;
      ("Pivot", Go (ToIndexOf x.1))].

(** ** The page with the details of the index: templates/details.html:41-101. [fields]: the
    names in the table of fields; [n]: the number of clusters. *)
Definition details_forms (show : Z -> string) (fields : list string) (n : nat) : list form :=
  [Form "Recreate Model" RRecreate
     [Choose "include_fields" fields; Box "iterations" "10"; Box "min_docs" "10"; Box "clusters" "64";
      Box "minimum_cluster_features" "1"];
   Form "Refine Existing Model" RRefineModel
     [Box "iterations" "10"; Box "target_clusters" (show (Z.of_nat n)); Box "minimum_cluster_features" "1"]].

(** ** Opening a page *)
Inductive shown :=
  | AtCluster (c : Z) (p : page_answer cluster_page)
  | AtOverview (o : overview_answer)
  | AtError (e : exn).

(** The number in a URL: [int(cluster_id)]; the text of a list is not a number. *)
Definition url_number (parse : string -> option Z) (p : param) : option Z :=
  match p with
  | One (Int z) => Some z
  | One (Text s) => parse s
  | Several _ => None
  end.

(** The handlers with the defaults of their other parameters: server.py:53-62, 318-327. *)
Definition open_page (parse : string -> option Z) (rnd : Qc -> Qc) (workers : nat) (arrival : list nat)
    (g : rng) (d : db) (w : option web_corpus) (k : link) : shown :=
  let cluster c feature x := AtCluster c (cluster_page_of rnd workers arrival g d w c feature x 30 None) in
  let model feature c := AtOverview (overview_of rnd workers arrival g d w feature c 40 5 None) in
  let in_cluster p feature := match url_number parse p with
                              | Some c => cluster c feature None
                              | None => AtError ValueError
                              end in
  match k with
  | Go ToIndex => model None None
  | Go (ToCluster p) => in_cluster p None
  | Go (ToIndexOf c) => model None (Some c)
  | Go (ToFeature f) => model (Some f) None
  | Go (ToClusterFeature p f) => in_cluster p (Some f)
  | GoFiltered c x => cluster c None (Some x)
  end.

(** Pressing a button of a form: the request the browser makes. *)
Definition press (parse : string -> option Z) (index_id : string) (p : nat -> option nat) (g1 g2 : rng)
    (f : form) (sent : list (string * string)) (d : db) : db * answer :=
  serve parse p g1 g2 (Request true index_id (f_route f) (decode_form sent)) d.
