(** Web.v: the web application (hyperreal/server.py).
    Simplifications: [int(text)] is an arbitrary function [parse] from texts to integers
    that may fail; routing, templates and headers of CherryPy are not modelled; requests
    are served one after the other; the parameters of a POST request are in its body.
    The forms and links of the templates are in Controls.v. *)
From Verif Require Export History Query Passages.

(** ** Parameters *)

(** A parameter is a text, a number (once converted) or, when it is repeated or has been
    converted by [ensure_list], a list of such. *)
Inductive item := Text (s : string) | Int (z : Z).
#[global] Instance item_eq_dec : EqDecision item.
Proof. solve_decision. Defined.
Inductive param := One (x : item) | Several (l : list item).
#[global] Instance param_eq_dec : EqDecision param.
Proof. solve_decision. Defined.
Definition params := gmap string param.

(** [int(x)] and [str(x)] (of a text). *)
Definition int_item (parse : string -> option Z) (x : item) : res item :=
  match x with
  | Int z => Ok (Int z)
  | Text s => match parse s with Some z => Ok (Int z) | None => Err ValueError end
  end.
Definition str_item (x : item) : res item := Ok x.

(** server.py:37-48 [ensure_list]. *)
Definition ensure_one (ps : params) (kc : string * (item -> res item)) : res params :=
  let '(key, converter) := kc in
  match ps !! key with
  | None => Ok (<[key := Several []]> ps)
  | Some (Several l) => rmap (fun l' => <[key := Several l']> ps) (rtraverse converter l)
  | Some (One x) => rmap (fun y => <[key := Several [y]]> ps) (converter x)
  end.
Definition ensure_list (kwargs : list (string * (item -> res item))) (ps : params) : res params :=
  rfold ensure_one kwargs ps.

(** [int(parameter)]: the default is used when it is missing; a list raises. *)
Definition int_param (parse : string -> option Z) (ps : params) (key : string) (default : Z) : res Z :=
  match ps !! key with
  | None => Ok default
  | Some (One (Int z)) => Ok z
  | Some (One (Text s)) => match parse s with Some z => Ok z | None => Err ValueError end
  | Some (Several _) => Err TypeError
  end.
(** Truth of a value in Python. *)
Definition truthy (p : option param) : bool :=
  match p with
  | None => false
  | Some (One (Text s)) => negb (bool_decide (s = ""))
  | Some (One (Int z)) => negb (z =? 0)%Z
  | Some (Several l) => negb (bool_decide (l = []))
  end.
(** [if target_clusters: int(target_clusters) else None] *)
Definition target_param (parse : string -> option Z) (ps : params) (default : Z) : res (option Z) :=
  match ps !! "target_clusters" with
  | None => Ok (if (default =? 0)%Z then None else Some default)
  | p => if truthy p then rmap Some (int_param parse ps "target_clusters" default) else Ok None
  end.

(** The numbers / texts of a converted list parameter. *)
Definition ints (ps : params) (key : string) : list Z :=
  match ps !! key with
  | Some (Several l) => omap (fun x => match x with Int z => Some z | Text _ => None end) l
  | _ => []
  end.
Definition texts (ps : params) (key : string) : list string :=
  match ps !! key with
  | Some (Several l) => omap (fun x => match x with Text s => Some s | Int _ => None end) l
  | _ => []
  end.
(** Feature numbers. Simplification: a negative number, which no feature has, is
    replaced by 0, which no feature has either (rowids start at 1). *)
Definition feature_numbers (ps : params) (key : string) : list N := Z.to_N <$> ints ps key.

(** ** Requests that change the model *)
Inductive target :=
  | ToIndex                          (* /index/<index_id> *)
  | ToCluster (c : param)            (* /index/<index_id>/cluster/<c> *)
  | ToIndexOf (c : Z)                (* /index/<index_id>/?cluster_id=<c> *)
  | ToFeature (f : N)                (* /index/<index_id>/?feature_id=<f> *)
  | ToClusterFeature (c : param) (f : N). (* /index/<index_id>/cluster/<c>?feature_id=<f> *)
#[global] Instance target_eq_dec : EqDecision target.
Proof. solve_decision. Defined.

Inductive route :=
  | RDelete | RCreate | RMerge | RRefine | RPinClusters   (* cluster/... *)
  | RRemove | RPinFeatures                                 (* feature/... *)
  | RRecreate | RRefineModel.
#[global] Instance route_eq_dec : EqDecision route.
Proof. solve_decision. Defined.

(** The [ensure_list] tool of each handler. *)
Definition list_params (parse : string -> option Z) (r : route) : list (string * (item -> res item)) :=
  match r with
  | RDelete | RMerge | RRefine | RPinClusters => [("cluster_id", int_item parse)]
  | RCreate | RRemove | RPinFeatures => [("feature_id", int_item parse)]
  | RRecreate => [("include_fields", str_item)]
  | RRefineModel => []
  end.

(** server.py:246-251, 266-271: [cluster_id[0]] raises IndexError on an empty list. *)
Definition return_to (ps : params) : M target := fun c =>
  match ints ps "cluster_id" with
  | [] => (c, Err IndexError)
  | x :: _ => (c, Ok (if match ps !! "return_to" with
                         | None => true
                         | Some p => bool_decide (p = One (Text "cluster"))
                         end
                      then ToCluster (One (Int x)) else ToIndexOf x))
  end.
(** server.py:284-287, 303-306. *)
Definition to_cluster_or_index (ps : params) : target :=
  match ps !! "cluster_id" with Some p => ToCluster p | None => ToIndex end.

(** The defaults of [refine_clusters] not set by the handlers (index.py:1651-1663). *)
Definition refine_with (iterations : Z) (sel : option (list Z)) (min_features : Z) (target : option Z) : refine_args :=
  RefineArgs (Z.to_nat iterations) sel (Z.to_nat min_features) None target (Qof 1 / Qof 20)%Qc None 2.

Definition lift {A} (r : res A) : M A := fun c => (c, r).

(** The handlers: server.py:193-203, 205-212, 214-221, 223-251, 253-271, 279-287, 289-306,
    489-518, 520-543. [g1], [g2]: the random numbers drawn (the index of a request has no
    fixed seed). [int(pinned)] is stored as given; what matters is whether it is zero. *)
Definition handle (parse : string -> option Z) (g1 g2 : rng) (r : route) (ps : params) : M target :=
  match r with
  | RDelete =>
      pbind (delete_clusters (ints ps "cluster_id")) (fun _ =>
      pret (if truthy (ps !! "return_cluster_id")
            then match ps !! "return_cluster_id" with Some p => ToCluster p | None => ToIndex end
            else ToIndex))
  | RCreate =>
      pbind (create_cluster_from_features (feature_numbers ps "feature_id")) (fun id =>
      pret (ToCluster (One (Int id))))
  | RMerge =>
      pbind (merge_clusters (ints ps "cluster_id")) (fun id => pret (ToCluster (One (Int id))))
  | RRefine =>
      pbind (lift (target_param parse ps 0)) (fun target =>
      pbind (lift (int_param parse ps "minimum_cluster_features" 1)) (fun mcf =>
      pbind (lift (int_param parse ps "iterations" 10)) (fun it =>
      pbind (refine_clusters (refine_with it (Some (ints ps "cluster_id")) mcf target) g1) (fun _ =>
      return_to ps))))
  | RPinClusters =>
      pbind (lift (int_param parse ps "pinned" 1)) (fun pinned =>
      pbind (pin_clusters (ints ps "cluster_id") (negb (pinned =? 0)%Z)) (fun _ => return_to ps))
  | RRemove =>
      pbind (delete_features (feature_numbers ps "feature_id")) (fun _ => pret (to_cluster_or_index ps))
  | RPinFeatures =>
      pbind (lift (int_param parse ps "pinned" 1)) (fun pinned =>
      pbind (pin_features (feature_numbers ps "feature_id") (negb (pinned =? 0)%Z)) (fun _ =>
      pret (to_cluster_or_index ps)))
  | RRecreate =>
      pbind (lift (int_param parse ps "clusters" 64)) (fun n =>
      pbind (lift (int_param parse ps "min_docs" 10)) (fun md =>
      pbind (initialise_clusters (Z.to_nat n) md (texts ps "include_fields") g1) (fun _ =>
      pbind (lift (int_param parse ps "iterations" 10)) (fun it =>
      pbind (lift (int_param parse ps "minimum_cluster_features" 1)) (fun mcf =>
      pbind (refine_clusters (refine_with it None mcf None) g2) (fun _ => pret ToIndex))))))
  | RRefineModel =>
      pbind (lift (target_param parse ps 0)) (fun target =>
      pbind (lift (int_param parse ps "iterations" 10)) (fun it =>
      pbind (lift (int_param parse ps "minimum_cluster_features" 1)) (fun mcf =>
      pbind (refine_clusters (refine_with it None mcf target) g1) (fun _ => pret ToIndex))))
  end.

(** A request and the answer to it. *)
Record request := Request {
  q_post : bool;            (* method POST *)
  q_index : string;         (* index_id *)
  q_route : route;
  q_params : params }.
Inductive answer :=
  | Redirect (t : target)
  | HttpError (code : nat)
  | Crashed (e : exn).      (* reported as status 500 *)
#[global] Instance answer_eq_dec : EqDecision answer.
Proof. solve_decision. Defined.

(** The parameters a handler takes besides index_id, as in its signature; [None]: any
    ([**params]). server.py:196, 208, 217, 226-234, 256, 282, 292, 492-500, 522-528. *)
Definition takes (r : route) : option (list string) :=
  match r with
  | RDelete | RCreate | RMerge => None
  | RRefine => Some ["cluster_id"; "target_clusters"; "iterations"; "return_to"; "minimum_cluster_features"]
  | RPinClusters => Some ["cluster_id"; "pinned"; "return_to"]
  | RRemove => Some ["feature_id"; "cluster_id"]
  | RPinFeatures => Some ["feature_id"; "cluster_id"; "pinned"]
  | RRecreate => Some ["include_fields"; "min_docs"; "clusters"; "iterations"; "minimum_cluster_features"]
  | RRefineModel => Some ["iterations"; "target_clusters"; "minimum_cluster_features"]
  end.
Definition takes_all (r : route) (ps : params) : bool :=
  match takes r with
  | None => true
  | Some names => bool_decide (dom ps ⊆ (list_to_set names : gset string))
  end.

(** server.py:22-35, 593-604: the index of the request is opened on the file for
    this request only and closed at its end, whatever happened; what was not committed is
    lost. Index 0 is the only one. A parameter the handler does not take is answered with
    400 by CherryPy, before the handler runs. [p]: how the worker pool behaves during the request.
    The result is the database on disk and the answer. *)
Definition serve (parse : string -> option Z) (p : nat -> option nat) (g1 g2 : rng) (q : request) (d : db)
    : db * answer :=
  if negb (q_post q) then (d, HttpError 405) else
  match parse (q_index q) with
  | None => (d, Crashed ValueError)
  | Some i =>
      if negb (i =? 0)%Z then (d, HttpError 404) else
      match ensure_list (list_params parse (q_route q)) (q_params q) with
      | Err e => (d, Crashed e)
      | Ok ps =>
          if negb (takes_all (q_route q) (q_params q)) then (d, HttpError 400) else
          let '(c, r) := handle parse g1 g2 (q_route q) ps (open_index d p) in
          (disk c, match r with Ok t => Redirect t | Err e => Crashed e end)
      end
  end.

(** A sequence of requests, each with its pool and random numbers. *)
Record visit := Visit { v_request : request; v_pool : nat -> option nat; v_g1 : rng; v_g2 : rng }.
Fixpoint serve_all (parse : string -> option Z) (vs : list visit) (d : db) : db * list answer :=
  match vs with
  | [] => (d, [])
  | v :: vs' =>
      let '(d1, a) := serve parse (v_pool v) (v_g1 v) (v_g2 v) (v_request v) d in
      let '(d2, l) := serve_all parse vs' d1 in (d2, a :: l)
  end.

(** ** Pages *)

(** server.py:72-83: the neighbours of a cluster; [l[-1]] is the last element. *)
Definition position_of (c : Z) (l : list Z) : option nat := fst <$> list_find (fun x => x = c) l.
Definition neighbours (l : list Z) (c : Z) : option (Z * Z) :=
  match position_of c l with
  | None => None
  | Some i =>
      let prev := default 0%Z (if i =? 0 then last l else l !! (i - 1)) in
      let next := default 0%Z (l !! (if i <? length l - 1 then i + 1 else 0)) in
      Some (prev, next)
  end.

(** What is shown of the matching documents: nothing (no corpus), documents (id and key),
    the passages matching a query, or concordance lines per document, field and value. *)
Inductive view :=
  | NoResults
  | Documents (docs : list (value * N))
  | Passages (query : list (list N))
  | Concordances (lines : list (value * N * list (string * list (value * list string)))).

(** The corpus of the server, and what it can do. [WebRenderableCorpus] is needed for
    documents (index.py:791). *)
Record web_corpus := WebCorpus { w_docs : corpus; w_html : bool }.

(** index.py:791-805 [render_docs_html]; [random_sample_size] is always given. *)
Definition render_docs (d : db) (w : web_corpus) (query : bitmap) (sample : Z) (g : rng)
    : res (list (value * N)) :=
  if w_html w then rbind (sample_bitmap query sample g).1 (query_keys d) else Err UnsupportedCorpusOperation.

(** index.py:695-722 [concordances], here without sampling: the values of each window that
    are not None are joined as texts, which raises for an integer. *)
Definition concordances (d : db) (w : web_corpus) (query : bitmap) (refs : list feature_ref) (window : nat)
    : res (list (value * N * list (string * list (value * list string)))) :=
  rbind (feature_windows d (w_docs w) query refs window) (rtraverse (fun '(key, doc, fields) =>
    rmap (fun l => (key, doc, l)) (rtraverse (fun '(field, m) =>
      rmap (fun l => (field, l)) (rtraverse (fun '(v, ws) =>
        rmap (fun l => (v, l)) (rtraverse (fun win => join_spaces (filter (fun x => x ≠ None) win)) ws)) (map_to_list m))) fields))).

(** server.py:126-147, 377-399: what the page shows: with "concordance" the concordances
    are computed, and then, the second test being a new [if], replaced by documents. *)
Definition results_of (d : db) (w : option web_corpus) (kind : string) (query : bitmap)
    (refs : list feature_ref) (passage_query : list (list N)) (sample : Z) (g : rng) : res view :=
  match w with
  | None => Ok NoResults
  | Some w =>
      rbind (if bool_decide (kind = "concordance")
             then rmap Concordances (rbind (sample_bitmap query sample g).1 (fun s => concordances d w s refs 15))
             else Ok NoResults) (fun _ =>
      if bool_decide (kind = "passage") then Ok (Passages passage_query)
      else rmap Documents (render_docs d w query sample g))
  end.

(** server.py:63-65: [result_type or "document"]. *)
Definition result_kind (result_type : option string) : string :=
  match result_type with None => "document" | Some s => if bool_decide (s = "") then "document" else s end.

Record cluster_page := ClusterPage {
  cp_features : list (N * string * value);
  cp_total : nat; cp_prev : Z; cp_next : Z; cp_pinned : bool; cp_shown : view }.
Inductive page_answer (A : Type) := Page (a : A) | PageError (code : nat) | PageCrashed (e : exn).
Arguments Page {A} a. Arguments PageError {A} code. Arguments PageCrashed {A} e.

(** Documents of a cluster, as the handlers use them: None in an intersection raises. *)
Definition docs_or_type_error (d : db) (c : Z) : res bitmap :=
  rbind (cluster_docs d c) (fun x => match x with Some b => Ok b | None => Err TypeError end).

(** server.py:51-169 [Cluster.index], parameters already converted to numbers, jaccard
    scoring. [rnd], [workers], [arrival]: see Query.v. *)
Definition cluster_page_of (rnd : Qc -> Qc) (workers : nat) (arrival : list nat) (g : rng)
    (d : db) (w : option web_corpus) (c : Z) (feature : option N) (filter_cluster : option Z)
    (sample : Z) (result_type : option string) : page_answer cluster_page :=
  match neighbours (cluster_ids d) c with
  | None => PageError 404
  | Some (prev, next) =>
      let fs := cluster_features d c None in
      match
        rbind (docs_or_type_error d c) (fun q0 =>
        let q1 := match feature with Some f => q0 ∩ docs_of d f | None => q0 end in
        rbind (match filter_cluster with
               | Some fc => rbind (docs_or_type_error d fc) (fun x => Ok (q1 ∩ x))
               | None => Ok q1
               end) (fun query =>
        let others := match filter_cluster with Some fc => cluster_features d fc None | None => [] end in
        let refs := ((fun r : N * string * value * N => ByKey r.1.1.2 r.1.2) <$> fs)
                    ++ match feature with Some f => [ById f] | None => [] end
                    ++ ((fun r : N * string * value * N => ByKey r.1.1.2 r.1.2) <$> others) in
        let pq := [fs.*1.*1.*1] ++ match feature with Some f => [[f]] | None => [] end
                  ++ match filter_cluster with Some _ => [others.*1.*1.*1] | None => [] end in
        rbind (pivot_clusters_by_query rnd workers arrival d query (Some [c]) (length fs)) (fun sorted =>
        let listed := match sorted with
                      | (_, _, rows) :: _ => rows.*1
                      | [] => fs.*1
                      end in
        rbind (results_of d w (result_kind result_type) query refs pq sample g) (fun s =>
        Ok (ClusterPage listed (size query) prev next (bool_decide (c ∈ pinned_cluster_ids d)) s)))))
      with
      | Ok p => Page p
      | Err e => PageCrashed e
      end
  end.

(** server.py:317-424 [Index.index]: the model overview. [OverviewOf rows total]: clusters with
    their listed features. *)
Record overview := Overview {
  o_clusters : list (Z * list (N * string * value)); o_total : nat; o_shown : view }.
Inductive overview_answer := OverviewPage (o : overview) | ToDetails | OverviewCrashed (e : exn).
Definition overview_of (rnd : Qc -> Qc) (workers : nat) (arrival : list nat) (g : rng)
    (d : db) (w : option web_corpus) (feature : option N) (c : option Z) (top_k : nat)
    (sample : Z) (result_type : option string) : overview_answer :=
  match cluster_ids d with
  | [] => ToDetails
  | _ =>
      match
        rbind (match feature, c with
               | Some f, _ => Ok (Some (docs_of d f, [ById f], [[f]]))
               | None, Some c =>
                   rbind (cluster_docs d c) (fun docs =>
                   let fs := cluster_features d c None in
                   Ok ((fun q => (q, (fun r : N * string * value * N => ByKey r.1.1.2 r.1.2) <$> fs, [fs.*1.*1.*1])) <$> docs))
               | None, None => Ok None
               end) (fun query =>
        match query with
        | Some (q, refs, pq) =>
            if bool_decide (q = ∅) then
              Ok (Overview ((fun x => (x.1.1, x.2.*1)) <$> top_cluster_features d top_k) 0 NoResults)
            else
              rbind (pivot_clusters_by_query rnd workers arrival d q None top_k) (fun rows =>
              rbind (results_of d w (result_kind result_type) q refs pq sample g) (fun s =>
              Ok (Overview ((fun x => (x.1.1, x.2.*1)) <$> rows) (size q) s)))
        | None => Ok (Overview ((fun x => (x.1.1, x.2.*1)) <$> top_cluster_features d top_k) 0 NoResults)
        end)
      with
      | Ok o => OverviewPage o
      | Err e => OverviewCrashed e
      end
  end.

(** server.py:171-184, 426-445 [search]: the value searched for is the text typed in. *)
Definition search (d : db) (field value_text : string) (c : option param) : answer :=
  match lookup_feature_id d (field, VText value_text) with
  | Err e => Crashed e
  | Ok f => Redirect (match c with Some p => ToClusterFeature p f | None => ToFeature f end)
  end.

(** server.py:464-487 and cli.py:457-474 [export_clusters]: the rows below the header.
    [top_k or 2**62]. *)
Definition export_clusters (d : db) (top_k : nat) : list (Z * N * string * value * N) :=
  x ← top_cluster_features d top_k;
  (fun r : N * string * value * N => (x.1.1, r.1.1.1, r.1.1.2, r.1.2, r.2)) <$> x.2.
Definition no_limit_of (_ : unit) : nat := N.to_nat (2 ^ 62). (* a function, so that it is not computed *)
Notation no_limit := (no_limit_of ()).
Definition web_export (d : db) := export_clusters d no_limit.
Definition cli_export (d : db) (top_k_features : nat) :=
  export_clusters d (if top_k_features =? 0 then no_limit else top_k_features).
