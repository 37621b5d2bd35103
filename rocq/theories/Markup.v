(** Markup.v: the HTML of the pages and of the documents shown on them (hyperreal/templates/
    *.html and the templates in hyperreal/corpus.py:548-599, 959-985). Written by
    tools/gen_markup.py from the templates: the literal texts are theirs, to the character.
    Simplifications: of each page the content block is modelled, without the layout around it
    (base.html), which shows nothing of the corpus; an expression stands for the text Jinja
    makes of it ([str]), and ids are compared by their texts; matrices of concordances
    (macros.html:15-56) are left out, as no page shows them (see C77). *)
From Coq Require Export Ascii String.
From stdpp Require Export base list strings.
Open Scope string_scope.
Open Scope list_scope.

(** A piece of a template: its own text; a value that Jinja escapes (autoescape is on for the
    pages, server.py:17-19, and off in the templates of corpus.py, except for [| e]); or a
    value that is put in as it is. *)
Inductive piece := Lit (s : string) | Esc (s : string) | Raw (s : string).

(** markupsafe.escape. *)
Definition escape_char (c : ascii) : string :=
  if Ascii.eqb c "&" then "&amp;"
  else if Ascii.eqb c "<" then "&lt;"
  else if Ascii.eqb c ">" then "&gt;"
  else if Ascii.eqb c "'" then "&#39;"
  else if Ascii.eqb c """" then "&#34;"
  else String c "".
Fixpoint escape (s : string) : string :=
  match s with "" => "" | String c s => (escape_char c +:+ escape s)%string end.

Definition piece_text (p : piece) : string :=
  match p with Lit s => s | Esc s => escape s | Raw s => s end.
Fixpoint render (ps : list piece) : string :=
  match ps with [] => "" | p :: ps => (piece_text p +:+ render ps)%string end.
Definition each {A} (l : list A) (f : A -> list piece) : list piece := concat (List.map f l).

(** A document as the corpus renders it: a text (PlainTextSqliteCorpus, corpus.py:218-220),
    which the page escapes, or [Markup], which it does not. *)
Inductive shown_doc := Plain (s : string) | Marked (s : string).
Definition doc_piece (d : shown_doc) : piece := match d with Plain s => Esc s | Marked s => Raw s end.

(** What the templates are given. A feature: id, field, value, score. *)
Record feature_item := FI { fi_id : string; fi_field : string; fi_value : string; fi_score : string }.
(** A passage: its fields, each with the texts shown for it. *)
Definition passage_item := list (string * list string).
Inductive results := Documents (l : list shown_doc) | PassagesOf (l : list passage_item).
Definition results_empty (r : results) : bool :=
  match r with Documents [] => true | PassagesOf [] => true | _ => false end.
(** [score is not none]: a cluster with its score and features. *)
Record cluster_item := CI { ci_id : string; ci_score : option string; ci_features : list feature_item }.
Definition same_id (a : string) (b : option string) : bool := bool_decide (b = Some a).

(** templates/macros.html:1-11 [render_feature]. [cluster]: the cluster, if the page is that of a cluster. *)
Definition render_feature (index_id : string) (cluster : option string) (f : feature_item) (chosen : option string) : list piece :=
   [Lit "
<div>
    <a href=""/index/";
    Esc index_id;
    Lit "/";
    Esc (match cluster with Some c => ("cluster/" +:+ c +:+ "/")%string | None => "" end);
    Lit "?feature_id=";
    Esc (fi_id f);
    Lit """>
        <div class=""feature"">
            <span class=""field"">";
    Esc (fi_field f);
    Lit "</span>
            <div class=""value"]
   ++ (if same_id (fi_id f) chosen then [Lit " highlight"]
       else [])
   ++ [Lit """>";
    Esc (fi_value f);
    Lit "</div>
            <span class=""score"">";
    Esc (fi_score f);
    Lit "</span>
        </div>
    </a>
</div>"].

(** templates/macros.html:111-120 [render_passage]. *)
Definition render_passage (passage : passage_item) : list piece :=
   [Lit "<dl>
    "]
   ++ each passage (fun x =>
       [Lit "
        "]
       ++ each x.2 (fun v =>
           [Lit "
        <dt>";
            Esc x.1;
            Lit "</dt>
        <dd>";
            Esc v;
            Lit "</dd>
        "])
       ++ [Lit "
    "])
   ++ [Lit "
</dl>"].

(** templates/macros.html:123-142 [render_search_results]; the tuples are without the ids. The first branch is never taken (C77). *)
Definition render_results (r : results) : list piece :=
   (match r with
       | PassagesOf l => [Lit "
        <ul class=""doc-list"">
            "]
       ++ each l (fun p =>
           [Lit "
            <li>"]
           ++ render_passage p
           ++ [Lit "</li>
            "])
       ++ [Lit "
        </ul>  

    "]
       | Documents l => [Lit "
        <ul class=""doc-list"">
            "]
       ++ each l (fun d =>
           [Lit "
            <li>";
            doc_piece d;
            Lit "</li>
            "])
       ++ [Lit "
        </ul>
    "]
       end).

(** templates/macros.html:59-89 [render_cluster]. [here]: on the page of a cluster; [chosen_cluster], [chosen]: what the page was asked about. *)
Definition render_cluster (index_id : string) (here : bool) (x : cluster_item) (chosen_cluster chosen : option string) : list piece :=
   [Lit "<div class=""feature-cluster"">
    <div class=""cluster-header "]
   ++ (if same_id (ci_id x) chosen_cluster then [Lit "highlight"]
       else [])
   ++ [Lit """>
        Cluster ";
    Esc (ci_id x);
    Lit " "]
   ++ (match ci_score x with
       | Some s => [Lit "- ";
        Esc s]
       | None => []
       end)
   ++ [Lit "
    </div>
    <ul class=""compact-cluster"">
        "]
   ++ each (ci_features x) (fun f =>
       [Lit "
        <li >
            "]
       ++ render_feature index_id (if here then Some (ci_id x) else None) f chosen
       ++ [Lit "
        </li>
        "])
   ++ [Lit "
    </ul>

    "]
   ++ (if negb here then [Lit "
    <div class=""cluster-footer"">
        "]
       ++ (match chosen with
           | Some f => [Lit "
        <a href=""/index/";
            Esc index_id;
            Lit "/cluster/";
            Esc (ci_id x);
            Lit "/?feature_id=";
            Esc f;
            Lit """>Intersect selected feature</a>
        "]
           | None => (match chosen_cluster with
               | Some c => [Lit "
        <a href=""/index/";
                Esc index_id;
                Lit "/cluster/";
                Esc (ci_id x);
                Lit "/?filter_cluster_id=";
                Esc c;
                Lit """>Intersect selected cluster</a>
        "]
               | None => [Lit "
        <a href=""/index/";
                Esc index_id;
                Lit "/cluster/";
                Esc (ci_id x);
                Lit """/>See  all in cluster</a>
        "]
               end)
           end)
       ++ [Lit "
        <a href=""/index/";
        Esc index_id;
        Lit "/?cluster_id=";
        Esc (ci_id x);
        Lit """>Pivot</a>
        <label>
            Select for editing:
            <input type=""checkbox"" form=""cluster_edit"" name=""cluster_id"" value=""";
        Esc (ci_id x);
        Lit """>
        </label>
    </div>
    "]
       else [])
   ++ [Lit "
</div>"].

(** templates/macros.html:91-108 [render_context_search]. [cluster]: the id, if it is there and not 0. *)
Definition render_context_search (index_id : string) (fields : list string) (cluster : option string) : list piece :=
   [Lit "<div class=""feature-search"">
    <form method=""get"" action=""/index/";
    Esc index_id;
    Lit "/search"">
        <label for=""target_field"">Search field:</label>
        <select name=""field"" id=""target_field"">
            "]
   ++ each fields (fun x =>
       [Lit "
            <option value=""";
        Esc x;
        Lit """>";
        Esc x;
        Lit "</option>
            "])
   ++ [Lit "
        </select>
        <label for=""site-search"">for</label>
        <input type=""search"" id=""target_value"" name=""value"" />
        <button type=""submit"">Search</button>
        "]
   ++ (match cluster with
       | Some c => [Lit "
        <input type=""hidden"" name=""cluster_id"" value=""";
        Esc c;
        Lit """/>
        "]
       | None => []
       end)
   ++ [Lit "
    </form>
</div>"].

(** templates/index.html:13-48. [sample]: not all of the documents are shown; [total]: how many there are. *)
Definition overview_content (index_id : string) (fields : list string) (sample : bool) (total : string) (found : results)
    (clusters : list cluster_item) (chosen_cluster chosen : option string) : list piece :=
   [Lit "
"]
   ++ render_context_search index_id fields None
   ++ [Lit "

<details>
    <summary>Edit Selected Clusters</summary>
    <form method=""post"" id=""cluster_edit"" action=""/index/";
    Esc index_id;
    Lit "/cluster/delete"">
        <input type=""hidden"" name=""return_to"" value=""model"">
        <label for=""target_clusters"">Refine selection into how many clusters:</label>
        <input id=""target_clusters"" name=""target_clusters"" type=""number"">
        <button type=""submit"" formaction=""/index/";
    Esc index_id;
    Lit "/cluster/refine"" method=""post"">Refine Selected Clusters</button>
        <br>
        <button type=""submit"">Delete Clusters 🗑️</button>
        <button type=""submit"" formaction=""/index/";
    Esc index_id;
    Lit "/cluster/merge"" method=""post"">Merge Clusters</button>
    </form>
</details>

<ul class=""cluster-list"">
    "]
   ++ (if negb (results_empty found) then [Lit "
    <li>
        <div class=""cluster-header"">
            "]
       ++ (if sample then [Lit "Sample of ";
            Esc total;
            Lit " documents"]
           else [Lit "All ";
            Esc total;
            Lit " matching documents."])
       ++ [Lit "
        </div>

        "]
       ++ render_results found
       ++ [Lit "

    </li>
    "]
       else [])
   ++ [Lit "


    "]
   ++ each clusters (fun x =>
       [Lit "
    <li>
        "]
       ++ render_cluster index_id false x chosen_cluster chosen
       ++ [Lit "
    </li>
    "])
   ++ [Lit "
</ul>
"].

(** templates/cluster.html:12-122. [named]: the id for the search form, if it is not 0; [near]: the ids of the neighbours, if one is not 0; [next]: the next one; [features]: those the page lists, also the visible ones (server.py:124). *)
Definition cluster_content (index_id : string) (fields : list string) (c : string) (named : option string) (near : option (string * string)) (next : string)
    (pinned : bool) (features : list feature_item) (sample : bool) (total : string) (found : results) (chosen : option string) : list piece :=
   [Lit "
"]
   ++ render_context_search index_id fields named
   ++ [Lit "

<ul class=""nav-links"">
    <li><a href=""/index/";
    Esc index_id;
    Lit "/cluster/";
    Esc c;
    Lit """>Cluster Overview</a></li>
    "]
   ++ (match near with
       | Some n => [Lit "
    <li><a href=""/index/";
        Esc index_id;
        Lit "/cluster/";
        Esc n.1;
        Lit """>Previous Cluster</li>
    <li><a href=""/index/";
        Esc index_id;
        Lit "/cluster/";
        Esc n.2;
        Lit """>Next Cluster</li>
    "]
       | None => []
       end)
   ++ [Lit "
    <li><a href=""/index/";
    Esc index_id;
    Lit "/?cluster_id=";
    Esc c;
    Lit """>Pivot By Cluster</a></li>
</ul>

<details>
    <summary>Edit this cluster</summary>

    "]
   ++ (if pinned then [Lit "
    <form method=""post"" action=""/index/";
        Esc index_id;
        Lit "/cluster/pin"">
        <fieldset>
            <input type=""hidden"" name=""return_to"" value=""cluster"">
            <input type=""hidden"" name=""cluster_id"" value=""";
        Esc c;
        Lit """>
            <input type=""hidden"" name=""pinned"" value=""";
        Esc (if pinned then "0" else "1");
        Lit """>
            <button class=""inline-button"" type=""submit"">Unpin Cluster</button>
        </fieldset>
    </form>

    "]
       else [Lit "
    <form method=""post"" action=""/index/";
        Esc index_id;
        Lit "/feature/remove_from_model"">
        <fieldset>
            <label for=""feature_selection"">Choose features:</label>
            <input type=""hidden"" name=""cluster_id"" value=""";
        Esc c;
        Lit """>
            <select name=""feature_id"" id=""feature_selection"" multiple>
                "]
       ++ each features (fun f =>
           [Lit "
                <option value=""";
            Esc (fi_id f);
            Lit """>";
            Esc (fi_field f);
            Lit ": ";
            Esc (fi_value f);
            Lit "</option>
                "])
       ++ [Lit "
            </select>
        </fieldset>
        <button type=""submit"">Delete Selected Features</button>
        <button type=""submit"" formaction=""/index/";
        Esc index_id;
        Lit "/cluster/create"" method=""post"">Create From Selected Features</button>
    </form>

    <form method=""post"" action=""/index/";
        Esc index_id;
        Lit "/cluster/delete"">
        <fieldset>
            <input type=""hidden"" name=""return_cluster_id"" value=""";
        Esc next;
        Lit """>
            <input type=""hidden"" name=""cluster_id"" value=""";
        Esc c;
        Lit """>
            <button class=""inline-button"" type=""submit"">Delete and go to next cluster</button>
        </fieldset>
    </form>

    "]
       ++ (if negb (bool_decide (length features = 0)) then [Lit "
    <form method=""post"" action=""/index/";
            Esc index_id;
            Lit "/cluster/create"">
        <fieldset>
            "]
           ++ each features (fun f =>
               [Lit "
            <input type=""hidden"" name=""feature_id"" value=";
                Esc (fi_id f);
                Lit ">
            "])
           ++ [Lit "
            <button type=""submit"">Create New Cluster From All Visible Features</button>
        </fieldset>
    </form>
    "]
           else [])
       ++ [Lit "

    <form method=""post"" action=""/index/";
        Esc index_id;
        Lit "/cluster/pin"">
        <fieldset>
            <input type=""hidden"" name=""return_to"" value=""cluster"">
            <input type=""hidden"" name=""cluster_id"" value=""";
        Esc c;
        Lit """>
            <input type=""hidden"" name=""pinned"" value=""";
        Esc (if pinned then "0" else "1");
        Lit """>
            <button class=""inline-button"" type=""submit"">Pin Cluster</button>
        </fieldset>
    </form>

    <form method=""post"" action=""/index/";
        Esc index_id;
        Lit "/cluster/refine"">
        <fieldset>
            <input type=""hidden"" name=""cluster_id"" value=""";
        Esc c;
        Lit """>
            <input type=""hidden"" name=""return_to"" value=""cluster"">
            <ul>
                <li>
                    <label for=""target_clusters"">Split into how many clusters:</label>
                    <input id=""target_clusters"" name=""target_clusters"" type=""number"" value=""2"" />
                </li>
                <li>
                    <label for=""iterations"">Number of iterations of refinement after splitting:</label>
                    <input id=""iterations"" name=""iterations"" type=""number"" value=""10"" />
                </li>
                <li>
                    <label for=""minimum_cluster_features"">Minimum number of features in split clusters:</label>
                    <input id=""minimum_cluster_features"" name=""minimum_cluster_features"" type=""number"" value=""1"" />
                </li>
            </ul>
        </fieldset>
        <button type=""submit"">Split Cluster</button>
    </form>

    "])
   ++ [Lit "
</details>

<ul class=""cluster-list"">
    "]
   ++ (if negb (results_empty found) then [Lit "
    <li>
        <div class=""cluster-header"">
            "]
       ++ (if sample then [Lit "Sample of ";
            Esc total;
            Lit " documents"]
           else [Lit "All ";
            Esc total;
            Lit " matching documents."])
       ++ [Lit "
        </div>

        "]
       ++ render_results found
       ++ [Lit "

    </li>
    "]
       else [])
   ++ [Lit "

    <li>
        "]
   ++ render_cluster index_id true (CI c None features) None chosen
   ++ [Lit "
    </li>
</ul>

"].

(** templates/details.html:9-97. A field: its name, number of values, least and greatest value, and positions. *)
Definition details_content (index_id : string) (fields : list (string * string * string * string * string)) (current : string) : list piece :=
   [Lit "

<section>
    <h2>Summary of Indexed Fields</h2>

    <table>
        <thead>
            <tr>
                <th>Field</th>
                <th>Cardinality</th>
                <th>Minimum Value</th>
                <th>Maximum Value</th>
                <th>Positions Recorded</th>
            </tr>
        </thead>
        <tbody>
            "]
   ++ each fields (fun x =>
       [Lit "
            <tr>
                <td>";
        Esc x.1.1.1.1;
        Lit "</td>
                <td>";
        Esc x.1.1.1.2;
        Lit "</td>
                <td>";
        Esc x.1.1.2;
        Lit "</td>
                <td>";
        Esc x.1.2;
        Lit "</td>
                <td>";
        Esc x.2;
        Lit "</td>
            </tr>
            "])
   ++ [Lit "
        </tbody>
        <caption>Fields and value ranges present in this index.</caption>
    </table>
</section>

<details>
    <summary>Recreate Model</summary>
    <form method=""post"" action=""/index/";
    Esc index_id;
    Lit "/recreate_model"">
        <fieldset>
            <ul>
                <li>
                    <label for=""field_selection"">Choose fields to include in the model:</label>
                    <select name=""include_fields"" id=""field_selection"" multiple>
                        "]
   ++ each fields (fun x =>
       [Lit "
                        <option value=""";
        Esc x.1.1.1.1;
        Lit """>";
        Esc x.1.1.1.1;
        Lit "</option>
                        "])
   ++ [Lit "
                    </select>
                </li>
                <li>
                    <label for=""iterations"">Number of iterations to run:</label>
                    <input id=""iterations"" name=""iterations"" type=""number"" value=""10"" />
                </li>
                <li>
                    <label for=""min-docs"">Minimum number of documents a feature needs to retrieve to be included in the model:</label>
                    <input id=""min-docs"" name=""min_docs"" type=""number"" value=""10"" />
                </li>
                <li>
                    <label for=""clusters"">Number of clusters in the model:</label>
                    <input id=""clusters"" name=""clusters"" type=""number"" value=""64"" />
                </li>
                <li>
                    <label for=""minimum_cluster_features"">Minimum number of features in split clusters:</label>
                    <input id=""minimum_cluster_features"" name=""minimum_cluster_features"" type=""number"" value=""1"" />
                </li>
            </ul>
        </fieldset>
        <button type=""submit"">Recreate Model</button>
    </form>
</details>

<details>
    <summary>Refine Existing Model</summary>
    <form method=""post"" action=""/index/";
    Esc index_id;
    Lit "/refine_model"">
        <fieldset>
            <ul>
                <li>
                    <label for=""iterations"">Number of iterations to run:</label>
                    <input id=""iterations"" name=""iterations"" type=""number"" value=""10"" />
                </li>
                <li>
                    <label for=""target_clusters"">Target number of clusters (current model contains ";
    Esc current;
    Lit "):</label>
                    <input id=""target_clusters"" name=""target_clusters"" type=""number"" value=""";
    Esc current;
    Lit """ />
                </li>
                <li>
                    <label for=""minimum_cluster_features"">Minimum number of features in split clusters:</label>
                    <input id=""minimum_cluster_features"" name=""minimum_cluster_features"" type=""number"" value=""1"" />
                </li>
            </ul>
        </fieldset>
        <button type=""submit"">Refine Existing Model</button>
    </form>
</details>

"].

(** The fields of a StackExchange post that its template shows; [None] in a text column is
    shown as "None"; [rp_owner]: the id of the author if it is there (and not 0). *)
Record post_comment := PC { pc_text : string; pc_license : string; pc_site : string; pc_user : option string; pc_name : string }.
Record rendered_post := RP { rp_title : string; rp_type : string; rp_site : string; rp_link : string; rp_license : string;
  rp_owner : option string; rp_name : string; rp_body : string; rp_tags : list string; rp_comments : list post_comment }.

(** corpus.py:548-598, StackExchangeCorpus.TEMPLATE. Autoescape is off. *)
Definition post_template (p : rendered_post) : list piece :=
   [Lit "
        <details>
            <summary><em>";
    Esc (rp_title p);
    Lit "</em> - ";
    Raw (rp_type p);
    Lit " from ";
    Raw (rp_site p);
    Lit "</summary>
            
            <p>
                <small>
                    <a href=""";
    Raw (rp_link p);
    Lit """>Live Link</a>
                    Copyright ";
    Raw (rp_license p);
    Lit " by
                    "]
   ++ (match rp_owner p with
       | Some u => [Lit "
                    <a href=""";
        Raw (rp_site p +:+ "/users/" +:+ u)%string;
        Lit """>
                        ";
        Raw (rp_name p);
        Lit "
                    </a>
                    "]
       | None => [Lit "
                    <Deleted User>
                    "]
       end)
   ++ [Lit "
                </small>
            </p>

            ";
    Raw (rp_body p);
    Lit "

            <details>
                <summary>Tags:</summary>
                <ul>
                    "]
   ++ each (rp_tags p) (fun t =>
       [Lit "
                    <li>";
        Raw t;
        Lit "
                    "])
   ++ [Lit "
                </ul>
            </details>

            <details>
                <summary>Comments:</summary>
                <ul>
                    "]
   ++ each (rp_comments p) (fun c =>
       [Lit "
                        <li>";
        Esc (pc_text c);
        Lit "
                            <small>
                                Copyright ";
        Raw (pc_license c);
        Lit " by
                                "]
       ++ (match pc_user c with
           | Some u => [Lit "
                                <a href=""";
            Raw (pc_site c +:+ "/users/" +:+ u)%string;
            Lit """>
                                    ";
            Raw (pc_name c);
            Lit "
                                </a>
                                "]
           | None => [Lit "
                                <Deleted User>
                                "]
           end)
       ++ [Lit "
                            </small>
                        </li>
                    "])
   ++ [Lit "
                </ul>
            </details>
        </details>
        "].

(** The fields of a tweet that its template shows. *)
Record rendered_tweet := RT { rt_image : string; rt_username : string; rt_name : string; rt_id : string; rt_created : string;
  rt_text : string; rt_likes : string; rt_replies : string; rt_quotes : string; rt_retweets : string; rt_retrieved : string }.

(** corpus.py:959-984, TwittersphereCorpus.TEMPLATE. Autoescape is off. *)
Definition tweet_template (t : rendered_tweet) : list piece :=
   [Lit "
        <div>
            <span>
            <img src=";
    Raw (rt_image t);
    Lit ">
            <a href=""https://twitter.com/";
    Raw (rt_username t);
    Lit """>@";
    Raw (rt_username t);
    Lit "</a>
            ";
    Raw (rt_name t);
    Lit " on <a href=""https://twitter.com/";
    Raw (rt_username t);
    Lit "/status/";
    Raw (rt_id t);
    Lit """>
                <time datetime=""";
    Raw (rt_created t);
    Lit """>";
    Raw (rt_created t);
    Lit "</time>
            </a>
            </span>

            <p>";
    Raw (rt_text t);
    Lit "</p>

            <details>
                <summary>Metadata</summary>
                <dl>
                    <dt>Likes</dt><dd>";
    Raw (rt_likes t);
    Lit "</dd>
                    <dt>Replies</dt><dd>";
    Raw (rt_replies t);
    Lit "</dd>
                    <dt>Quote Tweets</dt><dd>";
    Raw (rt_quotes t);
    Lit "</dd>
                    <dt>Retweets</dt><dd>";
    Raw (rt_retweets t);
    Lit "</dd>
                    <dt>Retrieved at</dt><dd>";
    Raw (rt_retrieved t);
    Lit "</dd>
                </dl>
            </details>
        </div

        "].

(** corpus.py:687-697 and 988-996: the rendered documents are [Markup]; corpus.py:218-220. *)
Definition render_post (p : rendered_post) : shown_doc := Marked (render (post_template p)).
Definition render_tweet (t : rendered_tweet) : shown_doc := Marked (render (tweet_template t)).
Definition render_text (s : string) : shown_doc := Plain s.
