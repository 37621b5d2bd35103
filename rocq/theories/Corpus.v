(** Corpus.v: the corpora of hyperreal/corpus.py.
    Simplifications: one connection per corpus; the calls start outside a transaction;
    tokenisers and the HTML parser are arbitrary functions (parameters of the model). *)
From Coq Require Export Ascii.
From Verif Require Export Indexing.

(** The next rowid of a table with an integer primary key: one more than the greatest
    (1 if the table is empty). *)
Definition new_rowid {A} (m : gmap N A) : N := (1 + foldr N.max 0 (map_to_list m).*1)%N.

(** A generator: what it yields, and whether it then finishes or raises. *)
Definition generator (A : Type) : Type := list A * res unit.
Fixpoint generate {A B} (f : A -> res B) (l : list A) : generator B :=
  match l with
  | [] => ([], Ok tt)
  | x :: l => match f x with
              | Ok y => let '(ys, r) := generate f l in (y :: ys, r)
              | Err e => ([], Err e)
              end
  end.

(** ** PlainTextSqliteCorpus *)

(** The table [doc], if it exists: doc_id to text. *)
Definition doc_table := option (gmap N value).

(** The corpus database: what is committed, and the contents seen inside an open
    savepoint. *)
Record pt_db := PtDb { pt_disk : doc_table; pt_open : option doc_table }.

(** The statements of [replace_docs] (corpus.py:167-190). [PInsert None] binds NULL. *)
Inductive pt_stmt := PSavepoint | PDrop | PCreate | PDelete | PInsert (v : option value) | PRollback | PRelease.

(** What each does. [insert or ignore] skips a NULL text (not null constraint); releasing
    the outermost savepoint commits. *)
Definition pt_exec (st : pt_db) (s : pt_stmt) : pt_db :=
  match s, pt_open st with
  | PSavepoint, _ => PtDb (pt_disk st) (Some (pt_disk st))
  | PDrop, Some _ => PtDb (pt_disk st) (Some None)
  | PCreate, Some _ => PtDb (pt_disk st) (Some (Some ∅))
  | PDelete, Some (Some _) => PtDb (pt_disk st) (Some (Some ∅))
  | PInsert (Some v), Some (Some m) => PtDb (pt_disk st) (Some (Some (<[new_rowid m := v]> m)))
  | PRollback, Some _ => PtDb (pt_disk st) (Some (pt_disk st))
  | PRelease, Some m => PtDb m None
  | _, _ => st
  end.

(** [texts]: an iterable; [Err]: producing the item (or binding it) raises. *)
Definition items := list (res (option value)).

(** The inserts made before the iterable ends or raises, and whether it raised. *)
Fixpoint inserts (xs : items) : list pt_stmt * bool :=
  match xs with
  | [] => ([], false)
  | Ok v :: xs => let '(l, failed) := inserts xs in (PInsert v :: l, failed)
  | Err _ :: _ => ([], true)
  end.

(** corpus.py:165-190 [replace_docs]: the statements executed. The handler rolls back and
    does not raise again. *)
Definition replace_statements (xs : items) : list pt_stmt :=
  let '(ins, failed) := inserts xs in
  [PSavepoint; PDrop; PCreate; PDelete] ++ ins ++ (if failed then [PRollback] else []) ++ [PRelease].
Definition replace_docs (xs : items) (st : pt_db) : pt_db * res unit :=
  (foldl pt_exec st (replace_statements xs), Ok tt).

(** The database after a crash while the call runs: [n] statements were executed. What was
    not committed is lost. *)
Definition replace_crash (xs : items) (st : pt_db) (n : nat) : doc_table :=
  pt_disk (foldl pt_exec st (take n (replace_statements xs))).

(** corpus.py:211-212 [keys]: by rowid. *)
Definition pt_keys (tbl : doc_table) : res (list N) :=
  match tbl with Some m => Ok (bm_list (dom m)) | None => Err OperationalError end.

(** corpus.py:192-209 [docs]. *)
Definition pt_get (tbl : doc_table) (key : N) : res (N * value) :=
  match tbl with
  | None => Err OperationalError
  | Some m => match m !! key with Some text => Ok (key, text) | None => Err IndexError end
  end.
Definition pt_docs (tbl : doc_table) (doc_keys : option (list N)) : generator (N * value) :=
  match doc_keys with
  | Some ks => generate (pt_get tbl) ks
  | None => match pt_keys tbl with
            | Ok ks => generate (pt_get tbl) ks
            | Err e => ([], Err e)
            end
  end.

(** corpus.py:214-217 [index]. A text that is not a string has no [translate]. *)
Definition pt_index (tokeniser : string -> list string) (text : value) : res features :=
  match text with
  | VText s => Ok [("text", Seq ((fun tok => Some (VText tok)) <$> tokeniser s))]
  | VInt _ => Err AttributeError
  end.

(** What the indexer gets from the corpus: every key with its indexed document. *)
Definition pt_corpus (tokeniser : string -> list string) (m : gmap N value) : corpus :=
  omap (fun k => (fun text => (VInt (Z.of_N k), pt_index tokeniser text)) <$> m !! k) (bm_list (dom m)).

(** corpus.py:219-221 [render_docs_html] and [render_docs_table]: a list made of the whole
    generator, so it raises if the generator does. *)
Definition pt_render (tbl : doc_table) (ks : list N) : res (list (N * value)) :=
  let '(rows, r) := pt_docs tbl (Some ks) in rmap (fun _ => rows) r.

(** ** cli.py:112-135 [plaintext_corpus_create] *)

(** A row of the CSV file. Only the first column of a row is used, and the row is dropped if
    it is blank. [blank] is [not s.strip()]. Simplification: the CSV reader is given by the
    rows it yields. *)
Definition py_space (a : Ascii.ascii) : bool :=
  let n := Ascii.nat_of_ascii a in (9 <=? n) && (n <=? 13) || (28 <=? n) && (n <=? 32).
Definition blank (s : string) : bool := forallb py_space (String.list_ascii_of_string s).
Definition csv_docs (rows : list (list string)) : items :=
  omap (fun row => match row with
                   | [] => None
                   | first :: _ => if blank first then None else Some (Ok (Some (VText first)))
                   end) rows.
Definition plaintext_create (rows : list (list string)) (st : pt_db) : pt_db * res unit :=
  replace_docs (csv_docs rows) st.

(** [csv.reader] on a line without quote characters: the columns are the parts between the
    commas; an empty line gives no columns. *)
Fixpoint split_at (sep : Ascii.ascii -> bool) (cur : list Ascii.ascii) (l : list Ascii.ascii) : list (list Ascii.ascii) :=
  match l with
  | [] => [rev cur]
  | a :: l => if sep a then rev cur :: split_at sep [] l else split_at sep (a :: cur) l
  end.
Definition split (sep : Ascii.ascii -> bool) (s : string) : list string :=
  String.string_of_list_ascii <$> split_at sep [] (String.list_ascii_of_string s).
Definition csv_row (line : string) : list string :=
  match line with EmptyString => [] | _ => split (fun a => Ascii.eqb a ","%char) line end.

(** ** StackExchangeCorpus *)

(** An element of the posts file. Simplifications: the attributes stored in integer columns
    are already numbers, every question and answer has an Id, and only the columns used by
    [docs] and the rendering are kept. *)
Record x_post := XPost {
  xp_type : option string (* PostTypeId *); xp_id : Z; xp_parent : option Z; xp_owner : option Z;
  xp_title : option string; xp_body : option string; xp_created : option string;
  xp_license : option string; xp_tags : option string }.
Record x_comment := XComment {
  xc_id : option Z; xc_post : option Z; xc_user : option Z; xc_text : option string; xc_license : option string }.
Record x_user := XUser { xu_id : option Z; xu_name : option string }.
(** The file's own (root) element, read last; it has none of these attributes. *)
Definition root_comment := XComment None None None None None.
Definition root_user := XUser None None.

(** The tables (corpus.py:267-340). Rows of [comment] and [User] are in rowid order. *)
Record post_row := PostRow { po_site : N; po_kind : string; po_x : x_post }.
Record comment_row := CommentRow { co_site : N; co_x : x_comment }.
Record user_row := UserRow { us_site : N; us_x : x_user }.
Record sx := Sx {
  sites : gmap N string; posts : gmap N post_row; post_tags : gset (N * Z * string);
  comments : list comment_row; users : list user_row }.
Definition empty_sx := Sx ∅ ∅ ∅ [] [].

(** corpus.py:348-355: [insert or ignore into Site], then its id. *)
Definition find_site (m : gmap N string) (url : string) : option N :=
  fst <$> List.find (fun kv => bool_decide (kv.2 = url)) (map_to_list m).
Definition ensure_site (url : string) (st : sx) : sx * N :=
  match find_site (sites st) url with
  | Some i => (st, i)
  | None => (Sx (<[new_rowid (sites st) := url]> (sites st)) (posts st) (post_tags st) (comments st) (users st),
             new_rowid (sites st))
  end.

(** corpus.py:358-369: questions and answers. *)
Definition post_kind (x : x_post) : option string :=
  match xp_type x with Some "1" => Some "Question" | Some "2" => Some "Answer" | _ => None end.

(** corpus.py:346, 396-402: [re.compile("<|>|<>").split] (the third alternative never
    applies) and the test for empty parts. *)
Definition bracket (a : Ascii.ascii) : bool := Ascii.eqb a "<"%char || Ascii.eqb a ">"%char.
Definition split_tags (s : string) : list string := filter (fun t => t ≠ "") (split bracket s).

(** corpus.py:366-394: [replace into post] with the doc_id of the row with the same natural
    key, or a new one. *)
Definition find_post (m : gmap N post_row) (site : N) (id : Z) : option N :=
  fst <$> List.find (fun kv : N * post_row => bool_decide (po_site kv.2 = site /\ xp_id (po_x kv.2) = id)) (map_to_list m).
Definition add_post (site : N) (st : sx) (x : x_post) : sx :=
  match post_kind x with
  | None => st
  | Some kind =>
      let doc_id := default (new_rowid (posts st)) (find_post (posts st) site (xp_id x)) in
      Sx (sites st) (<[doc_id := PostRow site kind x]> (posts st))
         (list_to_set ((fun t => (site, xp_id x, t)) <$> split_tags (default "" (xp_tags x))) ∪ post_tags st)
         (comments st) (users st)
  end.

(** [replace into] a table with primary key (site_id, Id): a row with the same key is
    removed and the new one gets a new rowid; NULLs are never equal. *)
Definition replace_row {A} (key : A -> N * option Z) (x : A) (l : list A) : list A :=
  match (key x).2 with
  | Some _ => filter (fun y => key y ≠ key x) l ++ [x]
  | None => l ++ [x]
  end.
Definition comment_key (r : comment_row) : N * option Z := (co_site r, xc_id (co_x r)).
Definition user_key (r : user_row) : N * option Z := (us_site r, xu_id (us_x r)).

(** corpus.py:408-431 and 433-460. *)
Definition add_comment (site : N) (st : sx) (x : x_comment) : sx :=
  Sx (sites st) (posts st) (post_tags st) (replace_row comment_key (CommentRow site x) (comments st)) (users st).
Definition add_user (site : N) (st : sx) (x : x_user) : sx :=
  Sx (sites st) (posts st) (post_tags st) (comments st) (replace_row user_key (UserRow site x) (users st)).

(** A dump: the rows of the three files; parsing may fail at any point ([Err]). *)
Record dump := Dump {
  d_posts : list (res x_post); d_comments : list (res x_comment); d_users : list (res x_user) }.

(** corpus.py:342-462: inside the transaction. *)
Definition read_dump (url : string) (du : dump) (st : sx) : res sx :=
  let '(st, site) := ensure_site url st in
  rbind (rfold (fun st r => rmap (add_post site st) r) (d_posts du) st) (fun st =>
  rbind (rfold (fun st r => rmap (add_comment site st) r) (d_comments du ++ [Ok root_comment]) st) (fun st =>
  rfold (fun st r => rmap (add_user site st) r) (d_users du ++ [Ok root_user]) st)).

(** corpus.py:252-466 [add_site_data]: any exception rolls back and is raised again. *)
Definition add_site_data (url : string) (du : dump) (st : sx) : sx * res unit :=
  match read_dump url du st with Ok st' => (st', Ok tt) | Err e => (st, Err e) end.

(** corpus.py:490-498, 525-533: the display name of a user of a site. *)
Definition display_name (st : sx) (site : N) (user : option Z) : option string :=
  match user with
  | None => None
  | Some u => match List.find (fun r => bool_decide (user_key r = (site, Some u))) (users st) with
              | Some r => xu_name (us_x r)
              | None => None
              end
  end.
Definition shown_name (n : option string) : string := default "<Deleted User>" n.

(** corpus.py:479-544: one document. *)
Record sx_doc := SxDoc {
  sd_site_url : string; sd_id : Z; sd_title : option string; sd_body : option string;
  sd_name : string; sd_created : option string; sd_type : string;
  sd_tags : gset string; sd_comments : list (string * option string) }.
Definition tags_of (st : sx) (site : N) (post : Z) : gset string :=
  set_map (fun k : N * Z * string => k.2) (filter (fun k : N * Z * string => k.1 = (site, post)) (post_tags st)).
Definition comments_of (st : sx) (site : N) (post : Z) : list comment_row :=
  filter (fun r => co_site r = site /\ xc_post (co_x r) = Some post) (comments st).
Definition sx_get (st : sx) (key : N) : res (N * sx_doc) :=
  match posts st !! key with
  | None => Err IndexError
  | Some row =>
      let x := po_x row in
      match sites st !! po_site row with
      | None => Err IndexError
      | Some url => Ok (key, SxDoc url (xp_id x) (xp_title x) (xp_body x)
          (shown_name (display_name st (po_site row) (xp_owner x))) (xp_created x) (po_kind row)
          (tags_of st (po_site row) (default (xp_id x) (xp_parent x)))
          ((fun r => (shown_name (display_name st (co_site r) (xc_user (co_x r))), xc_text (co_x r)))
             <$> comments_of st (po_site row) (xp_id x)))
      end
  end.

(** corpus.py:719-720 [keys]: every doc_id, in an order SQL does not fix (the covering index
    on (site_id, Id) makes it that order); [all] is the order it gives. corpus.py:468-549 [docs]. *)
Definition sx_keys (st : sx) (all : list N) : Prop := all ≡ₚ elements (dom (posts st)).
Definition sx_docs (st : sx) (all : list N) (doc_keys : option (list N)) : generator (N * sx_doc) :=
  generate (sx_get st) (default all doc_keys).

(** corpus.py:722-766 [index]. [tokens]: the tokeniser; [parse]: the text of a post's body
    and its code blocks (see Html.v; it raises if it cannot be parsed); [dates]: the creation date rounded to day, month and year (raises if
    it cannot be parsed). [tokens(None)] and [isoparse(None)] raise. *)
Section sx_index.
  Context (tokens : string -> list string) (parse : string -> res (string * list string))
          (dates : string -> res (string * string * string)).
  Definition words_of (l : list string) : field_values := Seq ((fun s => Some (VText s)) <$> l).
  Definition set_of (l : list string) : field_values := Coll ((fun s => Some (VText s)) <$> l).
  Definition sx_index (doc : sx_doc) : res features :=
    rbind (match sd_body doc with Some (String _ _ as b) => parse b | _ => Ok ("", []) end) (fun '(text, code) =>
    rbind (rtraverse (fun c : string * option string =>
             match c.2 with Some s => Ok (tokens s) | None => Err AttributeError end) (sd_comments doc)) (fun comment_tokens =>
    match sd_created doc with
    | None => Err TypeError
    | Some created =>
        rmap (fun '(day, month, year) =>
            [("UserPosting", set_of [sd_name doc]);
             ("Post", words_of (tokens (default "" (sd_title doc)) ++ tokens text));
             ("CodeBlock", words_of (concat (tokens <$> filter (fun line => line ≠ "") code)));
             ("Tag", set_of (elements (sd_tags doc)));
             ("UserCommenting", set_of (sd_comments doc).*1);
             ("Comment", words_of (concat comment_tokens));
             ("Site", set_of [sd_site_url doc]);
             ("PostType", set_of [sd_type doc]);
             ("created_day", set_of [day]); ("created_month", set_of [month]); ("created_year", set_of [year])])
          (dates created)
    end)).
  (** What the indexer gets: the documents in the order of [keys]. *)
  Definition sx_corpus (st : sx) (all : list N) : corpus :=
    (fun k => (VInt (Z.of_N k), rbind (sx_get st k) (fun kd => sx_index kd.2))) <$> all.
End sx_index.

(** corpus.py:601-668 [_get_rendered_doc_fields]: the title of the question, also for an
    answer; the live link; the number of comments shown. *)
Record sx_fields := SxFields {
  sf_url : string; sf_id : Z; sf_owner : option Z; sf_name : option string; sf_license : option string; sf_type : string;
  sf_body : option string; sf_parent : option Z; sf_title : option string; sf_tags : gset string;
  sf_comments : list (option Z * option string * option string * option string) (* UserId, DisplayName, Text, license *) }.
Definition sx_fields_of (st : sx) (key : N) : res sx_fields :=
  match posts st !! key with
  | None => Err IndexError
  | Some row =>
      let x := po_x row in
      match sites st !! po_site row with
      | None => Err IndexError
      | Some url =>
          let parent := match xp_parent x with
                        | Some p => match find_post (posts st) (po_site row) p with
                                    | Some k => posts st !! k
                                    | None => None
                                    end
                        | None => None
                        end in
          Ok (SxFields url (xp_id x) (xp_owner x) (display_name st (po_site row) (xp_owner x)) (xp_license x) (po_kind row)
                (xp_body x) (xp_parent x)
                (match xp_title x with Some t => Some t | None => match parent with Some p => xp_title (po_x p) | None => None end end)
                (tags_of st (po_site row) (default (xp_id x) (xp_parent x)))
                ((fun r => (xc_user (co_x r), display_name st (co_site r) (xc_user (co_x r)), xc_text (co_x r), xc_license (co_x r)))
                   <$> comments_of st (po_site row) (xp_id x)))
      end
  end.

(** ** TwittersphereCorpus *)

(** corpus.py:1007-1043 [index]: the parts of a document it reads. [related] users: known
    or not. Simplification: the rounded times are given. *)
Record tweet := Tweet {
  tw_text : string; tw_user : string; tw_conversation : option value;
  tw_retweeted : option value; tw_retweeted_user : option string;
  tw_quoted : option value; tw_quoted_user : option string;
  tw_replied : option value; tw_replied_user : option string;
  tw_hashtags : list string; tw_mentions : list string; tw_urls : list string; tw_domains : list (option string);
  tw_labels : list string; tw_times : list (string * string) }.
Definition text_value (o : option string) : option value := VText <$> o.
Definition tweet_index (tokens : string -> list string) (lower : string -> string) (tw : tweet) : features :=
  (match tw_retweeted tw with
   | None =>
       [("text", Seq ((fun s => Some (VText s)) <$> tokens (tw_text tw)));
        ("#", Coll ((fun s => Some (VText (lower s))) <$> tw_hashtags tw));
        ("@", Coll ((fun s => Some (VText (lower s))) <$> tw_mentions tw));
        ("conversation_id", Seq [tw_conversation tw]);
        ("by", Seq [Some (VText (tw_user tw))]);
        ("url", Coll ((fun s => Some (VText s)) <$> tw_urls tw));
        ("domain", Coll (text_value <$> tw_domains tw));
        ("quoted_tweet_id", Seq [tw_quoted tw]);
        ("quoted_user", Seq [text_value (tw_quoted_user tw)]);
        ("replied_to_tweet_id", Seq [tw_replied tw]);
        ("replied_to_user", Seq [text_value (tw_replied_user tw)]);
        ("collection_label", Coll ((fun s => Some (VText s)) <$> tw_labels tw))]
   | Some id =>
       [("by", Seq [Some (VText (tw_user tw))]);
        ("retweeted_tweet_id", Seq [Some id]);
        ("retweeted_user", Seq [text_value (tw_retweeted_user tw)])]
   end) ++ ((fun t : string * string => (t.1, Seq [Some (VText t.2)])) <$> tw_times tw).
