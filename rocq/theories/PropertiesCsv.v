(** PropertiesCsv.v: C62 (text files), C93 (exported files), C94 (quoted lines).
    Vocabulary: SpecCsv.v. *)
From stdpp Require Import pretty.
From Verif Require Import CsvProofs PropertiesCorpus Reports.

(** ** C62: plain text files *)
Lemma unquoted_file lines file : text_file lines file -> (forall l, l ∈ lines -> one_line l /\ quote ∉ chars l) -> forall limit,
  read_records limit parser0 (raw_lines [] (universal file)) = read_records limit parser0 (raw_lines [] (line_file lines)).
Proof.
  intros Hf Hl limit. assert (forall ls, (forall l, l ∈ ls -> l ∈ lines) -> cr ∉ line_file ls /\ quote ∉ line_file ls) as Hcr.
  { intros ls Hin. unfold line_file. induction ls as [|l ls IH]; [split; by intros ?%elem_of_nil|]. rewrite fmap_cons. cbn [concat].
    destruct IH as [IH1 IH2]; [intros; apply Hin; by right|]. destruct (Hl l) as [[H1 H2] H3]; [apply Hin; by left|].
    rewrite !not_elem_of_app, !elem_of_list_singleton. split_and!; done. }
  destruct Hf as [->|(init & final & -> & Hne & ->)]; [rewrite universal_lf; [done|by apply Hcr]|].
  destruct (Hcr init) as [C1 Q1]; [intros; apply elem_of_app; by left|]. destruct (Hl final) as [[F1 F2] F3]; [apply elem_of_app; right; by left|].
  rewrite universal_lf by (rewrite not_elem_of_app; done).
  assert (line_file (init ++ [final]) = (line_file init ++ chars final) ++ [lf]) as ->.
  { unfold line_file. rewrite fmap_app, concat_app. cbn [fmap list_fmap concat]. by rewrite app_nil_r, app_assoc. }
  assert (chars final ≠ []) as Hc by (by destruct final). apply final_newline; [rewrite not_elem_of_app; done| | | |done].
  - intros E. apply app_nil in E as [_ E]. done.
  - rewrite last_app. destruct (last (chars final)) as [x|] eqn:E; [|by apply last_None in E]. intros [= ->]. apply last_Some_elem_of in E. done.
  - rewrite last_app. destruct (last (chars final)) as [x|] eqn:E; [|by apply last_None in E]. intros [= ->]. apply last_Some_elem_of in E. done.
Qed.

Lemma csv_row_short l c : c ∈ csv_row l -> String.length c <= String.length l.
Proof.
  intros Hc. unfold csv_row in Hc. destruct l as [|a l]; [by apply elem_of_nil in Hc|].
  unfold Corpus.split in Hc. apply elem_of_list_fmap in Hc as (f & -> & Hf'). rewrite <- !chars_length. unfold chars. rewrite String.list_ascii_of_string_of_list_ascii.
  assert (forall cur l f, f ∈ split_at (fun a => Ascii.eqb a ","%char) cur l -> length f <= length cur + length l) as H; [|by apply H in Hf'].
  clear. intros cur l. revert cur. induction l as [|a l IH]; intros cur f; cbn [split_at]; [intros ->%elem_of_list_singleton; rewrite rev_length; cbn; lia|].
  destruct (Ascii.eqb a ","%char).
  + intros [->|Hin]%elem_of_cons; [rewrite rev_length; cbn; lia|]. apply IH in Hin. cbn in *. lia.
  + intros Hin%IH. cbn in *. lia.
Qed.

(** Of every line without quotes exactly the part before the first comma is stored, unless
    that is blank. *)
Theorem C62_first_column : forall limit lines file st, pt_open st = None -> text_file lines file ->
  (forall l, l ∈ lines -> one_line l /\ quote ∉ chars l /\ String.length l <= limit) ->
  exists m, plaintext_create_file limit file st = (PtDb (Some m) None, Ok tt) /\
    numbered (VText <$> filter (fun s => ~ only_whitespace s) (before_comma <$> lines)) m.
Proof.
  intros limit lines file st Ho Hf Hl. destruct (rows_first_column lines st Ho) as (m & E & Hn). exists m. split; [|done].
  rewrite <- E. unfold plaintext_create_file, plaintext_create, file_docs.
  rewrite (unquoted_file lines file Hf) by (intros l Hin; by destruct (Hl l Hin) as (? & ? & _)).
  rewrite <- (app_nil_r (line_file lines)), read_unquoted_lines; [cbn [raw_lines read_records]; cbn; by rewrite !app_nil_r| |].
  - intros l Hin. by destruct (Hl l Hin) as (? & ? & _).
  - intros l c Hin Hc. destruct (Hl l Hin) as (_ & _ & Hlen). etrans; [|exact Hlen]. by apply csv_row_short.
Qed.
Print Assumptions C62_first_column.

(** Documents written as [doc_line] describes (plain lines without commas among them) are
    stored in full, in order; only blank ones are dropped. *)
Theorem C62_documents_partial : forall limit (docs : list (string * list char)) st, pt_open st = None ->
  (forall x, x ∈ docs -> doc_line x.1 x.2 /\ String.length x.1 <= limit) ->
  exists m, plaintext_create_file limit (concat docs.*2) st = (PtDb (Some m) None, Ok tt) /\
    numbered (VText <$> filter (fun s => ~ only_whitespace s) docs.*1) m.
Proof.
  intros limit docs st Ho H. unfold plaintext_create_file, file_docs.
  assert (cr ∉ concat docs.*2) as Hcr.
  { clear -H. induction docs as [|[d l] docs IH]; [by intros ?%elem_of_nil|]. rewrite fmap_cons. cbn [concat snd]. apply not_elem_of_app.
    split; [|apply IH; intros; apply H; by right]. destruct (H (d, l)) as [Hd _]; [by left|]. cbn in Hd. destruct Hd as [[H1 H2] _ _|l' H1 H2].
    - rewrite not_elem_of_app, elem_of_list_singleton. done.
    - rewrite not_elem_of_cons, not_elem_of_app, not_elem_of_cons, elem_of_list_singleton. split_and!; [done| |done|done].
      clear -H1 H2. induction H2; [done|..]; apply not_elem_of_cons in H1 as [? ?]; rewrite !not_elem_of_cons; auto. }
  rewrite universal_lf by done. rewrite read_doc_lines by done. rewrite app_nil_r.
  assert (forall (docs : list (string * list char)), csv_docs ((fun d => if bool_decide (chars d.1 = []) then match d.2 with [_] => [] | _ => [d.1] end else [d.1]) <$> docs) =
    (fun s => Ok (Some (VText s))) <$> filter (fun s => ~ only_whitespace s) docs.*1) as ->.
  { clear. induction docs as [|[d l] docs IH]; [done|]. unfold csv_docs in *. rewrite !fmap_cons, filter_cons. cbn [omap list_omap fst snd].
    assert (forall row, row = [d] \/ (row = [] /\ d = "") -> match row with [] => None | first :: _ => if blank first then None else Some (Ok (Some (VText first))) end =
      if decide (~ only_whitespace d) then Some (Ok (Some (VText d)) : res (option value)) else None) as Hrow.
    { intros row [->|[-> ->]].
      - destruct (blank d) eqn:Eb; destruct (decide _) as [Hw|Hw]; [by apply blank_white in Eb|done|done|]. exfalso. apply Hw. rewrite <- blank_white. by rewrite Eb.
      - rewrite decide_False; [done|]. intros Hn. apply Hn. by intros a ?%elem_of_nil. }
    rewrite Hrow.
    - rewrite IH. by destruct (decide _).
    - case_bool_decide as Hd; [|by left]. assert (d = "") as -> by (by destruct d). destruct l as [|? [|? ?]]; auto. }
  destruct (C55_replace_docs_partial ((fun s => Some (VText s)) <$> filter (fun s => ~ only_whitespace s) docs.*1) st Ho) as (m & E & Hn).
  rewrite <- list_fmap_compose in E. unfold compose in E. exists m. split; [exact E|].
  rewrite <- (omap_id_Some (VText <$> _)), <- list_fmap_compose. exact Hn.
Qed.
Print Assumptions C62_documents_partial.

(** Any other line without quotes loses everything from its first comma on (or disappears). *)
Theorem C62_whole_lines_refuted : forall limit line st, pt_open st = None -> one_line line -> quote ∉ chars line -> comma ∈ chars line ->
  String.length line <= limit ->
  exists tbl, pt_disk (plaintext_create_file limit (line_file [line]) st).1 = Some tbl /\ forall k, tbl !! k ≠ Some (VText line).
Proof.
  intros limit line st Ho H1 Hu Hc Hlen. destruct (C62_first_column limit [line] _ st Ho (or_introl eq_refl)) as (m & E & Hn); [by intros l ->%elem_of_list_singleton|].
  exists m. rewrite E. split; [done|]. intros k Hk. rewrite (Hn k) in Hk. destruct (k =? 0)%N; [done|].
  apply elem_of_list_lookup_2 in Hk. apply elem_of_list_fmap in Hk as (s & [= ->] & Hs). apply elem_of_list_filter in Hs as [_ Hs].
  cbn in Hs. apply elem_of_list_singleton in Hs. rewrite Hs in Hc. clear -Hc.
  assert (forall l, comma ∉ chars (before_comma l)) as H; [|by apply H in Hc].
  clear. induction l as [|a l IH]; [by intros ?%elem_of_nil|]. cbn. destruct (decide (a = ","%char)); [by intros ?%elem_of_nil|].
  change (chars (String a (before_comma l))) with (a :: chars (before_comma l)). intros [?|Hin]%elem_of_cons; [|by apply IH]. unfold comma in *. congruence.
Qed.
Print Assumptions C62_whole_lines_refuted.

(** A line that is too long for Python's csv module: nothing of the file is stored, and the
    command reports no error. *)
Theorem C62_long_line_refuted : forall limit before line after st, pt_open st = None ->
  (forall l, l ∈ before -> one_line l /\ quote ∉ chars l /\ comma ∉ chars l /\ String.length l <= limit) ->
  (forall l, l ∈ after -> one_line l) ->
  one_line line -> quote ∉ chars line -> comma ∉ chars line -> limit < String.length line ->
  plaintext_create_file limit (line_file (before ++ line :: after)) st = (st, Ok tt).
Proof.
  intros limit before line after st Ho Hb Ha [H1 H2] H3 H4 Hl.
  assert (forall ls, (forall l, l ∈ ls -> cr ∉ chars l) -> cr ∉ line_file ls) as Hcr.
  { intros ls Hin. unfold line_file. induction ls as [|l ls IH]; [by intros ?%elem_of_nil|]. rewrite fmap_cons. cbn [concat].
    rewrite !not_elem_of_app, elem_of_list_singleton. split_and!; [apply Hin; by left|done|]. apply IH. intros; apply Hin; by right. }
  assert (exists xs, file_docs limit (line_file (before ++ line :: after)) = xs ++ [Err CsvError]) as [xs E].
  { unfold file_docs. rewrite universal_lf.
    - assert (line_file (before ++ line :: after) = line_file before ++ chars line ++ lf :: line_file after) as ->.
      { unfold line_file. rewrite fmap_app, concat_app. cbn [fmap list_fmap concat]. by rewrite <- app_assoc. }
      rewrite read_unquoted_lines.
      + rewrite read_too_long; [by eexists| | |by rewrite chars_length].
        * intros a Hin. split_and!; intros ->; done.
        * destruct (chars line); [done|]. cbn. intros [= ->]. apply H3. by left.
      + intros l Hin. by destruct (Hb l Hin) as (? & ? & _).
      + intros l c Hin Hc. destruct (Hb l Hin) as (_ & _ & Hnc & Hlen). unfold csv_row in Hc. destruct l as [|a l]; [by apply elem_of_nil in Hc|].
        unfold Corpus.split in Hc. change ","%char with comma in Hc. rewrite split_none in Hc by done. apply elem_of_list_singleton in Hc as ->.
        cbn [rev app]. rewrite <- chars_length in *. unfold chars in *. by rewrite String.list_ascii_of_string_of_list_ascii.
    - apply Hcr. intros l [Hin|[->|Hin]%elem_of_cons]%elem_of_app; [by destruct (Hb l Hin) as ([_ ?] & _)|done|by apply Ha]. }
  unfold plaintext_create_file. rewrite E. apply injective_projections; [|done].
  apply C55_failure_keeps_documents with CsvError; [done|]. apply elem_of_app. right. by left.
Qed.
Print Assumptions C62_long_line_refuted.

(** The line ends of Windows and of old Macs are read like those of Unix. *)
Lemma universal_lines (e : list char) lines : (e = [cr; lf] \/ e = [cr]) -> (forall l, l ∈ lines -> cr ∉ chars l /\ head (chars l) ≠ Some lf) ->
  universal (concat ((fun l => chars l ++ e) <$> lines)) = line_file lines.
Proof.
  intros He. unfold line_file. induction lines as [|l lines IH]; intros H; [done|]. rewrite !fmap_cons. cbn [concat]. rewrite <- !app_assoc.
  assert (universal (concat ((fun l => chars l ++ e) <$> lines)) = concat ((fun l => chars l ++ [lf]) <$> lines)) as E by (apply IH; intros; apply H; by right).
  assert (forall l r, cr ∉ l -> universal (l ++ r) = l ++ universal r) as Happ.
  { clear. induction l as [|a l IH]; intros r H; [done|]. apply not_elem_of_cons in H as [H1 H2]. cbn [app universal]. rewrite (CsvProofs.eqb_neq a cr) by congruence. by rewrite IH. }
  destruct (H l) as [Hl _]; [by left|]. rewrite Happ by done. f_equal. destruct He as [-> | ->].
  - cbn [app universal]. change (Ascii.eqb cr cr) with true. change (Ascii.eqb lf lf) with true. cbv iota. by rewrite E.
  - cbn [app universal]. change (Ascii.eqb cr cr) with true. cbv iota. destruct (concat ((fun l => chars l ++ [cr]) <$> lines)) as [|b rest] eqn:Er.
    + by rewrite <- E.
    + destruct (Ascii.eqb_spec b lf) as [->|Hb]; [|by rewrite E]. exfalso. destruct lines as [|l' lines]; [done|]. rewrite fmap_cons in Er. cbn [concat] in Er.
      destruct (H l') as [_ Hh]; [right; by left|]. destruct (chars l'); cbn in Er; [discriminate Er|]. injection Er as ->. by apply Hh.
Qed.
Theorem C62_line_ends : forall limit lines file st, (forall l, l ∈ lines -> one_line l) -> file = crlf_file lines \/ file = cr_file lines ->
  plaintext_create_file limit file st = plaintext_create_file limit (line_file lines) st.
Proof.
  intros limit lines file st Hl Hf. unfold plaintext_create_file, file_docs.
  assert (forall l, l ∈ lines -> cr ∉ chars l /\ head (chars l) ≠ Some lf) as H.
  { intros l Hin. destruct (Hl l Hin) as [H1 H2]. split; [done|]. intros E. apply H1. apply head_Some_elem_of in E. done. }
  rewrite (universal_lf (line_file lines)); [destruct Hf as [-> | ->]; unfold crlf_file, cr_file; rewrite universal_lines; auto|].
  clear -H. induction lines as [|l lines IH]; [by intros ?%elem_of_nil|]. unfold line_file in *. rewrite fmap_cons. cbn [concat].
  rewrite !not_elem_of_app, elem_of_list_singleton. split_and!; [apply H; by left|done|]. apply IH. intros; apply H; by right.
Qed.
Print Assumptions C62_line_ends.
(** A quote at the beginning of a line that is not closed: all the rest of the file becomes
    one document. *)
Theorem C62_open_quote_refuted : forall limit before rest st, pt_open st = None ->
  (forall l, l ∈ before -> one_line l /\ quote ∉ chars l /\ String.length l <= limit) ->
  quote ∉ rest -> cr ∉ rest -> length rest <= limit -> ~ only_whitespace (text rest) ->
  exists m, plaintext_create_file limit (line_file before ++ quote :: rest) st = (PtDb (Some m) None, Ok tt) /\
    numbered (VText <$> filter (fun s => ~ only_whitespace s) (before_comma <$> before) ++ [text rest]) m.
Proof.
  intros limit before rest st Ho Hb Hq Hcr Hl Hw.
  assert (forall f fs, length f + length rest <= limit -> read_records limit (Parser InQuoted f fs) (raw_lines [] rest) = ([fs ++ [text (f ++ rest)]], Ok tt)) as Hread.
  { clear -Hq Hcr. induction rest as [|a rest IH]; intros f fs Hl; [rewrite app_nil_r; by destruct f|].
    apply not_elem_of_cons in Hq as [Hqa Hq]. apply not_elem_of_cons in Hcr as [Hca Hcr]. cbn in Hl. destruct rest as [|b rest].
    - assert (raw_lines [] [a] = [[a]]) as -> by (cbn [raw_lines app]; rewrite (CsvProofs.eqb_neq a cr) by congruence; by destruct (Ascii.eqb a lf)).
      cbn [read_records process_chars process_char p_state]. rewrite (CsvProofs.eqb_neq a quote) by congruence. unfold add_char. cbn [p_field].
      destruct (Nat.leb_spec limit (length f)); [lia|]. cbn. by destruct (f ++ [a]).
    - rewrite read_quoted by (try done; try congruence; lia). rewrite IH; [by rewrite <- app_assoc|done|done|rewrite app_length; cbn in *; lia]. }
  assert (read_records limit parser0 (raw_lines [] (quote :: rest)) = ([[text rest]], Ok tt)) as Hrest.
  { destruct rest as [|a rest]; [exfalso; apply Hw; by intros ? ?%elem_of_nil|]. rewrite (read_plain limit _ (Parser InQuoted [] [])) by done. by rewrite Hread. }
  assert (cr ∉ line_file before ++ quote :: rest) as Hcr'.
  { rewrite not_elem_of_app, not_elem_of_cons. split_and!; [|done|done]. clear -Hb. unfold line_file. induction before as [|l ls IH]; [by intros ?%elem_of_nil|]. rewrite fmap_cons. cbn [concat].
    rewrite !not_elem_of_app, elem_of_list_singleton. split_and!; [by destruct (Hb l ltac:(by left)) as ([_ ?] & _)|done|]. apply IH. intros; apply Hb; by right. }
  unfold plaintext_create_file, file_docs in *. rewrite universal_lf by done. rewrite read_unquoted_lines.
  - rewrite Hrest. unfold csv_docs. rewrite omap_app. fold (csv_docs (csv_row <$> before)). rewrite csv_docs_lines. cbn [omap list_omap].
    destruct (blank (text rest)) eqn:Eb; [by apply blank_white in Eb|]. rewrite app_nil_r.
    destruct (C55_replace_docs_partial (((fun s => Some (VText s)) <$> filter (fun s => ~ only_whitespace s) (before_comma <$> before)) ++ [Some (VText (text rest))]) st Ho) as (m & E & Hn).
    rewrite fmap_app in E. rewrite <- list_fmap_compose in E. exists m. split; [exact E|].
    rewrite omap_app in Hn. cbn [omap list_omap] in Hn. assert (forall l : list string, omap id ((fun s => Some (VText s)) <$> l) = VText <$> l) as Ho'.
    { clear. induction l as [|a l IH]; [done|]. cbn. f_equal. exact IH. }
    rewrite Ho' in Hn. rewrite fmap_app. exact Hn.
  - intros l Hin. by destruct (Hb l Hin) as (? & ? & _).
  - intros l c Hin Hc. destruct (Hb l Hin) as (_ & _ & Hlen). etrans; [|exact Hlen]. by apply csv_row_short.
Qed.
Print Assumptions C62_open_quote_refuted.

(** ** C93: exported files *)
Lemma clusters_rows limit rows : fits limit (clusters_table rows) ->
  csv_read limit (write_rows (clusters_table rows)) = (clusters_table rows, Ok tt).
Proof.
  intros Hf. apply read_rows; [|done].
  intros row [->|Hin]%elem_of_cons; [done|]. apply elem_of_list_fmap in Hin as ([[[[c f] field] v] n] & -> & _). done.
Qed.
Lemma clusters_table_rows rows : clusters_header :: (show_line <$> rows) = clusters_table rows.
Proof. reflexivity. Qed.
Lemma sample_table_rows t : (show_column <$> t.1) :: ((fun row : list cell => show_cell <$> row) <$> t.2) = sample_table t.
Proof. reflexivity. Qed.
Theorem C93_clusters_file_partial : forall limit d top_k, fits limit (clusters_table (cli_export d top_k)) ->
  csv_read limit (clusters_file [lf] (cli_export d top_k)) = (clusters_table (cli_export d top_k), Ok tt).
Proof. intros limit d top_k. unfold clusters_file. rewrite written_lf. rewrite clusters_table_rows. apply clusters_rows. Qed.
Print Assumptions C93_clusters_file_partial.
Theorem C93_sample_file_partial : forall limit f render fields per g t, cli_sample f render fields per g = Ok t ->
  fits limit (sample_table t) ->
  csv_read limit (sample_file [lf] t) = (sample_table t, Ok tt).
Proof.
  intros limit f render fields per g t Ht Hf. unfold sample_file. rewrite written_lf, sample_table_rows. apply read_rows; [|done].
  assert (exists d samples labels, export_document_sample d render fields samples labels = Ok t) as (d & samples & labels & E).
  { unfold cli_sample in Ht. destruct (_ =? _)%Z; [|done]. destruct (open_file f) as [f1 [u|]]; [|done].
    destruct (structured_doc_sample _ _ _ _) as [[samples labels]|]; [|done]. cbn in Ht. by eexists _, _, _. }
  clear Ht Hf. unfold export_document_sample in E. cbv zeta in E. destruct (rtraverse _ samples) as [rows|] eqn:Er; [|done]. cbn in E. injection E as <-. cbn [fst snd].
  intros row [->|Hin]%elem_of_cons; [done|]. apply elem_of_list_fmap in Hin as (cells & -> & Hin). apply elem_of_list_In, in_concat in Hin as (rs & H1 & H2).
  assert (cells ≠ []); [|by destruct cells].
  revert rows Er H1. induction samples as [|[c docs] samples IH]; intros rows Er H1; cbn in Er; [injection Er as <-; done|].
  destruct (query_keys d docs) as [keys|]; [|done]. cbn in Er. destruct (rtraverse _ keys) as [written|]; [|done]. cbn in Er.
  destruct (rtraverse _ samples) as [rows'|] eqn:Er'; [|done]. cbn in Er. injection Er as <-. destruct H1 as [<-|H1].
  - apply elem_of_list_In, elem_of_list_fmap in H2 as ([doc [key content]] & -> & _). done.
  - by eapply IH.
Qed.
Print Assumptions C93_sample_file_partial.
(** The web interface writes into memory, with no translation of line ends. *)
Theorem C93_web_file : forall limit d, fits limit (clusters_table (web_export d)) ->
  csv_read limit (web_file d) = (clusters_table (web_export d), Ok tt).
Proof. intros limit d. unfold web_file. rewrite clusters_table_rows. apply clusters_rows. Qed.
Print Assumptions C93_web_file.
(** Where lines end with "\r\n", the exported files contain empty rows. *)
Theorem C93_other_platforms_refuted :
  ~ (forall linesep d top_k, linesep = [lf] \/ linesep = [cr; lf] -> fits 100 (clusters_table (cli_export d top_k)) ->
     csv_read 100 (clusters_file linesep (cli_export d top_k)) = (clusters_table (cli_export d top_k), Ok tt)).
Proof.
  intros H. specialize (H [cr; lf] empty_db 1 (or_intror eq_refl)).
  assert (cli_export empty_db 1 = []) as E by (unfold cli_export; change (1 =? 0) with false; cbv iota; by_computation). rewrite E in H. clear E.
  assert (fits 100 (clusters_table [])) as Hf.
  { clear H. intros row cell ->%elem_of_list_singleton Hc. repeat (apply elem_of_cons in Hc as [->|Hc]; [cbn; lia|]). by apply elem_of_nil in Hc. }
  specialize (H Hf).
  assert (csv_read 100 (clusters_file [cr; lf] []) = ([clusters_header; []], Ok tt)) as E' by (clear H; vm_compute; reflexivity). rewrite E' in H. discriminate H.
Qed.
Print Assumptions C93_other_platforms_refuted.

(** ** C94: quoted lines *)
(** JSON escapes are not decoded. *)
Theorem C94_json_refuted :
  ~ (forall line doc st, pt_open st = None -> json_line line doc -> ~ only_whitespace doc ->
     pt_disk (plaintext_create_file 100 (line_file [line]) st).1 = Some {[1%N := VText doc]}).
Proof.
  intros H. set (l := ["a"; "\"; "t"; "b"]%char). specialize (H (text (quote :: l ++ [quote])) (text ["a"; Ascii.ascii_of_nat 9; "b"]%char) (PtDb None None) eq_refl).
  assert (pt_disk (plaintext_create_file 100 (line_file [text (quote :: l ++ [quote])]) (PtDb None None)).1 = Some {[1%N := VText (text l)]}) as E by by_computation.
  rewrite E in H. feed specialize H.
  - exists l. split; [done|]. apply json_plain; [done|done|vm_compute; lia|]. apply json_tab. apply json_plain; [done|done|vm_compute; lia|constructor].
  - intros Hw. specialize (Hw "a"%char ltac:(by left)). revert Hw. by_computation.
  - clear E. revert H. vm_compute. discriminate.
Qed.
Print Assumptions C94_json_refuted.
(** A quoted line without escapes is stored without its quotes. *)
Theorem C94_quoted_partial : forall limit line doc st, pt_open st = None -> json_line line doc -> "\"%char ∉ chars line -> ~ only_whitespace doc ->
  String.length doc <= limit ->
  exists m, plaintext_create_file limit (line_file [line]) st = (PtDb (Some m) None, Ok tt) /\ numbered [VText doc] m.
Proof.
  intros limit line doc st Ho (l & Hl & Hj) Hb Hw Hlen.
  assert (l = chars doc /\ cr ∉ chars doc /\ doubled (chars doc) l) as (-> & Hcr & Hd).
  { rewrite Hl in Hb. apply not_elem_of_cons in Hb as [_ Hb]. apply not_elem_of_app in Hb as [Hb _]. clear -Hb Hj.
    induction Hj as [|a l l' H1 H2 H3 Hj IH| | | |]; [split_and!; [done|by intros ?%elem_of_nil|constructor]| |by apply not_elem_of_cons in Hb as [? _]..].
    apply not_elem_of_cons in Hb as [_ Hb]. destruct (IH Hb) as (-> & IH2 & IH3). split_and!; [done| |by constructor].
    apply not_elem_of_cons. split; [|done]. intros <-. vm_compute in H3. lia. }
  destruct (C62_documents_partial limit [(doc, quote :: chars doc ++ [quote; lf])] st Ho) as (m & E & Hn).
  { intros x ->%elem_of_list_singleton. split; [by apply doc_quoted|done]. }
  exists m. assert (line_file [line] = concat [(doc, quote :: chars doc ++ [quote; lf])].*2) as ->.
  { unfold line_file. cbn [fmap list_fmap concat snd]. rewrite Hl, !app_nil_r. cbn. f_equal. by rewrite <- app_assoc. }
  split; [done|]. cbn [fmap list_fmap fst] in Hn. by rewrite filter_cons_True in Hn.
Qed.
Print Assumptions C94_quoted_partial.

Example C62_example :
  (one_line "Hello, world" /\ quote ∉ chars "Hello, world" /\ comma ∈ chars "Hello, world") /\
  text_file ["one line"; "  "; ""; "Hello, world"] (line_file ["one line"; "  "; ""] ++ chars "Hello, world") /\
  pt_disk (plaintext_create_file 100 (line_file ["one line"; "  "; ""] ++ chars "Hello, world") old_docs).1 =
    Some (<[1%N := VText "one line"]> {[2%N := VText "Hello"]}) /\
  plaintext_create_file 5 (line_file ["one"; "too long"; "two"]) old_docs = (old_docs, Ok tt).
Proof.
  split; [unfold one_line; by_computation|]. split; [right; by exists ["one line"; "  "; ""], "Hello, world"|]. split; [by_computation|vm_compute; reflexivity].
Qed.
Example C62_open_quote_example :
  pt_disk (plaintext_create_file 100 (line_file ["one"; """two"; "three"]) old_docs).1 =
    Some (<[1%N := VText "one"]> {[2%N := VText (text (chars "two" ++ [lf] ++ chars "three" ++ [lf]))]}) /\
  ~ only_whitespace (text (chars "two" ++ [lf] ++ chars "three" ++ [lf])) /\
  pt_disk (plaintext_create_file 100 (crlf_file ["one"; "two"]) old_docs).1 = Some (<[1%N := VText "one"]> {[2%N := VText "two"]}).
Proof.
  split_and!; [by_computation| |by_computation]. intros H. specialize (H "t"%char ltac:(by left)). revert H. by_computation.
Qed.
Definition say_hi : string := text ["a"; lf; ","; quote; "b"; quote]%char.
Definition say_hi_line : list char := quote :: ["a"; lf; ","; quote; quote; "b"; quote; quote]%char ++ [quote; lf].
Example C62_quoted_example : doc_line say_hi say_hi_line /\
  pt_disk (plaintext_create_file 100 (concat [say_hi_line; chars "it's ""b""" ++ [lf]]) old_docs).1 =
    Some (<[1%N := VText say_hi]> {[2%N := VText "it's ""b"""]}).
Proof. split; [apply doc_quoted; [by_computation|]; repeat (first [apply doubled_quote|apply doubled_other; [done|]|constructor])|by_computation]. Qed.
Example C93_example : let rows := [["a"; say_hi]; [""; text [cr; lf; quote]]] in
  fits 100 rows /\ csv_read 100 (write_rows rows) = (rows, Ok tt).
Proof.
  cbv zeta. split; [|vm_compute; reflexivity]. intros row cell Hr Hc.
  repeat (apply elem_of_cons in Hr as [->|Hr]); [..|by apply elem_of_nil in Hr]; repeat (apply elem_of_cons in Hc as [->|Hc]; [vm_compute; lia|]); by apply elem_of_nil in Hc.
Qed.
Example C94_example : json_line """ab c""" "ab c" /\ "\"%char ∉ chars """ab c""" /\ ~ only_whitespace "ab c".
Proof.
  split_and!; [|by_computation|by_computation]. exists (chars "ab c"). split; [done|].
  do 4 (apply json_plain; [done|done|vm_compute; lia|]). constructor.
Qed.
