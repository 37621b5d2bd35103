(** CsvProofs.v: reading what was written. *)
From Verif Require Export SpecCsv CorpusCalls.

Lemma eqb_refl_lf : Ascii.eqb lf lf = true. Proof. reflexivity. Qed.
Lemma eqb_neq (a b : char) : a ≠ b -> Ascii.eqb a b = false.
Proof. intros H. by destruct (Ascii.eqb_spec a b). Qed.

(** ** Lines *)
Lemma raw_lines_cur l : l ≠ [] -> exists first rest, raw_lines [] l = first :: rest /\ forall cur, raw_lines cur l = (cur ++ first) :: rest.
Proof.
  assert (forall n l, length l <= n -> l ≠ [] -> exists first rest, forall cur, raw_lines cur l = (cur ++ first) :: rest) as H.
  { clear l. induction n as [|n IH]; intros l Hl Hne; [destruct l; [done|cbn in Hl; lia]|].
    destruct l as [|a l]; [done|]. cbn in Hl. cbn [raw_lines]. destruct (Ascii.eqb a lf); [by exists [a], (raw_lines [] l)|].
    destruct (Ascii.eqb a cr).
    - destruct l as [|b l]; [by exists [a], []|]. destruct (Ascii.eqb b lf); [by exists [a; b], (raw_lines [] l)|by exists [a], (raw_lines [] (b :: l))].
    - destruct l as [|b l].
      + exists [a], []. intros cur. cbn. destruct (cur ++ [a]) eqn:E; [by destruct cur|done].
      + destruct (IH (b :: l)) as (first & rest & Hf); [lia|done|]. exists (a :: first), rest. intros cur. rewrite Hf, <- app_assoc. done. }
  intros Hne. destruct (H (length l) l) as (first & rest & Hf); [lia|done|]. exists first, rest. split; [by rewrite (Hf [])|done].
Qed.
Lemma raw_lines_plain a l : a ≠ lf -> a ≠ cr -> l ≠ [] ->
  exists first rest, raw_lines [] l = first :: rest /\ raw_lines [] (a :: l) = (a :: first) :: rest.
Proof.
  intros H1 H2 Hne. destruct (raw_lines_cur l Hne) as (first & rest & E1 & E2). exists first, rest. split; [done|].
  cbn [raw_lines]. rewrite (eqb_neq a lf H1), (eqb_neq a cr H2). by rewrite E2.
Qed.

Section limit.
  Context (limit : nat).
  Notation read p l := (read_records limit p (raw_lines [] l)).

  Lemma read_plain p p' a l : a ≠ lf -> a ≠ cr -> l ≠ [] -> process_char limit (Some a) p = Ok p' -> read p (a :: l) = read p' l.
  Proof.
    intros H1 H2 Hne Hp. destruct (raw_lines_plain a l H1 H2 Hne) as (first & rest & -> & ->).
    cbn [read_records process_chars]. by rewrite Hp.
  Qed.
  (** Inside quotes everything but a quote is kept. *)
  Lemma read_quoted f fs a l : a ≠ quote -> l ≠ [] -> length f < limit ->
    read (Parser InQuoted f fs) (a :: l) = read (Parser InQuoted (f ++ [a]) fs) l.
  Proof.
    intros Hq Hne Hl. assert (forall st, add_char limit st a (Parser InQuoted f fs) = Ok (Parser st (f ++ [a]) fs)) as Hadd.
    { intros st. unfold add_char. cbn. destruct (Nat.leb_spec limit (length f)); [lia|done]. }
    assert (process_char limit (Some a) (Parser InQuoted f fs) = Ok (Parser InQuoted (f ++ [a]) fs)) as Hp.
    { cbn [process_char p_state]. by rewrite (eqb_neq a quote Hq). }
    destruct (decide (a = lf)) as [->|Hlf].
    { change (raw_lines [] (lf :: l)) with ([lf] :: raw_lines [] l). cbn [read_records process_chars]. by rewrite Hp. }
    destruct (decide (a = cr)) as [->|Hcr]; [|by apply read_plain].
    destruct l as [|b l]; [done|]. destruct (Ascii.eqb_spec b lf) as [->|Hb].
    - change (raw_lines [] (cr :: lf :: l)) with ([cr; lf] :: raw_lines [] l).
      change (raw_lines [] (lf :: l)) with ([lf] :: raw_lines [] l). cbn [read_records process_chars]. by rewrite Hp.
    - change (raw_lines [] (cr :: b :: l)) with (if Ascii.eqb b lf then [cr; b] :: raw_lines [] l else [cr] :: raw_lines [] (b :: l)).
      rewrite (eqb_neq b lf Hb). cbn [read_records process_chars]. by rewrite Hp.
  Qed.
  Lemma read_escaped s l f fs rest : doubled s l -> length f + length s <= limit -> rest ≠ [] ->
    read (Parser InQuoted f fs) (l ++ quote :: rest) = read (Parser QuoteInQuoted (f ++ s) fs) rest.
  Proof.
    intros Hd Hl Hne. revert f Hl. induction Hd as [|s l Hd IH|a s l Ha Hd IH]; intros f Hl.
    - rewrite app_nil_r, app_nil_l. apply read_plain; done.
    - cbn in Hl. cbn [app].
      rewrite (read_plain _ (Parser QuoteInQuoted f fs)) by done.
      rewrite (read_plain _ (Parser InQuoted (f ++ [quote]) fs)); [|done|done|by destruct l|].
      + rewrite IH, <- app_assoc; [done|]. rewrite app_length. cbn. lia.
      + cbn [process_char p_state]. change (Ascii.eqb quote quote) with true. cbv iota. unfold add_char. cbn.
        destruct (Nat.leb_spec limit (length f)); [lia|done].
    - cbn in Hl. cbn [app]. rewrite read_quoted; [|done|by destruct l|lia].
      rewrite IH, <- app_assoc; [done|]. rewrite app_length. cbn. lia.
  Qed.
  Lemma doubled_escape s : doubled (chars s) (concat ((fun a => if Ascii.eqb a quote then [quote; quote] else [a]) <$> chars s)).
  Proof.
    induction s as [|a s IH]; cbn; [constructor|]. destruct (Ascii.eqb_spec a quote) as [->|H]; cbn; by constructor.
  Qed.

  Lemma text_chars s : text (chars s) = s.
  Proof. apply String.string_of_list_ascii_of_string. Qed.
  Lemma chars_length s : length (chars s) = String.length s.
  Proof. induction s as [|a s IH]; cbn; [done|by f_equal]. Qed.

  Definition at_start (p : csv_parser) : Prop := (p_state p = StartRecord \/ p_state p = StartField) /\ p_field p = [].
  Lemma read_cell p s rest : at_start p -> String.length s <= limit -> rest ≠ [] ->
    read p (write_cell s ++ rest) = read (Parser QuoteInQuoted (chars s) (p_fields p)) rest.
  Proof.
    intros [Hs Hf] Hl Hne. unfold write_cell. rewrite <- app_comm_cons, <- app_assoc.
    rewrite (read_plain _ (Parser InQuoted [] (p_fields p))); [|done|done| |].
    - change (String.list_ascii_of_string s) with (chars s). change ([quote] ++ rest) with (quote :: rest).
      rewrite (read_escaped (chars s) _ [] (p_fields p) rest (doubled_escape s)); [done| |done]. by rewrite chars_length.
    - destruct (concat _); done.
    - destruct p as [st f fs]. cbn in Hs, Hf. subst f. by destruct Hs as [-> | ->].
  Qed.
  Lemma read_row row : row ≠ [] -> (forall s, s ∈ row -> String.length s <= limit) -> forall p rest, at_start p ->
    read p (write_row row ++ rest) = let '(rows, r) := read parser0 rest in ((p_fields p ++ row) :: rows, r).
  Proof.
    intros Hne Hl. unfold write_row. induction row as [|s row IH]; [done|]. intros p rest Hp. destruct row as [|s' row].
    - cbn [write_cells]. rewrite <- app_assoc. rewrite read_cell; [|done|by apply Hl; left|done]. cbn [app].
      change (raw_lines [] (cr :: lf :: rest)) with ([cr; lf] :: raw_lines [] rest). cbn [read_records process_chars].
      cbn. change (String.list_ascii_of_string s) with (chars s). rewrite text_chars. done.
    - change (write_cells (s :: s' :: row)) with (write_cell s ++ comma :: write_cells (s' :: row)). rewrite <- !app_assoc.
      rewrite read_cell; [|done|by apply Hl; left|done]. cbn [app].
      rewrite (read_plain _ (save_field StartField (Parser QuoteInQuoted (chars s) (p_fields p)))); [|done|done| |done].
      + change (cr :: lf :: rest) with ([cr; lf] ++ rest). rewrite app_assoc. rewrite IH; [|done|intros x Hx; apply Hl; by right|split; [by right|done]].
        cbn [save_field p_fields p_field]. rewrite text_chars. destruct (read_records _ _ _). by rewrite <- app_assoc.
      + destruct (write_cells _); done.
  Qed.
  Lemma read_rows rows : (forall row, row ∈ rows -> row ≠ []) -> fits limit rows -> csv_read limit (write_rows rows) = (rows, Ok tt).
  Proof.
    intros Hne Hl. unfold csv_read, write_rows. induction rows as [|row rows IH]; [done|]. cbn [fmap list_fmap concat].
    rewrite read_row; [|apply Hne; by left|intros s Hs; apply (Hl row s); [by left|done]|split; [by left|done]].
    rewrite IH; [done|intros x Hx; apply Hne; by right|intros x c Hx Hc; apply (Hl x c); [by right|done]].
  Qed.
End limit.

Lemma written_lf l : written_as [lf] l = l.
Proof.
  induction l as [|a l IH]; [done|]. unfold written_as in *. rewrite fmap_cons. cbn [concat]. rewrite IH.
  by destruct (Ascii.eqb_spec a lf) as [->|_].
Qed.

(** ** The text file *)
Lemma universal_lf l : cr ∉ l -> universal l = l.
Proof.
  induction l as [|a l IH]; intros H; [done|]. apply not_elem_of_cons in H as [H1 H2]. cbn [universal].
  rewrite (eqb_neq a cr) by congruence. by rewrite IH.
Qed.

Section read.
  Context (limit : nat).
  Notation read p l := (read_records limit p (raw_lines [] l)).

  (** Plain characters up to the end of the column. *)
  Lemma read_column l p rest : (forall a, a ∈ l -> a ≠ lf /\ a ≠ cr /\ a ≠ comma) -> length (p_field p) + length l <= limit -> rest ≠ [] ->
    p_state p = InField -> read p (l ++ rest) = read (Parser InField (p_field p ++ l) (p_fields p)) rest.
  Proof.
    revert p. induction l as [|a l IH]; intros p Ha Hl Hne Hs.
    - rewrite app_nil_r, app_nil_l. destruct p. cbn in *. by subst.
    - cbn in Hl. destruct (Ha a) as (H1 & H2 & H3); [by left|]. rewrite <- app_comm_cons.
      rewrite (read_plain limit _ (Parser InField (p_field p ++ [a]) (p_fields p))); [|done|done|by destruct l|].
      + rewrite IH; [cbn; by rewrite <- app_assoc| | |done|done].
        * intros b Hb. apply Ha. by right.
        * cbn. rewrite app_length. cbn. lia.
      + unfold process_char. rewrite Hs. unfold newline_char. rewrite (eqb_neq a lf), (eqb_neq a cr), (eqb_neq a comma) by done. cbn.
        unfold add_char. destruct (Nat.leb_spec limit (length (p_field p))); [lia|done].
  Qed.
  Lemma read_column_start l p rest : (forall a, a ∈ l -> a ≠ lf /\ a ≠ cr /\ a ≠ comma) -> head l ≠ Some quote -> l ≠ [] -> length l <= limit -> rest ≠ [] ->
    at_start p -> read p (l ++ rest) = read (Parser InField l (p_fields p)) rest.
  Proof.
    intros Ha Hq Hl0 Hl Hne [Hs Hf]. destruct l as [|a l]; [done|]. cbn in Hl. destruct (Ha a) as (H1 & H2 & H3); [by left|].
    rewrite <- app_comm_cons. rewrite (read_plain limit _ (Parser InField [a] (p_fields p))); [|done|done|by destruct l|].
    - rewrite read_column; [done| |cbn; lia|done|done]. intros b Hb. apply Ha. by right.
    - assert (a ≠ quote) as H4 by (intros ->; by apply Hq).
      assert (start_field limit (Some a) p = Ok (Parser InField [a] (p_fields p))) as E.
      { unfold start_field, newline_char. rewrite (eqb_neq a lf), (eqb_neq a cr), (eqb_neq a comma), (eqb_neq a quote) by done. cbn.
        unfold add_char. rewrite Hf. cbn. destruct (Nat.leb_spec limit 0); [lia|done]. }
      unfold process_char. destruct Hs as [-> | ->]; [|done]. unfold newline_char. by rewrite (eqb_neq a lf), (eqb_neq a cr) by done.
  Qed.
  Lemma read_end p rest : p_state p = InField \/ p_state p = QuoteInQuoted \/ p_state p = StartField ->
    read p (lf :: rest) = let '(rows, r) := read parser0 rest in ((p_fields p ++ [text (p_field p)]) :: rows, r).
  Proof.
    intros Hs. change (raw_lines [] (lf :: rest)) with ([lf] :: raw_lines [] rest). cbn [read_records process_chars].
    destruct p as [st f fs]. cbn in Hs. by destruct Hs as [-> |[-> | ->]].
  Qed.
  Lemma read_blank_line rest : read parser0 (lf :: rest) = let '(rows, r) := read parser0 rest in ([] :: rows, r).
  Proof. done. Qed.

  (** A line without quotes is split at its commas. *)
  Lemma split_none cur l : comma ∉ l -> split_at (fun a => Ascii.eqb a comma) cur l = [rev cur ++ l].
  Proof.
    revert cur. induction l as [|a l IH]; intros cur H; cbn [split_at]; [by rewrite app_nil_r|]. apply not_elem_of_cons in H as [H1 H2].
    rewrite (eqb_neq a comma) by congruence. rewrite IH by done. cbn. by rewrite <- app_assoc.
  Qed.
  Lemma split_first cur l1 l2 : comma ∉ l1 ->
    split_at (fun a => Ascii.eqb a comma) cur (l1 ++ comma :: l2) = (rev cur ++ l1) :: split_at (fun a => Ascii.eqb a comma) [] l2.
  Proof.
    revert cur. induction l1 as [|a l IH]; intros cur H; cbn [split_at app]; [by rewrite app_nil_r|]. apply not_elem_of_cons in H as [H1 H2].
    rewrite (eqb_neq a comma) by congruence. rewrite IH by done. cbn. by rewrite <- app_assoc.
  Qed.
  Lemma read_line_from l : (forall a, a ∈ l -> a ≠ lf /\ a ≠ cr /\ a ≠ quote) ->
    (forall f, f ∈ split_at (fun a => Ascii.eqb a comma) [] l -> length f <= limit) -> forall p rest,
    p_state p = StartField /\ p_field p = [] \/ p_state p = StartRecord /\ p_field p = [] /\ l ≠ [] ->
    read p (l ++ lf :: rest) = let '(rows, r) := read parser0 rest in
      ((p_fields p ++ (text <$> split_at (fun a => Ascii.eqb a comma) [] l)) :: rows, r).
  Proof.
    assert (forall n l, length l <= n -> (forall a, a ∈ l -> a ≠ lf /\ a ≠ cr /\ a ≠ quote) ->
      (forall f, f ∈ split_at (fun a => Ascii.eqb a comma) [] l -> length f <= limit) -> forall p rest,
      p_state p = StartField /\ p_field p = [] \/ p_state p = StartRecord /\ p_field p = [] /\ l ≠ [] ->
      read p (l ++ lf :: rest) = let '(rows, r) := read parser0 rest in
        ((p_fields p ++ (text <$> split_at (fun a => Ascii.eqb a comma) [] l)) :: rows, r)) as H; [|by apply (H (length l))].
    clear l. induction n as [|n IH]; intros l Hn Ha Hf p rest Hp.
    - destruct l; [|cbn in Hn; lia]. destruct Hp as [[Hs Hp]|(_ & _ & ?)]; [|done]. rewrite app_nil_l, read_end by (right; by right). by rewrite Hp.
    - assert (forall l' : list char, (forall a, a ∈ l' -> a ∈ l) -> comma ∉ l' ->
        forall a, a ∈ l' -> a ≠ lf /\ a ≠ cr /\ a ≠ comma) as Hcol.
      { intros l' Hin Hc a Hal. destruct (Ha a (Hin a Hal)) as (H1 & H2 & _). split_and!; [done|done|]. by intros ->. }
      assert (forall l' : list char, (forall a, a ∈ l' -> a ∈ l) -> head l' ≠ Some quote) as Hhd.
      { intros [|b l'] Hin; [done|]. intros [= ->]. destruct (Ha quote) as (_ & _ & H); [apply Hin; by left|]. by apply H. }
      assert (at_start p) as Hat by (destruct Hp as [[? ?]|(? & ? & ?)]; split; auto).
      destruct (decide (comma ∈ l)) as [Hc|Hc].
      + apply elem_of_list_split_l in Hc as (l1 & l2 & -> & Hc). rewrite split_first by done. rewrite split_first in Hf by done.
        rewrite <- app_assoc, <- app_comm_cons. assert (exists q, p_state q = StartField /\ p_field q = [] /\
          p_fields q = p_fields p ++ [text l1] /\ read p (l1 ++ comma :: l2 ++ lf :: rest) = read q (l2 ++ lf :: rest)) as (q & Q1 & Q2 & Q3 & ->).
        { destruct l1 as [|a l1].
          - exists (save_field StartField p). split_and!; [done|done|cbn; f_equal; by rewrite (proj2 Hat)|].
            rewrite app_nil_l. apply read_plain; [done|done|by destruct l2|].
            destruct p as [st f fs]. destruct Hat as [Hst Hff]. cbn in Hst, Hff. subst f. by destruct Hst as [-> | ->].
          - exists (save_field StartField (Parser InField (a :: l1) (p_fields p))). split_and!; [done|done|done|].
            rewrite read_column_start; [|apply Hcol; [intros; apply elem_of_app; by left|done]|apply Hhd; intros; apply elem_of_app; by left|done| |done|done].
            + apply read_plain; [done|done|by destruct l2|done].
            + apply (Hf (a :: l1)). by left. }
        rewrite IH; [|rewrite app_length in Hn; cbn in Hn; lia|intros b Hb; apply Ha, elem_of_app; right; by right|intros f Hin; apply Hf; by right|by left].
        rewrite Q3. destruct (read_records _ _ _). rewrite <- app_assoc. done.
      + rewrite split_none by done. rewrite split_none in Hf by done. destruct l as [|a l].
        * destruct Hp as [[Hs Hp]|(_ & _ & ?)]; [|done]. rewrite app_nil_l, read_end by (right; by right). by rewrite Hp.
        * rewrite read_column_start; [|by apply Hcol|by apply Hhd|done|apply Hf; by left|done|done].
          rewrite read_end by by left. done.
  Qed.

  Lemma read_unquoted_lines lines rest : (forall s, s ∈ lines -> one_line s /\ quote ∉ chars s) ->
    (forall s c, s ∈ lines -> c ∈ csv_row s -> String.length c <= limit) ->
    read parser0 (line_file lines ++ rest) = let '(rows, r) := read parser0 rest in ((csv_row <$> lines) ++ rows, r).
  Proof.
    intros Hs Hl. induction lines as [|s lines IH]; [change (line_file [] ++ rest) with rest; by destruct (read_records _ _ _)|].
    unfold line_file in *. rewrite !fmap_cons. cbn [concat]. rewrite <- !app_assoc. cbn [app].
    assert (read parser0 (concat ((fun l => chars l ++ [lf]) <$> lines) ++ rest) = let '(rows, r) := read parser0 rest in ((csv_row <$> lines) ++ rows, r)) as E.
    { apply IH; [intros x Hx; apply Hs; by right|intros x c Hx; apply Hl; by right]. }
    destruct s as [|a s].
    - change (chars "") with (@nil char). rewrite app_nil_l, read_blank_line, E. by destruct (read_records limit parser0 (raw_lines [] rest)).
    - rewrite read_line_from; [rewrite E; by destruct (read_records limit parser0 (raw_lines [] rest))| | |].
      + intros b Hb. destruct (Hs (String a s)) as [[H1 H2] H3]; [by left|]. split_and!; intros ->; done.
      + intros f Hf. assert (text f ∈ csv_row (String a s)) as Hc.
        { unfold csv_row, Corpus.split. by apply elem_of_list_fmap_1. }
        pose proof (Hl (String a s) _ ltac:(by left) Hc) as Hlen. rewrite <- chars_length in Hlen.
        unfold chars in Hlen. by rewrite String.list_ascii_of_string_of_list_ascii in Hlen.
      + by right.
  Qed.
  (** A column that is too long. *)
  Lemma read_too_long l rest : (forall a, a ∈ l -> a ≠ lf /\ a ≠ cr /\ a ≠ comma) -> head l ≠ Some quote -> limit < length l ->
    read parser0 (l ++ rest) = ([], Err CsvError).
  Proof.
    intros Ha Hq Hl. 
    assert (forall a l2 p, a ≠ lf -> a ≠ cr -> process_char limit (Some a) p = Err CsvError -> read p (a :: l2) = ([], Err CsvError)) as Herr.
    { intros a l2 p H1 H2 Hp. assert (exists first rest, raw_lines [] (a :: l2) = (a :: first) :: rest) as (first & rest' & ->).
      { destruct l2 as [|b l2]; [cbn [raw_lines]; rewrite (eqb_neq a lf), (eqb_neq a cr) by done; by eexists _, _|].
        destruct (raw_lines_plain a (b :: l2) H1 H2) as (first & rest' & _ & E); [done|]. by exists first, rest'. }
      cbn [read_records process_chars]. by rewrite Hp. }
    rewrite <- (take_drop limit l), <- app_assoc. assert (length (take limit l) = limit) as Ht by (rewrite take_length; lia).
    destruct (drop limit l) as [|a l2] eqn:Ed; [apply (f_equal length) in Ed; rewrite drop_length in Ed; cbn in Ed; lia|].
    assert (a ∈ l) as Hal by (rewrite <- (take_drop limit l), Ed; apply elem_of_app; right; by left).
    destruct (Ha a Hal) as (H1 & H2 & H3). rewrite <- app_comm_cons.
    destruct (decide (limit = 0)) as [E0|E0].
    - assert (take limit l = []) as -> by (by rewrite E0). rewrite app_nil_l. rewrite E0, drop_0 in Ed. apply Herr; [done|done|].
      unfold process_char, start_field, newline_char. cbn [p_state parser0]. rewrite (eqb_neq a lf), (eqb_neq a cr), (eqb_neq a comma), (eqb_neq a quote); [|by intros ->; apply Hq; rewrite Ed|done..].
      cbn [orb]. unfold add_char. cbn [p_field parser0]. destruct (Nat.leb_spec limit (length (@nil char))); [done|cbn in *; lia].
    - rewrite read_column_start; [| | | |lia|done|by split; [left|]].
      + apply Herr; [done|done|]. unfold process_char, newline_char. cbn [p_state]. rewrite (eqb_neq a lf), (eqb_neq a cr), (eqb_neq a comma) by done.
        cbn [orb]. unfold add_char. cbn [p_field]. rewrite Ht, Nat.leb_refl. done.
      + intros b Hb. apply Ha. rewrite <- (take_drop limit l). apply elem_of_app. by left.
      + destruct l; [by rewrite take_nil|]. by destruct limit.
      + intros E. rewrite E in Ht. cbn in Ht. lia.
  Qed.

  (** Documents written as such. *)
  Lemma read_doc_lines (dl : list (string * list char)) : (forall x, x ∈ dl -> doc_line x.1 x.2 /\ String.length x.1 <= limit) ->
    read parser0 (concat dl.*2) = ((fun d => if bool_decide (chars d.1 = []) then match d.2 with [_] => [] | _ => [d.1] end else [d.1]) <$> dl, Ok tt).
  Proof.
    induction dl as [|[d l] dl IH]; intros H; [done|]. rewrite !fmap_cons. cbn [concat snd].
    assert (read parser0 (concat dl.*2) = _) as E by (apply IH; intros x Hx; apply H; by right). clear IH.
    destruct (H (d, l)) as [Hd Hl]; [by left|]. cbn in Hd, Hl. destruct Hd as [H1 H2 H3|l H1 H2].
    - rewrite <- app_assoc. cbn [app]. destruct (chars d) as [|a s] eqn:Ed.
      + rewrite app_nil_l, read_blank_line, E. cbn [fst]. rewrite bool_decide_eq_true_2 by done. done.
      + rewrite <- Ed in *. rewrite read_column_start; [| | | |by rewrite chars_length|done|by split; [left|]].
        * rewrite read_end by by left. rewrite E. cbn [fst p_fields parser0 app p_field]. rewrite text_chars, bool_decide_eq_false_2; [done|]. by rewrite Ed.
        * intros b Hb. destruct H1 as [H1 H1']. split_and!; intros ->; done.
        * rewrite Ed in *. cbn. intros [= ->]. by eapply H3.
        * by rewrite Ed.
    - rewrite <- app_comm_cons, <- app_assoc. cbn [app].
      rewrite (read_plain limit _ (Parser InQuoted [] [])); [|done|done|by destruct l|done].
      rewrite (read_escaped limit (chars d)); [|done|by rewrite chars_length|done]. rewrite app_nil_l.
      rewrite read_end by (right; by left). rewrite E. cbn [fst p_fields app p_field]. rewrite text_chars.
      case_bool_decide; [|done]. by destruct l.
  Qed.
End read.

(** Without a newline at the end of the file. *)
Definition unquoted_state (p : csv_parser) : Prop := p_state p ≠ InQuoted /\ p_state p ≠ QuoteInQuoted.
Lemma process_unquoted limit a p p' : a ≠ quote -> unquoted_state p -> process_char limit (Some a) p = Ok p' -> unquoted_state p'.
Proof.
  intros Ha [H1 H2] H. assert (forall st q, add_char limit st a p = Ok q -> p_state q = st) as Hadd.
  { intros st q. unfold add_char. destruct (limit <=? _); [done|]. by intros [= <-]. }
  unfold process_char, start_field, newline_char in H. rewrite (eqb_neq a quote Ha) in H. unfold unquoted_state.
  destruct p as [st f fs]. cbn [p_state] in H1, H2, H. destruct st; try done; destruct (Ascii.eqb a lf || Ascii.eqb a cr); try destruct (Ascii.eqb a comma);
    try (injection H as <-; by split); try done; apply Hadd in H; rewrite H; by split.
Qed.
Lemma process_end_unquoted limit p p' : unquoted_state p -> process_char limit None p = Ok p' -> unquoted_state p'.
Proof. intros [H1 H2] H. destruct p as [st f fs]. unfold unquoted_state. cbn in H1, H2, H. by destruct st; try done; injection H as <-; split. Qed.
Lemma process_final limit a p : a ≠ quote -> a ≠ lf -> a ≠ cr -> unquoted_state p -> process_chars limit [a] p = process_chars limit [a; lf] p.
Proof.
  intros Hq H1 H2 [U1 U2]. cbn [process_chars]. destruct (process_char limit (Some a) p) as [p'|e] eqn:E; [|done]. cbn [rbind].
  assert (p_state p' = InField \/ p_state p' = StartField) as Hs.
  { assert (forall st q, add_char limit st a p = Ok q -> p_state q = st) as Hadd.
    { intros st q. unfold add_char. destruct (limit <=? _); [done|]. by intros [= <-]. }
    unfold process_char, start_field, newline_char in E. rewrite (eqb_neq a quote), (eqb_neq a lf), (eqb_neq a cr) in E by done.
    destruct p as [st f fs]. cbn [p_state orb] in U1, U2, E. destruct st; try done; destruct (Ascii.eqb a comma);
      try (injection E as <-; cbn; auto); apply Hadd in E; auto. }
  destruct p' as [st f fs]. cbn in Hs. by destruct Hs as [-> | ->].
Qed.
Lemma final_newline limit l : quote ∉ l -> l ≠ [] -> last l ≠ Some lf -> last l ≠ Some cr -> forall p, unquoted_state p ->
  read_records limit p (raw_lines [] l) = read_records limit p (raw_lines [] (l ++ [lf])).
Proof.
  assert (forall n l, length l <= n -> quote ∉ l -> l ≠ [] -> last l ≠ Some lf -> last l ≠ Some cr -> forall p, unquoted_state p ->
    read_records limit p (raw_lines [] l) = read_records limit p (raw_lines [] (l ++ [lf]))) as H; [|by apply (H (length l))].
  clear l. induction n as [|n IH]; intros l Hn Hq Hne Hl1 Hl2 p Hp; [destruct l; [done|cbn in Hn; lia]|].
  destruct l as [|a l]; [done|]. apply not_elem_of_cons in Hq as [Hqa Hq]. cbn in Hn.
  destruct l as [|b l].
  { assert (a ≠ lf /\ a ≠ cr) as [Ha1 Ha2] by (split; intros ->; done).
    assert (raw_lines [] [a] = [[a]]) as -> by (cbn [raw_lines app]; by rewrite (eqb_neq a lf), (eqb_neq a cr) by done).
    assert (raw_lines [] ([a] ++ [lf]) = [[a; lf]]) as -> by (cbn [raw_lines app]; by rewrite (eqb_neq a lf), (eqb_neq a cr) by done).
    cbn [read_records]. by rewrite (process_final limit a p) by done. }
  assert (last (b :: l) ≠ Some lf /\ last (b :: l) ≠ Some cr) as [Hb1 Hb2] by done.
  assert (forall p, unquoted_state p -> read_records limit p (raw_lines [] (b :: l)) = read_records limit p (raw_lines [] ((b :: l) ++ [lf]))) as IHb.
  { intros q Hq'. apply IH; [lia|done..]. }
  assert (unquoted_state parser0) as H0 by done.
  assert (forall first l1 l2, (forall a, a ∈ first -> a ≠ quote) -> (forall p, unquoted_state p -> read_records limit p l1 = read_records limit p l2) ->
    read_records limit p (first :: l1) = read_records limit p (first :: l2)) as Hline.
  { intros first l1 l2 Hf H12. cbn [read_records]. destruct (process_chars limit first p) as [p'|e] eqn:E; [|done].
    assert (unquoted_state p') as Hp'.
    { clear -Hf E Hp. revert p Hp E. induction first as [|x first IH]; intros p Hp E; cbn in E; [by eapply process_end_unquoted|].
      destruct (process_char limit (Some x) p) as [q|] eqn:Ex; [|done]. cbn in E. eapply IH; [intros y Hy; apply Hf; by right| |done].
      eapply process_unquoted; [|done|done]. apply Hf. by left. }
    destruct (p_state p'); rewrite ?(H12 parser0 H0), ?(H12 p' Hp'); done. }
  rewrite <- app_comm_cons. destruct (Ascii.eqb_spec a lf) as [->|Hlf].
  { change (read_records limit p ([lf] :: raw_lines [] (b :: l)) = read_records limit p ([lf] :: raw_lines [] ((b :: l) ++ [lf]))). apply Hline; [|done]. by intros x ->%elem_of_list_singleton. }
  destruct (Ascii.eqb_spec a cr) as [->|Hcr].
  { destruct (Ascii.eqb_spec b lf) as [->|Hb].
    - change (raw_lines [] (cr :: lf :: l)) with ([cr; lf] :: raw_lines [] l).
      change (raw_lines [] (cr :: (lf :: l) ++ [lf])) with ([cr; lf] :: raw_lines [] (l ++ [lf])).
      destruct l as [|c l]; [by destruct Hb1|]. apply Hline; [intros x Hx; apply elem_of_cons in Hx as [-> | ->%elem_of_list_singleton]; done|].
      intros q Hq'. apply IH; [cbn in *; lia|by apply not_elem_of_cons in Hq as [_ Hq]|done..].
    - assert (forall x, raw_lines [] (cr :: b :: x) = [cr] :: raw_lines [] (b :: x)) as Hx.
      { intros x. change (raw_lines [] (cr :: b :: x)) with (if Ascii.eqb b lf then [cr; b] :: raw_lines [] x else [cr] :: raw_lines [] (b :: x)).
        by rewrite (eqb_neq b lf Hb). }
      cbn [app]. rewrite !Hx. apply Hline; [by intros x ->%elem_of_list_singleton|done]. }
  destruct (process_char limit (Some a) p) as [p'|e] eqn:E.
  - rewrite !(read_plain limit p p') by done. apply IHb. apply (process_unquoted limit a p p'); [congruence|done|done].
  - destruct (raw_lines_plain a (b :: l)) as (f1 & r1 & _ & ->); [done..|].
    destruct (raw_lines_plain a ((b :: l) ++ [lf])) as (f2 & r2 & _ & ->); [done..|].
    cbn [read_records process_chars]. by rewrite E.
Qed.
