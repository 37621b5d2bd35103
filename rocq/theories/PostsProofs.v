(** PostsProofs.v: lemmas about posts as rows of a table. *)
From Verif Require Export SpecPosts RenderedProofs.
From stdpp Require Import pretty.

Local Notation chars := String.list_ascii_of_string.

(** ** JSON *)
Lemma read_json_char c l : read_text (json_char c ++ l) = first_char c (read_text l).
Proof. destruct c as [[] [] [] [] [] [] [] []]; reflexivity. Qed.
Lemma read_json_chars s l : read_text (concat (json_char <$> s) ++ quote :: l) = Some (s, l).
Proof.
  induction s as [|c s IH]; [reflexivity|]. cbn [fmap list_fmap concat]. rewrite <- app_assoc, read_json_char. fold (fmap json_char s).
  rewrite IH. reflexivity.
Qed.
Lemma text_chars s : text (chars s) = s.
Proof. apply String.string_of_list_ascii_of_string. Qed.
Lemma blank_value n l : read_value n (" "%char :: l) = read_value n l.
Proof. by destruct n. Qed.
Lemma blank_values n l : read_values (S n) (" "%char :: l) = read_values (S n) l.
Proof. cbn [read_values]. by rewrite blank_value. Qed.
Lemma blank_members n l : read_members n (" "%char :: l) = read_members n l.
Proof. by destruct n. Qed.
Lemma read_json_value n o l : read_value (S n) (json_value o ++ l) = Some (text_or_null o, l).
Proof.
  destruct o as [s|]; [|reflexivity]. unfold json_value, json_string.
  change ((quote :: concat (json_char <$> chars s) ++ [quote]) ++ l) with (quote :: (concat (json_char <$> chars s) ++ [quote]) ++ l).
  rewrite <- app_assoc. change ([quote] ++ l) with (quote :: l).
  change (read_value (S n) (quote :: concat (json_char <$> chars s) ++ quote :: l)) with
    ((fun x : list char * list char => (JText (text x.1), x.2)) <$> read_text (concat (json_char <$> chars s) ++ quote :: l)).
  rewrite read_json_chars. cbn. by rewrite text_chars.
Qed.
Lemma read_member n key o l : read_members (S (S n)) (json_string key ++ chars ": " ++ json_value o ++ l) =
  match skip_blanks l with
  | ","%char :: l => (fun r => ((key, text_or_null o) :: r.1, r.2)) <$> read_members (S n) l
  | "}"%char :: l => Some ([(key, text_or_null o)], l)
  | _ => None
  end.
Proof.
  unfold json_string.
  change ((quote :: concat (json_char <$> chars key) ++ [quote]) ++ chars ": " ++ json_value o ++ l)
    with (quote :: (concat (json_char <$> chars key) ++ [quote]) ++ ":"%char :: " "%char :: json_value o ++ l).
  rewrite <- app_assoc. change ([quote] ++ ?x) with (quote :: x).
  set (r := ":"%char :: " "%char :: json_value o ++ l).
  assert (read_members (S (S n)) (quote :: concat (json_char <$> chars key) ++ quote :: r) =
    match read_text (concat (json_char <$> chars key) ++ quote :: r) with
    | None => None
    | Some (key, l) =>
        match skip_blanks l with
        | ":"%char :: l =>
            match read_value (S n) l with
            | None => None
            | Some (x, l) =>
                match skip_blanks l with
                | ","%char :: l => (fun r => ((text key, x) :: r.1, r.2)) <$> read_members (S n) l
                | "}"%char :: l => Some ([(text key, x)], l)
                | _ => None
                end
            end
        | _ => None
        end
    end) as -> by reflexivity.
  rewrite read_json_chars. unfold r. change (skip_blanks (":"%char :: ?x)) with (":"%char :: x). cbv iota beta.
  rewrite blank_value, read_json_value, text_chars. reflexivity.
Qed.
Lemma read_json_comment n c l : read_value (S (S (S (S (S n))))) (json_comment c ++ l) =
  Some (JObject [("DisplayName", text_or_null c.1.1.2); ("Text", text_or_null c.1.2); ("ContentLicense", text_or_null c.2)], l).
Proof.
  unfold json_comment. rewrite <- !app_assoc.
  set (r2 := chars ", " ++ json_string "ContentLicense" ++ chars ": " ++ json_value c.2 ++ chars "}" ++ l).
  set (r1 := chars ", " ++ json_string "Text" ++ chars ": " ++ json_value c.1.2 ++ r2).
  set (r0 := json_string "DisplayName" ++ chars ": " ++ json_value c.1.1.2 ++ r1).
  change (read_value (S (S (S (S (S n))))) (chars "{" ++ r0)) with
    ((fun x : list (string * json) * list char => (JObject x.1, x.2)) <$> read_members (S (S (S (S n)))) r0).
  unfold r0. rewrite read_member. unfold r1.
  change (skip_blanks (chars ", " ++ ?x)) with (","%char :: " "%char :: x). cbv iota beta. rewrite blank_members, read_member. unfold r2.
  change (skip_blanks (chars ", " ++ ?x)) with (","%char :: " "%char :: x). cbv iota beta. rewrite blank_members, read_member.
  reflexivity.
Qed.
Definition comment_json (c : option Z * option string * option string * option string) : json :=
  JObject [("DisplayName", text_or_null c.1.1.2); ("Text", text_or_null c.1.2); ("ContentLicense", text_or_null c.2)].
Lemma read_json_items cs : forall c n l,
  read_values (length cs + S (S (S (S (S (S n)))))) (json_items (json_comment <$> c :: cs) ++ "]"%char :: l) = Some (comment_json <$> c :: cs, l).
Proof.
  induction cs as [|c' cs IH]; intros c n l.
  - cbn [length Nat.add]. cbn [read_values fmap list_fmap json_items]. rewrite read_json_comment. reflexivity.
  - cbn [length Nat.add]. change (json_items (json_comment <$> c :: c' :: cs)) with (json_comment c ++ chars ", " ++ json_items (json_comment <$> c' :: cs)).
    rewrite <- !app_assoc. replace (S (length cs + S (S (S (S (S (S n))))))) with (S (S (S (S (S (S (length cs + S n))))))) by lia.
    remember (json_items (json_comment <$> c' :: cs) ++ "]"%char :: l) as r eqn:Er.
    assert (read_values (S (S (S (S (S (S (length cs + S n))))))) (json_comment c ++ chars ", " ++ r) =
      match read_value (S (S (S (S (S (length cs + S n)))))) (json_comment c ++ chars ", " ++ r) with
      | None => None
      | Some (x, l) =>
          match skip_blanks l with
          | ","%char :: l => (fun r => (x :: r.1, r.2)) <$> read_values (S (S (S (S (S (length cs + S n)))))) l
          | "]"%char :: l => Some ([x], l)
          | _ => None
          end
      end) as -> by reflexivity.
    rewrite read_json_comment. change (skip_blanks (chars ", " ++ r)) with (","%char :: " "%char :: r). cbv iota beta.
    rewrite blank_values. replace (S (S (S (S (S (length cs + S n)))))) with (length cs + S (S (S (S (S (S n)))))) by lia.
    subst r. rewrite IH. reflexivity.
Qed.
Lemma json_items_length cs : length cs <= length (json_items (json_comment <$> cs)).
Proof.
  assert (forall c, 1 <= length (json_comment c)) as H by (intros c; unfold json_comment; cbn; lia).
  induction cs as [|c cs IH]; [done|]. specialize (H c). destruct cs as [|c' cs]; [cbn; lia|].
  change (json_items (json_comment <$> c :: c' :: cs)) with (json_comment c ++ chars ", " ++ json_items (json_comment <$> c' :: cs)).
  rewrite !app_length. cbn [length] in *. lia.
Qed.
Lemma text_length l : String.length (text l) = length l.
Proof. induction l as [|a l IH]; [done|]. cbn. by rewrite IH. Qed.
Lemma read_json_list c cs k : read_value (S (length cs + S (S (S (S (S (S k))))))) (json_list (json_comment <$> c :: cs)) =
  Some (JList (comment_json <$> c :: cs), []).
Proof.
  unfold json_list. set (n := length cs + S (S (S (S (S (S k)))))).
  assert (forall l, read_value (S n) (chars "[" ++ json_items (json_comment <$> c :: cs) ++ l) =
    (fun x : list json * list char => (JList x.1, x.2)) <$> read_values n (json_items (json_comment <$> c :: cs) ++ l)) as E.
  { intros l. destruct cs; reflexivity. }
  rewrite E. unfold n. change (chars "]") with ["]"%char]. rewrite read_json_items. reflexivity.
Qed.
Lemma json_of_comments cs : json_of (text (json_list (json_comment <$> cs))) = Some (JList (comment_json <$> cs)).
Proof.
  unfold json_of. rewrite text_length, String.list_ascii_of_string_of_list_ascii. destruct cs as [|c cs]; [reflexivity|].
  assert (exists k, 10 + length (json_list (json_comment <$> c :: cs)) = S (length cs + S (S (S (S (S (S k))))))) as [k ->].
  { pose proof (json_items_length (c :: cs)) as Hl. unfold json_list. rewrite !app_length. cbn [length] in Hl |- *.
    exists (10 + (length (chars "[") + (length (json_items (json_comment <$> c :: cs)) + length (chars "]"))) - 7 - length cs). cbn [length] in *. change (length (chars "[")) with 1. change (length (chars "]")) with 1. cbn [fmap list_fmap] in *. lia. }
  rewrite read_json_list. reflexivity.
Qed.

(** ** The values of a post *)
Lemma made_fields_more h url id k x f : identifies (made_by h) k url id ->
  last_such (fun y => question_or_answer y /\ xp_id y = id) (posts_in url h) x -> sx_fields_of (made_by h) k = Ok f ->
  sf_id f = xp_id x /\ sf_parent f = xp_parent x /\
  ((xp_type x = Some "1" /\ sf_type f = "Question") \/ (xp_type x = Some "2" /\ sf_type f = "Answer")) /\
  (forall t, sf_title f = Some t -> titled url h x t).
Proof.
  intros Hid Hl Hf. pose proof (made_tracks h) as T. pose proof (tr_inv _ _ T) as Hi. set (st := made_by h) in *.
  destruct (identifies_site _ _ _ _ Hid) as [s Hs]. apply (identifies_key st k url id s Hi Hs) in Hid as Hk.
  destruct (tr_last _ _ T k s id x Hk) as (kind & Hkind & Hrow); [unfold at_site; by rewrite Hs|].
  unfold sx_fields_of in Hf. rewrite Hrow in Hf. cbn [po_site po_x po_kind] in Hf. rewrite Hs in Hf. injection Hf as <-.
  cbn [sf_id sf_parent sf_type sf_title]. split_and!; try done.
  - unfold post_kind in Hkind. destruct Hl as (_ & _ & _ & [[E|E] _] & _); rewrite E in Hkind; injection Hkind as <-; [by left|by right].
  - intros t Ht. destruct (xp_title x) as [t'|] eqn:Et; [injection Ht as ->; by apply own_title|].
    destruct (xp_parent x) as [p|] eqn:Ep; [|done]. destruct (find_post (posts st) s p) as [kq|] eqn:Eq; [|done].
    assert (identifies st kq url p) as Hq by (apply (identifies_key st kq url p s Hi Hs); exact Eq).
    destruct (made_document h url p kq Hq) as (y & _ & Hy & _).
    destruct (tr_last _ _ T kq s p y Eq) as (kind' & _ & Hrow'); [unfold at_site; by rewrite Hs|].
    rewrite Hrow' in Ht. cbn [po_x] in Ht. by eapply title_of_question.
Qed.
Lemma last_such_found {A} (P : A -> Prop) `{forall x, Decision (P x)} l x :
  List.find (fun x => bool_decide (P x)) (rev l) = Some x -> last_such P l x.
Proof.
  induction l as [|y l IH] using rev_ind; [done|]. rewrite rev_app_distr. cbn [rev app List.find].
  case_bool_decide as Hy.
  - intros [= <-]. exists l, []. split; [done|]. split; [done|]. intros z Hz. by apply elem_of_nil in Hz.
  - intros (l1 & l2 & -> & HP & Hn)%IH. exists l1, (l2 ++ [y]). split; [by rewrite <- app_assoc|]. split; [done|].
    intros z [Hz| ->%elem_of_list_singleton]%elem_of_app; [by apply Hn|done].
Qed.
Lemma last_name_called url h user : called url h user (last_name url h user).
Proof.
  intros n. unfold last_name. destruct user as [u|]; [|split; [done|by intros (? & ? & ? & _)]]. split.
  - destruct (List.find _ _) as [x|] eqn:E; [|done]. intros Hx. exists u, x. split; [done|]. split; [|done]. by apply (last_such_found (fun x => xu_id x = Some u) _ x E).
  - intros (v & x & [= <-] & Hl & Hn). by rewrite (find_last _ _ _ Hl).
Qed.

(** The cells of a post. *)
Lemma post_row_says h url id k x order : orders_sets order -> identifies (made_by h) k url id ->
  last_such (fun y => question_or_answer y /\ xp_id y = id) (posts_in url h) x ->
  exists content, post_cells order (made_by h) (VInt (Z.of_N k)) = Ok content /\
    says_post h url x (fun name v => content !! name = Some v /\ name ∈ post_columns).
Proof.
  intros Ho Hid Hl. destruct (made_fields h url id k x Hid Hl) as (f & Hf & Hurl & Hown & Hname & Hlic & _ & Hbody & Htags & Hcs & Htitle).
  destruct (made_fields_more h url id k x f Hid Hl Hf) as (Hi & Hpar & Hty & Htitle').
  unfold post_cells. rewrite (proj2 (Z.ltb_ge _ _)) by lia. rewrite N2Z.id, Hf. cbn [rmap]. eexists. split; [reflexivity|].
  unfold post_content. rewrite Hi, Hurl, Hown, Hname, Hlic, Hbody, Hpar.
  assert (forall name, name ∈ post_columns <-> List.existsb (String.eqb name) post_columns = true) as Hin.
  { intros name. rewrite List.existsb_exists, elem_of_list_In. split; [intros H; exists name; split; [done|apply String.eqb_refl]|].
    intros (y & H & ->%String.eqb_eq). done. }
  split.
  - split; [reflexivity|by apply Hin].
  - split; [reflexivity|by apply Hin].
  - eexists. split; [split; [reflexivity|by apply Hin]|]. by destruct (xp_owner x).
  - exists (last_name url h (xp_owner x)). eexists. split; [apply last_name_called|]. split; [split; [reflexivity|by apply Hin]|].
    by destruct (last_name url h (xp_owner x)).
  - eexists. split; [split; [reflexivity|by apply Hin]|]. by destruct (xp_license x).
  - destruct Hty as [[E ->]|[E ->]]; [left|right]; (split; [done|]; split; [reflexivity|by apply Hin]).
  - eexists. split; [split; [reflexivity|by apply Hin]|]. by destruct (xp_body x).
  - eexists. split; [split; [reflexivity|by apply Hin]|]. by destruct (xp_parent x).
  - exists (sf_title f). eexists. split; [intros t; split; [apply Htitle'|apply Htitle]|].
    split; [split; [reflexivity|by apply Hin]|]. by destruct (sf_title f).
  - split; [reflexivity|by apply Hin].
  - exists (order k (sf_tags f)). split; [rewrite (Ho k (sf_tags f)); apply NoDup_elements|].
    split; [intros t; rewrite (Ho k (sf_tags f)), elem_of_elements; apply Htags|]. split; [reflexivity|by apply Hin].
  - eexists _, _. split; [split; [reflexivity|by apply Hin]|]. split; [apply json_of_comments|].
    rewrite Hcs, <- list_fmap_compose. apply Forall2_fmap_r, Forall_Forall2_diag, Forall_forall. intros c _.
    exists (last_name url h (xc_user c)). split; [apply last_name_called|]. reflexivity.
Qed.
Lemma says_mono h url x (cell cell' : string -> string -> Prop) : (forall n v, cell n v -> cell' n v) ->
  says_post h url x cell -> says_post h url x cell'.
Proof.
  intros Hm [H1 H2 (s3 & A3 & B3) (o4 & s4 & A4 & B4 & C4) (s5 & A5 & B5) H6 (s7 & A7 & B7) (s8 & A8 & B8) (o9 & s9 & A9 & B9 & C9) H10
    (l11 & A11 & B11 & C11) (s12 & l12 & A12 & B12 & C12)].
  split; [by apply Hm|by apply Hm|by exists s3; auto|by exists o4, s4; auto|by exists s5; auto| |by exists s7; auto|by exists s8; auto|
    by exists o9, s9; auto|by apply Hm|by exists l11; auto|by exists s12, l12; auto].
  destruct H6 as [[? ?]|[? ?]]; [left|right]; auto.
Qed.
