(** MarkupProofs.v: reading what the templates write. *)
From stdpp Require Import sets.
From Verif Require Export SpecMarkup.

Lemma app_cons_string c a b : (String c a +:+ b)%string = String c (a +:+ b)%string.
Proof. reflexivity. Qed.
Lemma app_empty_string b : ("" +:+ b)%string = b.
Proof. reflexivity. Qed.
Lemma app_nil_string s : (s +:+ "")%string = s.
Proof. induction s as [|c s IH]; [done|]. rewrite !app_cons_string, IH. done. Qed.
Lemma app_assoc_string a b c : ((a +:+ b) +:+ c)%string = (a +:+ (b +:+ c))%string.
Proof. induction a as [|x a IH]; [done|]. rewrite !app_cons_string, IH. done. Qed.
Lemma prepend_app {B} l l' (x : list seen * B) : prepend l (prepend l' x) = prepend (l ++ l') x.
Proof. unfold prepend. cbn. by rewrite <- app_assoc. Qed.
Lemma prepend_nil {B} (x : list seen * B) : prepend [] x = x.
Proof. by destruct x. Qed.

Lemma scan_app a : forall m b, scan m (a +:+ b)%string = prepend (scan m a).1 (scan (scan m a).2 b).
Proof.
  induction a as [|c a IH]; intros m b; [rewrite app_empty_string; cbn; by rewrite prepend_nil|].
  rewrite app_cons_string. cbn.
  destruct (step m c) as [l m'] eqn:Hs. rewrite IH, prepend_app. cbn. done.
Qed.

(** Escaped text is read literally, wherever references are resolved. *)
Lemma scan_escape s : forall p, scan (At p) (escape s) = (literally p s, At p).
Proof.
  induction s as [|c s IH]; intros p; [done|].
  cbn [escape]. rewrite scan_app. unfold literally in *. cbn [chars_of List.map].
  enough (scan (At p) (escape_char c) = ([at_place p c], At p)) as ->.
  { cbn [fst snd]. rewrite IH. done. }
  unfold escape_char.
  destruct (Ascii.eqb_spec c "&"); [subst; by destruct p|].
  destruct (Ascii.eqb_spec c "<"); [subst; by destruct p|].
  destruct (Ascii.eqb_spec c ">"); [subst; by destruct p|].
  destruct (Ascii.eqb_spec c "'"); [subst; by destruct p|].
  destruct (Ascii.eqb_spec c """"); [subst; by destruct p|].
  cbn. unfold step_at. destruct (Ascii.eqb_spec c "&"); [done|].
  destruct p; [destruct (Ascii.eqb_spec c "<")|destruct (Ascii.eqb_spec c """")|destruct (Ascii.eqb_spec c "'")]; done.
Qed.
Lemma escape_plain s : harmless s -> escape s = s.
Proof.
  induction s as [|c s IH]; intros Hh; [done|]. cbn [escape].
  rewrite IH by (intros x Hx; apply Hh; cbn; by right).
  destruct (Hh c ltac:(cbn; by left)) as (H1&H2&H3&H4&H5).
  unfold escape_char. destruct (Ascii.eqb_spec c "&"); [done|]. destruct (Ascii.eqb_spec c "<"); [done|].
  destruct (Ascii.eqb_spec c ">"); [done|]. destruct (Ascii.eqb_spec c "'"); [done|]. destruct (Ascii.eqb_spec c """"); done.
Qed.
Lemma scan_harmless s p : harmless s -> scan (At p) s = (literally p s, At p).
Proof. intros H. rewrite <- (escape_plain s H) at 1. apply scan_escape. Qed.
(** Numbers can stand in a tag without quotes. *)
Lemma digit_harmless s : number s -> harmless s.
Proof. intros Hn c Hc. specialize (Hn c Hc). repeat split; intros ->; discriminate Hn. Qed.
Lemma scan_number s : number s -> scan InTag (escape s) = (List.map Tag (chars_of s), InTag).
Proof.
  intros Hn. rewrite escape_plain by by apply digit_harmless.
  induction s as [|c s IH]; [done|]. cbn [scan].
  destruct (digit_harmless _ Hn c ltac:(cbn; by left)) as (H1&H2&H3&H4&H5).
  cbn [step]. destruct (Ascii.eqb_spec c ">"); [done|]. destruct (Ascii.eqb_spec c """"); [done|].
  destruct (Ascii.eqb_spec c "'"); [done|]. rewrite IH by (intros x Hx; apply Hn; cbn; by right). done.
Qed.

Lemma render_app a b : render (a ++ b) = (render a +:+ render b)%string.
Proof. induction a as [|p a IH]; [done|]. cbn. by rewrite IH, app_assoc_string. Qed.

(** ** Reading pieces *)
Definition scans (m : mode) (ps : list piece) : list seen * mode := scan m (render ps).
Lemma scans_app m a b : scans m (a ++ b) = prepend (scans m a).1 (scans (scans m a).2 b).
Proof. unfold scans. by rewrite render_app, scan_app. Qed.
Lemma scans_cons m p a : scans m (p :: a) = prepend (scan m (piece_text p)).1 (scans (scan m (piece_text p)).2 a).
Proof. unfold scans. cbn. by rewrite scan_app. Qed.

Definition shown_of (l : list seen) : string :=
  string_of (concat (List.map (fun x => match x with Shown c => [c] | _ => [] end) l)).
Lemma string_of_app a b : string_of (a ++ b) = (string_of a +:+ string_of b)%string.
Proof. induction a as [|c a IH]; [done|]. cbn. by rewrite IH, app_cons_string. Qed.
Lemma shown_of_app a b : shown_of (a ++ b) = (shown_of a +:+ shown_of b)%string.
Proof. unfold shown_of. by rewrite List.map_app, concat_app, string_of_app. Qed.
Lemma tags_of_app a b : tags_of (a ++ b) = (tags_of a +:+ tags_of b)%string.
Proof. unfold tags_of. by rewrite List.map_app, concat_app, string_of_app. Qed.
Lemma shown_literally s : shown_of (literally InText s) = s.
Proof. induction s as [|c s IH]; [done|]. unfold shown_of, literally in *. cbn. by rewrite IH. Qed.
Lemma tags_literally p s : tags_of (literally p s) = "".
Proof. destruct p; (induction s as [|c s IH]; [done|]); unfold tags_of, literally in *; exact IH. Qed.

(** [goes m ps t m']: read from mode [m], the pieces have the tags [t] and lead to [m'], and
    every text in [shown] is seen. *)
Definition goes (m : mode) (ps : list piece) (t : string) (m' : mode) : Prop :=
  tags_of (scans m ps).1 = t /\ (scans m ps).2 = m'.
Definition sees (m : mode) (ps : list piece) (text : string) : Prop :=
  exists a b, shown_of (scans m ps).1 = (a +:+ text +:+ b)%string.

Lemma goes_nil m : goes m [] "" m.
Proof. done. Qed.
Lemma goes_app m a b t t' m' m'' : goes m a t m' -> goes m' b t' m'' -> goes m (a ++ b) (t +:+ t')%string m''.
Proof. intros [H1 H2] [H3 H4]. unfold goes. rewrite scans_app, H2. unfold prepend; cbn [fst snd piece_text]. by rewrite tags_of_app, H1, H3. Qed.
Lemma goes_lit m s : goes m [Lit s] (tags_of (scan m s).1) (scan m s).2.
Proof. unfold goes. rewrite scans_cons. unfold prepend; cbn [fst snd piece_text]. rewrite app_nil_r. done. Qed.
Lemma goes_esc p s : goes (At p) [Esc s] "" (At p).
Proof. unfold goes. rewrite scans_cons. unfold prepend; cbn [fst snd piece_text]. rewrite scan_escape, app_nil_r. unfold prepend; cbn [fst snd piece_text]. by rewrite tags_literally. Qed.
Lemma sees_left m a b x : sees m a x -> sees m (a ++ b) x.
Proof.
  intros (u&v&H). exists u, (v +:+ shown_of (scans (scans m a).2 b).1)%string.
  rewrite scans_app. unfold prepend; cbn [fst snd piece_text]. rewrite shown_of_app, H, !app_assoc_string. done.
Qed.
Lemma sees_right m a b x : sees (scans m a).2 b x -> sees m (a ++ b) x.
Proof.
  intros (u&v&H). exists (shown_of (scans m a).1 +:+ u)%string, v.
  rewrite scans_app. unfold prepend; cbn [fst snd piece_text]. rewrite shown_of_app, H, !app_assoc_string. done.
Qed.
Lemma sees_esc s : sees (At InText) [Esc s] s.
Proof.
  exists "", "". rewrite scans_cons. unfold prepend; cbn [fst snd piece_text]. rewrite scan_escape, app_nil_r, app_nil_string. unfold prepend; cbn [fst snd piece_text]. apply shown_literally.
Qed.

(** ** Two lists of pieces with the same tags *)
Definition alike (m : mode) (a b : list piece) (m' : mode) : Prop := exists t, goes m a t m' /\ goes m b t m'.
Lemma alike_nil m : alike m [] [] m.
Proof. exists "". split; apply goes_nil. Qed.
Lemma alike_app m a a' b b' m1 m' : alike m a a' m1 -> alike m1 b b' m' -> alike m (a ++ b) (a' ++ b') m'.
Proof. intros (t&H1&H2) (t'&H3&H4). exists (t +:+ t')%string. split; eapply goes_app; eassumption. Qed.
Lemma alike_lit m s m1 a a' m' : (scan m s).2 = m1 -> alike m1 a a' m' -> alike m (Lit s :: a) (Lit s :: a') m'.
Proof.
  intros <- H. apply (alike_app m [Lit s] [Lit s] a a' (scan m s).2); [|done].
  exists (tags_of (scan m s).1). split; apply goes_lit.
Qed.
Lemma alike_raw m s m1 a a' m' : (scan m s).2 = m1 -> alike m1 a a' m' -> alike m (Raw s :: a) (Raw s :: a') m'.
Proof.
  intros <- H. apply (alike_app m [Raw s] [Raw s] a a' (scan m s).2); [|done].
  exists (tags_of (scan m s).1). split; apply goes_lit.
Qed.
Lemma alike_esc p s s' a a' m' : alike (At p) a a' m' -> alike (At p) (Esc s :: a) (Esc s' :: a') m'.
Proof.
  intros H. apply (alike_app (At p) [Esc s] [Esc s'] a a' (At p)); [|done].
  exists "". split; apply goes_esc.
Qed.
Lemma alike_plain p s s' a a' m' : harmless s -> harmless s' -> alike (At p) a a' m' -> alike (At p) (Raw s :: a) (Raw s' :: a') m'.
Proof.
  intros Hs Hs' H. apply (alike_app (At p) [Raw s] [Raw s'] a a' (At p)); [|done].
  exists "". split; [generalize (goes_esc p s)|generalize (goes_esc p s')]; unfold goes, scans; cbn [render piece_text];
    rewrite escape_plain by done; exact id.
Qed.
Lemma alike_number s a a' m' : number s -> alike InTag a a' m' -> alike InTag (Esc s :: a) (Esc s :: a') m'.
Proof.
  intros Hn H. apply (alike_app InTag [Esc s] [Esc s] a a' InTag); [|done].
  exists (tags_of (List.map Tag (chars_of s))). unfold goes. rewrite scans_cons. cbn [piece_text].
  rewrite (scan_number s Hn). unfold prepend. cbn. rewrite app_nil_r. done.
Qed.
Lemma alike_each {A} m (l : list A) (h : A -> A) (f g : A -> list piece) :
  (forall x, x ∈ l -> alike m (f x) (g (h x)) m) -> alike m (each l f) (each (h <$> l) g) m.
Proof.
  induction l as [|x l IH]; intros H; [apply alike_nil|].
  unfold each. cbn. eapply alike_app; [apply H; left|]. apply IH. intros y Hy. apply H. by right.
Qed.
Lemma alike_each_same {A} m (l : list A) (f : A -> list piece) :
  (forall x, x ∈ l -> alike m (f x) (f x) m) -> alike m (each l f) (each l f) m.
Proof. intros H. rewrite <- (list_fmap_id l) at 2. apply alike_each. exact H. Qed.

Lemma sees_cons m p a x : sees (scan m (piece_text p)).2 a x -> sees m (p :: a) x.
Proof.
  intros H. apply (sees_right m [p] a). unfold scans. cbn [render]. rewrite app_nil_string. exact H.
Qed.
Lemma sees_lit m s m1 a x : (scan m s).2 = m1 -> sees m1 a x -> sees m (Lit s :: a) x.
Proof. intros <- H. by apply sees_cons. Qed.
Lemma sees_skip p s a x : sees (At p) a x -> sees (At p) (Esc s :: a) x.
Proof. intros H. apply sees_cons. cbn [piece_text]. by rewrite scan_escape. Qed.
Lemma sees_skip_plain p s a x : harmless s -> sees (At p) a x -> sees (At p) (Raw s :: a) x.
Proof. intros Hs H. apply sees_cons. cbn [piece_text]. by rewrite scan_harmless. Qed.
Lemma sees_here s a : sees (At InText) (Esc s :: a) s.
Proof. apply (sees_left (At InText) [Esc s] a). apply sees_esc. Qed.
Lemma sees_plain s a : harmless s -> sees (At InText) (Raw s :: a) s.
Proof.
  intros H. apply (sees_left (At InText) [Raw s] a). generalize (sees_esc s). unfold sees, scans. cbn [render piece_text].
  rewrite escape_plain by done. exact id.
Qed.
Lemma sees_after m a a' b m1 x : alike m a a' m1 -> sees m1 b x -> sees m (a ++ b) x.
Proof. intros (t&[_ H]&_) Hs. apply sees_right. by rewrite H. Qed.
Lemma sees_each {A} m (l : list A) (f : A -> list piece) y x :
  (forall x, x ∈ l -> alike m (f x) (f x) m) -> y ∈ l -> sees m (f y) x -> sees m (each l f) x.
Proof.
  induction l as [|z l IH]; intros H Hy Hs; [by apply elem_of_nil in Hy|].
  unfold each. cbn. apply elem_of_cons in Hy as [->|Hy]; [by apply sees_left|].
  eapply sees_after; [apply H; left|]. apply IH; [|done|done]. intros w Hw. apply H. by right.
Qed.

Lemma alike_tags a b : alike (At InText) a b (At InText) -> tags (render a) = tags (render b).
Proof.
  intros (t&[H1 H2]&[H3 H4]). unfold tags, reads. unfold tags_of, scans in *.
  destruct (scan (At InText) (render a)) as [l m], (scan (At InText) (render b)) as [l' m']. cbn in *. subst m m'.
  cbn. rewrite !app_nil_r, H1. done.
Qed.
Lemma sees_shown a x : sees (At InText) a x -> is_shown x (render a).
Proof.
  intros (u&v&H). unfold is_shown, shown_text, reads. unfold shown_of, scans in H.
  destruct (scan (At InText) (render a)) as [l m]. cbn [fst] in H.
  exists u, (v +:+ string_of (concat (List.map (fun x => match x with Shown c => [c] | _ => [] end) (at_end m))))%string.
  rewrite List.map_app, concat_app, string_of_app, H, !app_assoc_string. done.
Qed.

Ltac pieces :=
  repeat lazymatch goal with
    | |- alike _ [] [] _ => apply alike_nil
    | |- alike _ (Lit _ :: _) _ _ => eapply alike_lit; [vm_compute; reflexivity|]
    | |- alike (At _) (Esc _ :: _) _ _ => apply alike_esc
    | |- alike _ ((_ :: _) ++ _) _ _ => eapply alike_app
    | |- alike ?m (_ ++ _) _ _ => apply (alike_app m _ _ _ _ m)
    | |- alike _ (if ?b then _ else _) _ _ => destruct b
    | |- alike _ (match ?o with Some _ => _ | None => _ end) _ _ => destruct o
    end.

(** ** The macros *)
Lemma feature_alike f i c x chosen :
  alike (At InText) (render_feature i c x chosen) (render_feature i c (change_feature f x) chosen) (At InText).
Proof. unfold render_feature, change_feature. cbn [fi_id fi_field fi_value fi_score]. pieces. Qed.
Lemma passage_alike f p : alike (At InText) (render_passage p) (render_passage (change_passage f p)) (At InText).
Proof.
  unfold render_passage, change_passage. pieces. apply alike_each. intros [n vs] _. cbn [fst snd]. pieces.
  apply alike_each. intros v _. pieces.
Qed.
Lemma results_alike f r : docs_settle r ->
  alike (At InText) (render_results r) (render_results (change_results f r)) (At InText).
Proof.
  intros Hd. destruct r as [l|l]; unfold render_results, change_results; pieces.
  - apply alike_each. intros [s|s] Hs; cbn [change_doc doc_piece]; pieces.
    eapply alike_raw; [reflexivity|].
    specialize (Hd l s eq_refl Hs). unfold settles in Hd. rewrite scan_app in Hd. cbn [prepend snd] in Hd.
    eapply alike_lit; [|apply alike_nil].
    change ("</li>
            ") with ("</li>" +:+ "
            "). rewrite scan_app. cbn [snd prepend]. rewrite Hd. reflexivity.
  - apply alike_each. intros p _. pieces. apply passage_alike.
Qed.
Lemma alike_self m a b m' : alike m a b m' -> alike m a a m'.
Proof. intros (t&H&_). by exists t. Qed.

Lemma cluster_alike f i here x cc chosen :
  alike (At InText) (render_cluster i here x cc chosen) (render_cluster i here (change_cluster f x) cc chosen) (At InText).
Proof.
  destruct x as [ci sc fs]. unfold render_cluster, change_cluster. cbn [ci_id ci_score ci_features].
  destruct sc as [sc|]; cbn [fmap option_fmap option_map]; pieces;
    apply alike_each; intros y _; pieces; apply feature_alike.
Qed.
Lemma search_alike f i fields c :
  alike (At InText) (render_context_search i fields c) (render_context_search i (f <$> fields) c) (At InText).
Proof. unfold render_context_search. pieces; apply alike_each; intros y _; pieces. Qed.

Ltac macros :=
  repeat (pieces; lazymatch goal with
    | |- alike _ (render_context_search _ _ _) _ _ => apply search_alike
    | |- alike _ (render_results _) _ _ => apply results_alike; assumption
    | |- alike _ (render_cluster _ _ _ _ _) _ _ => apply cluster_alike
    | |- alike _ (each _ _) _ _ => apply alike_each; intros ??
    | |- alike InTag (Esc _ :: _) _ _ => apply alike_number
    end).
Lemma results_empty_change f r : results_empty (change_results f r) = results_empty r.
Proof. by destruct r as [[|]|[|]]. Qed.

Lemma overview_alike f i fields sample total found clusters cc c : docs_settle found ->
  alike (At InText) (overview_content i fields sample total found clusters cc c)
    (overview_content i (f <$> fields) sample (f total) (change_results f found) (change_cluster f <$> clusters) cc c) (At InText).
Proof.
  intros Hd. unfold overview_content. rewrite results_empty_change.
  macros.
Qed.

Lemma cluster_page_alike f i fields c named near next pinned fs sample total found chosen :
  docs_settle found -> Forall (fun x => number (fi_id x)) fs ->
  alike (At InText) (cluster_content i fields c named near next pinned fs sample total found chosen)
    (cluster_content i (f <$> fields) c named near next pinned (change_feature f <$> fs) sample (f total)
       (change_results f found) chosen) (At InText).
Proof.
  intros Hd Hn. rewrite Forall_forall in Hn.
  assert (Hc : CI c None (change_feature f <$> fs) = change_cluster f (CI c None fs)) by reflexivity.
  assert (Hl : length (change_feature f <$> fs) = length fs) by apply fmap_length.
  unfold cluster_content. rewrite results_empty_change, Hc, Hl.
  macros; match goal with H : _ ∈ fs |- _ => exact (Hn _ H) end.
Qed.

Lemma details_alike (h : string * string * string * string * string -> string * string * string * string * string) i fields current current' :
  alike (At InText) (details_content i fields current) (details_content i (h <$> fields) current') (At InText).
Proof. unfold details_content. pieces; apply alike_each; intros y _; pieces. Qed.

(** ** What is seen of a page *)
Lemma sees_past m a b m1 x : alike m a a m1 -> sees m1 b x -> sees m (a ++ b) x.
Proof. apply sees_after. Qed.

Ltac same :=
  repeat (pieces; lazymatch goal with
    | |- alike _ (render_feature _ _ _ _) _ _ => eapply alike_self, (feature_alike id)
    | |- alike _ (render_passage _) _ _ => eapply alike_self, (passage_alike id)
    | |- alike _ (render_context_search _ _ _) _ _ => eapply alike_self, (search_alike id)
    | |- alike _ (render_results _) _ _ => eapply alike_self, (results_alike id); assumption
    | |- alike _ (render_cluster _ _ _ _ _) _ _ => eapply alike_self, (cluster_alike id)
    | |- alike _ (each _ _) _ _ => apply alike_each_same; intros ??
    | |- alike InTag (Esc _ :: _) _ _ => apply alike_number
    end).
(** [seek fin]: looks for the text in the pieces in order; [fin] decides at a macro. *)
Ltac seek fin :=
  lazymatch goal with
  | |- sees _ [] _ => fail
  | |- sees _ (Lit _ :: _) _ => eapply sees_lit; [vm_compute; reflexivity|]; seek fin
  | |- sees (At InText) (Esc ?s :: _) ?s => apply sees_here
  | |- sees (At _) (Esc _ :: _) _ => apply sees_skip; seek fin
  | |- sees ?m ((_ :: _) ++ _) _ => first [apply sees_left; seek fin | eapply sees_past; [solve [same]|]; seek fin]
  | |- sees ?m (_ ++ _) _ => first [apply sees_left; seek fin | apply (sees_past m _ _ m); [solve [same]|]; seek fin]
  | |- _ => fin
  end.

Lemma feature_sees i c x chosen s : s = fi_field x \/ s = fi_value x \/ s = fi_score x ->
  sees (At InText) (render_feature i c x chosen) s.
Proof. intros [->|[->| ->]]; unfold render_feature; seek fail. Qed.
Lemma passage_sees p fld vs v s : (fld, vs) ∈ p -> v ∈ vs -> s = fld \/ s = v -> sees (At InText) (render_passage p) s.
Proof.
  intros Hp Hv Hs. unfold render_passage.
  seek ltac:(refine (sees_each _ _ _ (fld, vs) _ _ Hp _); [intros ??; solve [same]|]).
  cbn [fst snd]. seek ltac:(refine (sees_each _ _ _ v _ _ Hv _); [intros ??; solve [same]|]).
  destruct Hs as [->| ->]; seek fail.
Qed.
Lemma doc_same d : docs_settle (Documents [d]) ->
  alike (At InText) [Lit "
            <li>"; doc_piece d; Lit "</li>
            "] [Lit "
            <li>"; doc_piece d; Lit "</li>
            "] (At InText).
Proof.
  intros Hd. destruct d as [s|s]; cbn [doc_piece]; pieces. eapply alike_raw; [reflexivity|].
  specialize (Hd [Marked s] s eq_refl ltac:(by left)). unfold settles in Hd. rewrite scan_app in Hd. cbn [prepend snd] in Hd.
  eapply alike_lit; [|apply alike_nil].
  change ("</li>
            ") with ("</li>" +:+ "
            "). rewrite scan_app. cbn [snd prepend]. rewrite Hd. reflexivity.
Qed.
Lemma results_sees r s : docs_settle r -> result_text r s -> sees (At InText) (render_results r) s.
Proof.
  intros Hd Ht. destruct Ht as [l s Hs|l p fld vs v Hp Hf Hv|l p fld vs v Hp Hf Hv]; unfold render_results.
  - assert (Hsame : forall d, d ∈ l -> docs_settle (Documents [d])).
    { intros d Hin l' s' [= <-] Hx%elem_of_list_singleton. subst d. by apply (Hd l). }
    seek ltac:(refine (sees_each _ _ _ (Plain s) _ _ Hs _); [intros d Hin; by apply doc_same, Hsame|]).
    cbn [doc_piece]. seek fail.
  - seek ltac:(refine (sees_each _ _ _ p _ _ Hp _); [intros ??; solve [same]|]).
    seek ltac:(apply (passage_sees p fld vs v fld Hf Hv); by left).
  - seek ltac:(refine (sees_each _ _ _ p _ _ Hp _); [intros ??; solve [same]|]).
    seek ltac:(apply (passage_sees p fld vs v v Hf Hv); by right).
Qed.
Lemma feature_text_in fs s : feature_text fs s -> exists x, x ∈ fs /\ (s = fi_field x \/ s = fi_value x \/ s = fi_score x).
Proof. intros [l x H|l x H|l x H]; exists x; eauto. Qed.
Lemma cluster_sees i here x cc chosen s : feature_text (ci_features x) s -> sees (At InText) (render_cluster i here x cc chosen) s.
Proof.
  intros (y&Hy&Hs)%feature_text_in. unfold render_cluster.
  seek ltac:(idtac; lazymatch goal with |- sees _ (each _ _) _ => refine (sees_each _ _ _ y _ _ Hy _); [intros ??; solve [same]|] end).
  seek ltac:(by apply feature_sees).
Qed.
Lemma search_sees i fields c s : s ∈ fields -> sees (At InText) (render_context_search i fields c) s.
Proof.
  intros Hs. unfold render_context_search.
  seek ltac:(idtac; lazymatch goal with |- sees _ (each _ _) _ => refine (sees_each _ _ _ s _ _ Hs _); [intros ??; solve [same]|] end).
  seek fail.
Qed.

Lemma overview_sees i fields sample total found clusters cc c s : docs_settle found ->
  s ∈ fields \/ result_text found s \/ (exists x, x ∈ clusters /\ feature_text (ci_features x) s) ->
  sees (At InText) (overview_content i fields sample total found clusters cc c) s.
Proof.
  intros Hd Hs. unfold overview_content. destruct Hs as [Hs|[Hs|(x&Hx&Hs)]].
  - seek ltac:(idtac; lazymatch goal with |- sees _ (render_context_search _ _ _) _ => by apply search_sees end).
  - assert (He : negb (results_empty found) = true).
    { destruct Hs as [l t Hin|l p fld vs v Hp _ _|l p fld vs v Hp _ _]; destruct l; try done; by apply elem_of_nil in Hin || by apply elem_of_nil in Hp. }
    rewrite He. cbv iota.
    seek ltac:(idtac; lazymatch goal with |- sees _ (render_results _) _ => by apply results_sees end).
  - seek ltac:(idtac; lazymatch goal with |- sees _ (each clusters _) _ => refine (sees_each _ _ _ x _ _ Hx _); [intros ??; solve [same]|] end).
    seek ltac:(by apply cluster_sees).
Qed.
Lemma cluster_page_sees i fields c named near next pinned fs sample total found chosen s :
  docs_settle found -> Forall (fun x => number (fi_id x)) fs ->
  s ∈ fields \/ result_text found s \/ feature_text fs s ->
  sees (At InText) (cluster_content i fields c named near next pinned fs sample total found chosen) s.
Proof.
  intros Hd Hn Hs. rewrite Forall_forall in Hn. unfold cluster_content. destruct Hs as [Hs|[Hs|Hs]].
  - seek ltac:(idtac; lazymatch goal with |- sees _ (render_context_search _ _ _) _ => by apply search_sees end).
  - assert (He : negb (results_empty found) = true).
    { destruct Hs as [l t Hin|l p fld vs v Hp _ _|l p fld vs v Hp _ _]; destruct l; try done; by apply elem_of_nil in Hin || by apply elem_of_nil in Hp. }
    rewrite He. cbv iota.
    repeat lazymatch goal with
    | |- sees ?m (_ ++ (_ ++ _ ++ _ ++ render_results _ ++ _) ++ _) _ => fail
    | |- sees ?m ((_ :: _) ++ _) _ => eapply sees_past; [solve [same]|]
    | |- sees ?m (_ ++ _) _ => apply (sees_past m _ _ m); [solve [same; apply Hn; assumption]|]
    end.
    seek ltac:(idtac; lazymatch goal with |- sees _ (render_results _) _ => by apply results_sees end).
  - repeat lazymatch goal with
    | |- sees ?m ((_ :: _) ++ _) _ => eapply sees_past; [solve [same]|]
    | |- sees ?m (render_cluster _ _ _ _ _ ++ _) _ => apply sees_left
    | |- sees ?m (_ ++ _) _ => apply (sees_past m _ _ m); [solve [same; apply Hn; assumption]|]
    end.
    by apply cluster_sees.
Qed.

(** ** Posts and tweets *)
Lemma chars_of_app a b : chars_of (a +:+ b)%string = chars_of a ++ chars_of b.
Proof. induction a as [|c a IH]; [done|]. rewrite app_cons_string. cbn. by rewrite IH. Qed.
Lemma harmless_app a b : harmless a -> harmless b -> harmless (a +:+ b)%string.
Proof. intros Ha Hb c Hc. rewrite chars_of_app in Hc. apply elem_of_app in Hc as [Hc|Hc]; [by apply Ha|by apply Hb]. Qed.
Lemma harmless_users : harmless "/users/".
Proof. intros c Hc. cbn in Hc. repeat (apply elem_of_cons in Hc as [->|Hc]; [repeat split; discriminate|]). by apply elem_of_nil in Hc. Qed.

Ltac raw_pieces tac :=
  repeat lazymatch goal with
    | |- alike _ [] [] _ => apply alike_nil
    | |- alike _ (Lit _ :: _) _ _ => eapply alike_lit; [vm_compute; reflexivity|]
    | |- alike (At _) (Esc _ :: _) _ _ => apply alike_esc
    | |- alike (At _) (Raw _ :: _) _ _ => first [apply alike_plain; [solve [tac]|solve [tac]|] | eapply alike_raw; [eassumption|]]
    | |- alike _ ((_ :: _) ++ _) _ _ => eapply alike_app
    | |- alike ?m (_ ++ _) _ _ => apply (alike_app m _ _ _ _ m)
    end.

Lemma post_alike f p : plain_post p ->
  alike (At InText) (post_template p) (post_template (change_post f p)) (At InText).
Proof.
  intros [Hm Ho Hb Hc Hu]. destruct p as [ti ty si li lc ow na bo tg co].
  unfold change_post. cbn [rp_title rp_type rp_site rp_link rp_license rp_owner rp_name rp_body rp_tags rp_comments] in *.
  unfold post_template. cbn [rp_title rp_type rp_site rp_link rp_license rp_owner rp_name rp_body rp_tags rp_comments].
  unfold complete in Hb.
  assert (H1 : harmless ty) by (apply Hm; cbn; set_solver). assert (H2 : harmless si) by (apply Hm; cbn; set_solver).
  assert (H3 : harmless li) by (apply Hm; cbn; set_solver). assert (H4 : harmless lc) by (apply Hm; cbn; set_solver).
  assert (H5 : harmless na) by (apply Hm; cbn; set_solver).
  assert (H6 : forall u, ow = Some u -> harmless (si +:+ "/users/" +:+ u)%string).
  { intros u Hu'. apply harmless_app; [done|]. apply harmless_app; [apply harmless_users|by apply Ho]. }
  assert (Htg : forall t, t ∈ tg -> harmless t) by (intros t Ht; apply Hm; cbn; set_solver). clear Hm.
  assert (Hco : forall c v, c ∈ co -> pc_user c = Some v -> harmless (pc_site c +:+ "/users/" +:+ v)%string).
  { intros c v Hin Hv. apply harmless_app; [eapply Hc; [exact Hin|set_solver]|]. apply harmless_app; [apply harmless_users|by eapply Hu]. }
  assert (Hcomment : forall c, c ∈ co -> harmless (pc_license c) /\ harmless (pc_name c)).
  { intros c Hin. split; (eapply Hc; [exact Hin|set_solver]). }
  clear Hc Hu.
  destruct ow as [u|]; [specialize (H6 u eq_refl)|]; raw_pieces assumption.
  all: match goal with
    | |- alike _ (@each string _ _) _ _ => apply alike_each_same; intros t Ht; specialize (Htg t Ht); raw_pieces assumption
    | |- _ => apply alike_each; intros c Hin; unfold change_comment; cbn [pc_text pc_license pc_site pc_user pc_name];
        destruct (Hcomment c Hin); specialize (Hco c);
        destruct (pc_user c) as [v|]; [specialize (Hco v Hin eq_refl)|]; raw_pieces assumption
    end.
Qed.

Ltac past_raw tac :=
  lazymatch goal with
  | |- sees _ (Lit _ :: _) _ => eapply sees_lit; [vm_compute; reflexivity|]
  | |- sees (At _) (Esc _ :: _) _ => apply sees_skip
  | |- sees (At _) (Raw _ :: _) _ => apply sees_skip_plain; [solve [tac]|]
  end.

Lemma post_sees_title p : plain_post p -> sees (At InText) (post_template p) (rp_title p).
Proof. intros _. unfold post_template. apply sees_left. eapply sees_lit; [vm_compute; reflexivity|]. apply sees_here. Qed.

Lemma post_sees_comment p c : plain_post p -> c ∈ rp_comments p -> sees (At InText) (post_template p) (pc_text c).
Proof.
  intros Hp Hc. pose proof (post_alike id p Hp) as Hall.
  destruct Hp as [Hm Ho Hb Hcs Hu]. destruct p as [ti ty si li lc ow na bo tg co].
  cbn [rp_title rp_type rp_site rp_link rp_license rp_owner rp_name rp_body rp_tags rp_comments] in *. clear Hall.
  unfold post_template. cbn [rp_title rp_type rp_site rp_link rp_license rp_owner rp_name rp_body rp_tags rp_comments].
  unfold complete in Hb.
  assert (H1 : harmless ty) by (apply Hm; cbn; set_solver). assert (H2 : harmless si) by (apply Hm; cbn; set_solver).
  assert (H3 : harmless li) by (apply Hm; cbn; set_solver). assert (H4 : harmless lc) by (apply Hm; cbn; set_solver).
  assert (H5 : harmless na) by (apply Hm; cbn; set_solver).
  assert (H6 : forall u, ow = Some u -> harmless (si +:+ "/users/" +:+ u)%string).
  { intros u Hu'. apply harmless_app; [done|]. apply harmless_app; [apply harmless_users|by apply Ho]. }
  assert (Htg : forall t, t ∈ tg -> harmless t) by (intros t Ht; apply Hm; cbn; set_solver). clear Hm.
  assert (Hco : forall c v, c ∈ co -> pc_user c = Some v -> harmless (pc_site c +:+ "/users/" +:+ v)%string).
  { intros d v Hin Hv. apply harmless_app; [eapply Hcs; [exact Hin|set_solver]|]. apply harmless_app; [apply harmless_users|by eapply Hu]. }
  assert (Hcomment : forall c, c ∈ co -> harmless (pc_license c) /\ harmless (pc_name c)).
  { intros d Hin. split; (eapply Hcs; [exact Hin|set_solver]). }
  clear Hcs Hu.
  eapply sees_past; [solve [raw_pieces assumption]|].
  lazymatch goal with |- sees ?m (_ ++ _) _ => apply (sees_past m _ _ m) end.
  { destruct ow as [u|]; [specialize (H6 u eq_refl)|]; raw_pieces assumption. }
  eapply sees_past; [solve [raw_pieces assumption]|].
  lazymatch goal with |- sees ?m (_ ++ _) _ => apply (sees_past m _ _ m) end.
  { apply alike_each_same; intros t Ht; specialize (Htg t Ht); raw_pieces assumption. }
  eapply sees_past; [solve [raw_pieces assumption]|].
  apply sees_left. refine (sees_each _ _ _ c _ _ Hc _).
  - intros d Hin. destruct (Hcomment d Hin). specialize (Hco d).
    destruct (pc_user d) as [v|]; [specialize (Hco v Hin eq_refl)|]; raw_pieces assumption.
  - apply sees_left. eapply sees_lit; [vm_compute; reflexivity|]. apply sees_here.
Qed.

Lemma scan_complete ps m : alike (At InText) ps ps m -> (scan (At InText) (render ps)).2 = m.
Proof. intros (t&[_ H]&_). exact H. Qed.
Lemma complete_settles s : complete s -> settles s.
Proof. unfold complete, settles. intros H. rewrite scan_app. cbn [prepend snd]. rewrite H. reflexivity. Qed.

(** Tweets: read up to the last tag, which is not finished. *)
Lemma scan_in_tag s : harmless s -> scan InTag s = (List.map Tag (chars_of s), InTag).
Proof.
  induction s as [|c s IH]; intros Hh; [done|]. cbn [scan].
  destruct (Hh c ltac:(cbn; by left)) as (H1&H2&H3&H4&H5).
  cbn [step]. destruct (Ascii.eqb_spec c ">"); [done|]. destruct (Ascii.eqb_spec c """"); [done|].
  destruct (Ascii.eqb_spec c "'"); [done|]. rewrite IH by (intros x Hx; apply Hh; cbn; by right). done.
Qed.
Lemma alike_escaped p s s' a a' m' : alike (At p) a a' m' -> alike (At p) (Raw (escape s) :: a) (Raw (escape s') :: a') m'.
Proof. apply alike_esc. Qed.
Lemma tweet_alike f t x : plain_tweet t -> rt_text t = escape x ->
  alike (At InText) (tweet_template t) (tweet_template (change_tweet (fun _ => escape (f x)) t)) InTag.
Proof.
  intros Hp Ht. destruct t as [im us na id cr te lk re qu rw rv].
  unfold plain_tweet in Hp. cbn [rt_text rt_image rt_username rt_name rt_id rt_created rt_likes rt_replies rt_quotes rt_retweets rt_retrieved] in Hp, Ht.
  unfold tweet_template, change_tweet. cbn [rt_image rt_username rt_name rt_id rt_created rt_text rt_likes rt_replies rt_quotes rt_retweets rt_retrieved].
  subst te.
  assert (Him : (scan InTag im).2 = InTag) by (rewrite scan_in_tag by (apply Hp; set_solver); done).
  rewrite <- Forall_forall in Hp. repeat rewrite Forall_cons in Hp. destruct Hp as (_&?&?&?&?&?&?&?&?&?&_).
  repeat lazymatch goal with
    | |- alike InTag (Raw im :: _) _ _ => eapply alike_raw; [exact Him|]
    | |- alike (At _) (Raw (escape _) :: _) _ _ => apply alike_escaped
    | |- alike _ [] [] _ => apply alike_nil
    | |- alike _ (Lit _ :: _) _ _ => eapply alike_lit; [vm_compute; reflexivity|]
    | |- alike (At _) (Raw _ :: _) _ _ => apply alike_plain; [assumption|assumption|]
    end.
Qed.
Lemma sees_escaped s a : sees (At InText) (Raw (escape s) :: a) s.
Proof. exact (sees_here s a). Qed.
Lemma tweet_sees t x : plain_tweet t -> rt_text t = escape x -> sees (At InText) (tweet_template t) x.
Proof.
  intros Hp Ht. destruct t as [im us na id cr te lk re qu rw rv].
  unfold plain_tweet in Hp. cbn [rt_text rt_image rt_username rt_name rt_id rt_created rt_likes rt_replies rt_quotes rt_retweets rt_retrieved] in Hp, Ht.
  unfold tweet_template. cbn [rt_image rt_username rt_name rt_id rt_created rt_text rt_likes rt_replies rt_quotes rt_retweets rt_retrieved].
  subst te.
  assert (Him : (scan InTag im).2 = InTag) by (rewrite scan_in_tag by (apply Hp; set_solver); done).
  rewrite <- Forall_forall in Hp. repeat rewrite Forall_cons in Hp. destruct Hp as (_&?&?&?&?&?&?&?&?&?&_).
  repeat lazymatch goal with
    | |- sees InTag (Raw im :: _) _ => apply sees_cons; cbn [piece_text]; rewrite Him
    | |- sees (At InText) (Raw (escape _) :: _) _ => apply sees_escaped
    | |- sees _ (Lit _ :: _) _ => eapply sees_lit; [vm_compute; reflexivity|]
    | |- sees (At _) (Raw _ :: _) _ => apply sees_skip_plain; [assumption|]
    end.
Qed.

(** ** Options *)
Definition has (m : mode) (ps : list piece) (l : list seen) : Prop := exists a b, (scans m ps).1 = a ++ l ++ b.
Lemma has_left m a b l : has m a l -> has m (a ++ b) l.
Proof.
  intros (u&v&H). exists u, (v ++ (scans (scans m a).2 b).1). rewrite scans_app. unfold prepend. cbn [fst].
  rewrite H, <- !app_assoc. done.
Qed.
Lemma has_past m a b m1 l : alike m a a m1 -> has m1 b l -> has m (a ++ b) l.
Proof.
  intros (t&[_ Hm]&_) (u&v&H). exists ((scans m a).1 ++ u), v. rewrite scans_app. unfold prepend. cbn [fst].
  rewrite Hm, H, <- !app_assoc. done.
Qed.
Lemma has_each {A} m (l : list A) (f : A -> list piece) y x :
  (forall x, x ∈ l -> alike m (f x) (f x) m) -> y ∈ l -> has m (f y) x -> has m (each l f) x.
Proof.
  induction l as [|z l IH]; intros H Hy Hs; [by apply elem_of_nil in Hy|].
  unfold each. cbn. apply elem_of_cons in Hy as [->|Hy]; [by apply has_left|].
  eapply has_past; [apply H; left|]. apply IH; [|done|done]. intros w Hw. apply H. by right.
Qed.
Lemma has_option pre post x : (scan (At InText) pre).2 = At InText ->
  has (At InText) [Lit (pre +:+ "<option value=""")%string; Esc x; Lit """>"; Esc x; Lit ("</option>" +:+ post)%string] (option_seen x).
Proof.
  intros Hpre. exists (scan (At InText) pre).1, (scan (At InText) post).1.
  rewrite scans_cons. cbn [piece_text]. rewrite (scan_app pre), Hpre.
  assert (Ho : scan (At InText) "<option value=""" = (List.map Tag (chars_of "<option value="""), At InDouble)) by (vm_compute; reflexivity).
  rewrite Ho. unfold prepend. cbn [fst snd].
  rewrite scans_cons. cbn [piece_text]. rewrite scan_escape. unfold prepend. cbn [fst snd].
  rewrite scans_cons. cbn [piece_text].
  assert (Hc : scan (At InDouble) """>" = (List.map Tag (chars_of """>"), At InText)) by (vm_compute; reflexivity).
  rewrite Hc. unfold prepend. cbn [fst snd].
  rewrite scans_cons. cbn [piece_text]. rewrite scan_escape. unfold prepend. cbn [fst snd].
  rewrite scans_cons. cbn [piece_text]. rewrite scan_app.
  assert (He : scan (At InText) "</option>" = (List.map Tag (chars_of "</option>"), At InText)) by (vm_compute; reflexivity).
  rewrite He. unfold prepend. cbn [fst snd]. unfold option_seen. rewrite <- !app_assoc.
  unfold scans. cbn [render scan fst]. rewrite app_nil_r. done.
Qed.
Lemma search_has i fields c x : x ∈ fields -> has (At InText) (render_context_search i fields c) (option_seen x).
Proof.
  intros Hx. unfold render_context_search. eapply has_past; [solve [same]|]. apply has_left.
  refine (has_each _ _ _ x _ _ Hx _); [intros ??; solve [same]|].
  refine (has_option "
            " "
            " x _). reflexivity.
Qed.
Lemma details_has i fields current x : x ∈ fields.*1.*1.*1.*1 -> has (At InText) (details_content i fields current) (option_seen x).
Proof.
  intros Hx. rewrite <- !list_fmap_compose in Hx. apply elem_of_list_fmap in Hx as (y&->&Hy). unfold details_content.
  eapply has_past; [solve [same]|].
  lazymatch goal with |- has ?m (_ ++ _) _ => apply (has_past m _ _ m); [solve [same]|] end.
  eapply has_past; [solve [same]|]. apply has_left.
  refine (has_each _ _ _ y _ _ Hy _); [intros ??; solve [same]|].
  refine (has_option "
                        " "
                        " (y.1.1.1.1) _). reflexivity.
Qed.
Lemma has_reads ps l : has (At InText) ps l -> exists a b, reads (render ps) = a ++ l ++ b.
Proof.
  intros (u&v&H). unfold reads, scans in *. destruct (scan (At InText) (render ps)) as [w m]. cbn [fst] in H. subst w.
  exists u, (v ++ at_end m). by rewrite <- !app_assoc.
Qed.
Lemma details_sees i fields current x s : x ∈ fields -> s ∈ [x.1.1.1.1; x.1.1.1.2; x.1.1.2; x.1.2; x.2] ->
  sees (At InText) (details_content i fields current) s.
Proof.
  intros Hx Hs. unfold details_content. eapply sees_past; [solve [same]|]. apply sees_left.
  refine (sees_each _ _ _ x _ _ Hx _); [intros ??; solve [same]|].
  repeat (apply elem_of_cons in Hs as [->|Hs]; [repeat first [apply sees_here | apply sees_skip | eapply sees_lit; [vm_compute; reflexivity|]]|]).
  by apply elem_of_nil in Hs.
Qed.

(** The text shown for plain documents, exactly. *)
Lemma scans_item pre post l1 l2 (x : string) :
  scan (At InText) pre = (l1, At InText) -> scan (At InText) post = (l2, At InText) ->
  scans (At InText) [Lit pre; doc_piece (Plain x); Lit post] = (l1 ++ literally InText x ++ l2, At InText).
Proof.
  intros Ho He. rewrite scans_cons. cbn [piece_text]. rewrite Ho. unfold prepend. cbn [fst snd].
  rewrite scans_cons. cbn [piece_text doc_piece]. rewrite scan_escape.
  unfold prepend. cbn [fst snd]. rewrite scans_cons. cbn [piece_text].
  rewrite He. unfold prepend, scans. cbn [fst snd render scan]. rewrite app_nil_r. done.
Qed.
Lemma reads_items a pre post z la l1 l2 lz (l : list string) :
  scan (At InText) a = (la, At InText) -> scan (At InText) z = (lz, At InText) ->
  scan (At InText) pre = (l1, At InText) -> scan (At InText) post = (l2, At InText) ->
  reads (render ([Lit a] ++ each (Plain <$> l) (fun d => [Lit pre; doc_piece d; Lit post]) ++ [Lit z])) =
  la ++ concat (List.map (fun x => l1 ++ literally InText x ++ l2) l) ++ lz.
Proof.
  intros Ha Hz H1 H2.
  assert (Hs : scans (At InText) (each (Plain <$> l) (fun d => [Lit pre; doc_piece d; Lit post])) =
               (concat (List.map (fun x => l1 ++ literally InText x ++ l2) l), At InText)).
  { induction l as [|x l IH]; [done|]. unfold each in *. cbn [fmap list_fmap List.map concat]. rewrite scans_app.
    rewrite (scans_item pre post l1 l2) by done. unfold prepend. cbn [fst snd]. rewrite IH. done. }
  unfold reads. change (scan (At InText) (render ?ps)) with (scans (At InText) ps).
  assert (Hl : forall s ls, scan (At InText) s = (ls, At InText) -> scans (At InText) [Lit s] = (ls, At InText)).
  { intros s ls Hls. rewrite scans_cons. cbn [piece_text]. rewrite Hls. unfold prepend, scans. cbn. by rewrite app_nil_r. }
  rewrite scans_app, (Hl a la Ha). unfold prepend at 1. cbn [fst snd]. rewrite scans_app, Hs. unfold prepend. cbn [fst snd].
  rewrite (Hl z lz Hz). cbn [fst snd at_end]. by rewrite app_nil_r.
Qed.
Lemma reads_documents (l : list string) :
  reads (render (render_results (Documents (Plain <$> l)))) =
  literally InText "
        " ++ List.map Tag (chars_of "<ul class=""") ++ literally InDouble "doc-list" ++ List.map Tag (chars_of """>")
  ++ literally InText "
            "
  ++ concat (List.map (fun x => (literally InText "
            " ++ List.map Tag (chars_of "<li>")) ++ literally InText x ++ List.map Tag (chars_of "</li>") ++ literally InText "
            ") l)
  ++ literally InText "
        " ++ List.map Tag (chars_of "</ul>") ++ literally InText "
    ".
Proof.
  unfold render_results. rewrite (reads_items _ _ _ _
    (literally InText "
        " ++ List.map Tag (chars_of "<ul class=""") ++ literally InDouble "doc-list" ++ List.map Tag (chars_of """>")
      ++ literally InText "
            ")
    (literally InText "
            " ++ List.map Tag (chars_of "<li>"))
    (List.map Tag (chars_of "</li>") ++ literally InText "
            ")
    (literally InText "
        " ++ List.map Tag (chars_of "</ul>") ++ literally InText "
    ")); [|vm_compute; reflexivity..].
  rewrite <- !app_assoc. done.
Qed.
