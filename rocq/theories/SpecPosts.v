(** SpecPosts.v: what a table of posts should say, from the dumps that were added; with a
    small reader of JSON (RFC 8259) without numbers and booleans, and of characters below
    U+0100. *)
From Verif Require Export Posts SpecCsv SpecRendered.
From stdpp Require Import pretty.

Inductive json := JNull | JText (s : string) | JList (l : list json) | JObject (l : list (string * json)).

Definition hex_value (c : char) : option nat :=
  let n := Ascii.nat_of_ascii c in
  if (Nat.leb 48 n) && (Nat.leb n 57) then Some (n - 48)
  else if (Nat.leb 97 n) && (Nat.leb n 102) then Some (n - 87)
  else if (Nat.leb 65 n) && (Nat.leb n 70) then Some (n - 55)
  else None.
Definition escaped_char (c : char) : option char :=
  if Ascii.eqb c quote then Some quote
  else if Ascii.eqb c "\" then Some "\"%char
  else if Ascii.eqb c "/" then Some "/"%char
  else if Ascii.eqb c "b" then Some (Ascii.ascii_of_nat 8)
  else if Ascii.eqb c "f" then Some (Ascii.ascii_of_nat 12)
  else if Ascii.eqb c "n" then Some (Ascii.ascii_of_nat 10)
  else if Ascii.eqb c "r" then Some (Ascii.ascii_of_nat 13)
  else if Ascii.eqb c "t" then Some (Ascii.ascii_of_nat 9)
  else None.
Definition first_char (c : char) (r : option (list char * list char)) : option (list char * list char) :=
  (fun x => (c :: x.1, x.2)) <$> r.
(** The rest of a text, after its first quote; and what follows it. *)
Fixpoint read_text (l : list char) : option (list char * list char) :=
  match l with
  | [] => None
  | c :: l =>
      if Ascii.eqb c quote then Some ([], l)
      else if Ascii.eqb c "\" then
        match l with
        | [] => None
        | e :: l =>
            if Ascii.eqb e "u" then
              match l with
              | a :: b :: c :: d :: l =>
                  match hex_value a, hex_value b, hex_value c, hex_value d with
                  | Some 0, Some 0, Some x, Some y => first_char (Ascii.ascii_of_nat (16 * x + y)) (read_text l)
                  | _, _, _, _ => None
                  end
              | _ => None
              end
            else match escaped_char e with Some x => first_char x (read_text l) | None => None end
        end
      else if Nat.ltb (Ascii.nat_of_ascii c) 32 then None
      else first_char c (read_text l)
  end.
Fixpoint skip_blanks (l : list char) : list char :=
  match l with
  | c :: l' => let n := Ascii.nat_of_ascii c in if Nat.eqb n 32 || Nat.eqb n 9 || Nat.eqb n 10 || Nat.eqb n 13 then skip_blanks l' else l
  | [] => []
  end.
(** A value, and what follows it; [n] bounds the depth of the reading. *)
Fixpoint read_value (n : nat) (l : list char) : option (json * list char) :=
  match n with
  | 0 => None
  | S n =>
      match skip_blanks l with
      | """"%char :: l => (fun x => (JText (text x.1), x.2)) <$> read_text l
      | "["%char :: l => match skip_blanks l with
                         | "]"%char :: l => Some (JList [], l)
                         | l => (fun x => (JList x.1, x.2)) <$> read_values n l
                         end
      | "{"%char :: l => match skip_blanks l with
                         | "}"%char :: l => Some (JObject [], l)
                         | l => (fun x => (JObject x.1, x.2)) <$> read_members n l
                         end
      | "n"%char :: "u"%char :: "l"%char :: "l"%char :: l => Some (JNull, l)
      | _ => None
      end
  end
with read_values (n : nat) (l : list char) : option (list json * list char) :=
  match n with
  | 0 => None
  | S n =>
      match read_value n l with
      | None => None
      | Some (x, l) =>
          match skip_blanks l with
          | ","%char :: l => (fun r => (x :: r.1, r.2)) <$> read_values n l
          | "]"%char :: l => Some ([x], l)
          | _ => None
          end
      end
  end
with read_members (n : nat) (l : list char) : option (list (string * json) * list char) :=
  match n with
  | 0 => None
  | S n =>
      match skip_blanks l with
      | """"%char :: l =>
          match read_text l with
          | None => None
          | Some (key, l) =>
              match skip_blanks l with
              | ":"%char :: l =>
                  match read_value n l with
                  | None => None
                  | Some (x, l) =>
                      match skip_blanks l with
                      | ","%char :: l => (fun r => ((text key, x) :: r.1, r.2)) <$> read_members n l
                      | "}"%char :: l => Some ([(text key, x)], l)
                      | _ => None
                      end
                  end
              | _ => None
              end
          end
      | _ => None
      end
  end.
(** The value of a JSON text. *)
Definition json_of (s : string) : option json :=
  match read_value (10 + String.length s) (chars s) with
  | Some (x, rest) => match skip_blanks rest with [] => Some x | _ => None end
  | None => None
  end.

(** The name of a user as last read, if there is one. *)
Definition called (url : string) (h : list (string * dump)) (user : option Z) (o : option string) : Prop :=
  forall n, o = Some n <-> exists u x, user = Some u /\ last_such (fun x => xu_id x = Some u) (users_in url h) x /\ xu_name x = Some n.
Definition text_or_null (o : option string) : json := match o with Some s => JText s | None => JNull end.
Definition comment_read (url : string) (h : list (string * dump)) (c : x_comment) (j : json) : Prop :=
  exists name, called url h (xc_user c) name /\
    j = JObject [("DisplayName", text_or_null name); ("Text", text_or_null (xc_text c)); ("ContentLicense", text_or_null (xc_license c))].
Definition number_or_blank (o : option Z) (s : string) : Prop := match o with Some z => s = pretty z | None => s = "" end.
Definition text_or_blank (o : option string) (s : string) : Prop := match o with Some t => s = t | None => s = "" end.

(** What the cells of a post say. [cell]: the text in the column of that name. *)
Record says_post (h : list (string * dump)) (url : string) (x : x_post) (cell : string -> string -> Prop) : Prop := {
  says_site : cell "site_url" url;
  says_id : cell "Id" (pretty (xp_id x));
  says_owner : exists s, cell "OwnerUserId" s /\ number_or_blank (xp_owner x) s;
  says_name : exists o s, called url h (xp_owner x) o /\ cell "DisplayName" s /\ text_or_blank o s;
  says_license : exists s, cell "ContentLicense" s /\ text_or_blank (xp_license x) s;
  says_type : (xp_type x = Some "1" /\ cell "PostType" "Question") \/ (xp_type x = Some "2" /\ cell "PostType" "Answer");
  says_body : exists s, cell "Body" s /\ text_or_blank (xp_body x) s;
  says_parent : exists s, cell "ParentId" s /\ number_or_blank (xp_parent x) s;
  says_title : exists o s, (forall t, o = Some t <-> titled url h x t) /\ cell "QuestionTitle" s /\ text_or_blank o s;
  says_link : cell "LiveLink" (url +:+ "/questions/" +:+ pretty (xp_id x))%string;
  says_tags : exists l, NoDup l /\ (forall t, t ∈ l <-> tagged url h (default (xp_id x) (xp_parent x)) t) /\ cell "tags" (String.concat ", " l);
  says_comments : exists s l, cell "comments" s /\ json_of s = Some (JList l) /\ Forall2 (comment_read url h) (comments_on url h x) l }.
