(** Posts.v: StackExchange posts as rows of a table (hyperreal/corpus.py:237-250, 695-717). *)
From Verif Require Export Rendered Csv Query.
From stdpp Require Import pretty.

Local Notation chars := String.list_ascii_of_string.


(** [json.dumps] of a text: only printable ASCII is written as it is. Simplification: the
    characters of the texts here are those below U+0100. *)
Definition hex_digit (n : nat) : char := nth n ["0";"1";"2";"3";"4";"5";"6";"7";"8";"9";"a";"b";"c";"d";"e";"f"]%char "0"%char.
Definition json_char (c : char) : list char :=
  let n := Ascii.nat_of_ascii c in
  if Ascii.eqb c quote then ["\"%char; quote]
  else if Ascii.eqb c "\" then ["\"; "\"]%char
  else if Nat.eqb n 8 then ["\"; "b"]%char
  else if Nat.eqb n 9 then ["\"; "t"]%char
  else if Nat.eqb n 10 then ["\"; "n"]%char
  else if Nat.eqb n 12 then ["\"; "f"]%char
  else if Nat.eqb n 13 then ["\"; "r"]%char
  else if (Nat.leb 32 n) && (Nat.leb n 126) then [c]
  else ["\"; "u"; "0"; "0"]%char ++ [hex_digit (Nat.div n 16); hex_digit (Nat.modulo n 16)].
Definition json_string (s : string) : list char := quote :: concat (json_char <$> chars s) ++ [quote].
(** None is null. *)
Definition json_value (o : option string) : list char := match o with Some s => json_string s | None => chars "null" end.
(** corpus.py:705-713: the dictionary of a comment; the list of them. *)
Definition json_comment (c : option Z * option string * option string * option string) : list char :=
  chars "{" ++ json_string "DisplayName" ++ chars ": " ++ json_value c.1.1.2
  ++ chars ", " ++ json_string "Text" ++ chars ": " ++ json_value c.1.2
  ++ chars ", " ++ json_string "ContentLicense" ++ chars ": " ++ json_value c.2 ++ chars "}".
Fixpoint json_items (l : list (list char)) : list char :=
  match l with
  | [] => []
  | [x] => x
  | x :: l => x ++ chars ", " ++ json_items l
  end.
Definition json_list (l : list (list char)) : list char := chars "[" ++ json_items l ++ chars "]".

(** corpus.py:237-250: the columns. *)
Definition post_columns : list string :=
  ["site_url"; "Id"; "OwnerUserId"; "DisplayName"; "ContentLicense"; "PostType"; "Body"; "ParentId"; "QuestionTitle"; "LiveLink";
   "tags"; "comments"].
(** corpus.py:603-634, 703-714: the values; the csv writer leaves cells without value empty.
    [tags]: the set in the order of its iteration. *)
Definition blank_number (o : option Z) : string := default "" (pretty <$> o).
Definition post_content (tags : list string) (f : sx_fields) : gmap string string :=
  list_to_map
    [("site_url", sf_url f); ("Id", pretty (sf_id f)); ("OwnerUserId", blank_number (sf_owner f));
     ("DisplayName", default "" (sf_name f)); ("ContentLicense", default "" (sf_license f)); ("PostType", sf_type f);
     ("Body", default "" (sf_body f)); ("ParentId", blank_number (sf_parent f)); ("QuestionTitle", default "" (sf_title f));
     ("LiveLink", (sf_url f +:+ "/questions/" +:+ pretty (sf_id f))%string);
     ("tags", String.concat ", " tags); ("comments", text (json_list (json_comment <$> sf_comments f)))].
(** corpus.py:695-717 of one post. *)
Definition post_cells (order : N -> gset string -> list string) (st : sx) : renderer := fun k =>
  match k with
  | VInt z => if (z <? 0)%Z then Err IndexError
              else rmap (fun f => post_content (order (Z.to_N z) (sf_tags f)) f) (sx_fields_of st (Z.to_N z))
  | VText _ => Err IndexError
  end.
