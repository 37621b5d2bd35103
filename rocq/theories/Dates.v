(** Dates.v: creation dates of posts and tweets as features (hyperreal/corpus.py:758-764,
    1009-1010, 1040-1041) and [datetime.isoformat]. *)
From Verif Require Export Utilities Twitter Html Query.

(** "%0<width>d" of Python's datetime.isoformat, for numbers of at most [width] digits. *)
Definition digit_of (n : N) : ascii := Ascii.ascii_of_N (48 + n).
Fixpoint padded (width : nat) (n : N) : string :=
  match width with
  | 0 => ""
  | S w => padded w (n / 10) ++ String (digit_of (n mod 10)) ""
  end.

(** [datetime.isoformat(sep)] without the offset from UTC, as used at corpus.py:764, 1041
    (sep = "T") and by sqlite3's adapter for datetimes (sep = " "). *)
Definition isoformat (sep : string) (d : datetime) : string :=
  padded 4 (dt_year d) ++ "-" ++ padded 2 (dt_month d) ++ "-" ++ padded 2 (dt_day d) ++ sep ++
  padded 2 (dt_hour d) ++ ":" ++ padded 2 (dt_minute d) ++ ":" ++ padded 2 (dt_second d) ++
  (if (dt_micro d =? 0)%N then "" else "." ++ padded 6 (dt_micro d)).

Definition granularity_name (g : granularity) : string :=
  match g with Minute => "minute" | Hour => "hour" | Day => "day" | Month => "month" | Year => "year" end.

Section dates.
  (** [isoparse] (dateutil): the date and the offset from UTC, as [isoformat] writes it ("" if
      there is none); it may raise. *)
  Context (isoparse : string -> res (datetime * string)).
  Definition stamp (g : granularity) (t : datetime * string) : string :=
    isoformat "T" (round_datetime t.1 g) ++ t.2.

  (** corpus.py:758-764: day, month and year of a post (the argument [dates] of [sx_index]). *)
  Definition post_dates (s : string) : res (string * string * string) :=
    rmap (fun t => (stamp Day t, stamp Month t, stamp Year t)) (isoparse s).

  (** corpus.py:1009-1010, 1040-1041: the fields of a tweet (the argument [times] of
      [twitter_corpus]). *)
  Definition tweet_dates (s : string) : res (list (string * string)) :=
    rmap (fun t => (fun g => (("created_" ++ granularity_name g)%string, stamp g t)) <$> [Minute; Hour; Day; Month; Year])
      (isoparse s).
End dates.
