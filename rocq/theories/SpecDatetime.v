(** SpecDatetime.v: calendar order and buckets, independent of [round_datetime]. *)
From Verif Require Import Base Utilities.

(** Months and days are numbered from 1. *)
Definition valid_datetime (d : datetime) : Prop := (1 <= dt_month d /\ 1 <= dt_day d)%N.

(** Chronological order. *)
Definition datetime_le (a b : datetime) : Prop :=
  (dt_year a < dt_year b \/ dt_year a = dt_year b /\
  (dt_month a < dt_month b \/ dt_month a = dt_month b /\
  (dt_day a < dt_day b \/ dt_day a = dt_day b /\
  (dt_hour a < dt_hour b \/ dt_hour a = dt_hour b /\
  (dt_minute a < dt_minute b \/ dt_minute a = dt_minute b /\
  (dt_second a < dt_second b \/ dt_second a = dt_second b /\
   dt_micro a <= dt_micro b))))))%N.

(** [a] and [b] fall in the same minute / hour / day / month / year. *)
Definition same_bucket (g : granularity) (a b : datetime) : Prop :=
  let year := dt_year a = dt_year b in
  let month := year /\ dt_month a = dt_month b in
  let day := month /\ dt_day a = dt_day b in
  let hour := day /\ dt_hour a = dt_hour b in
  let minute := hour /\ dt_minute a = dt_minute b in
  match g with
  | Year => year | Month => month | Day => day | Hour => hour | Minute => minute
  end.
