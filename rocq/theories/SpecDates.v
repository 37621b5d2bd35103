(** SpecDates.v: timelines. *)
From Verif Require Export Dates SpecDatetime SpecQuery.

(** A date that Python can represent. *)
Definition calendar (d : datetime) : Prop :=
  (1 <= dt_year d <= 9999 /\ 1 <= dt_month d <= 12 /\ 1 <= dt_day d <= 31 /\
   dt_hour d <= 23 /\ dt_minute d <= 59 /\ dt_second d <= 59 /\ dt_micro d <= 999999)%N.

(** How [isoformat] writes an offset from UTC: not at all, or with a sign. *)
Definition utc_offset (z : string) : Prop := z = "" \/ exists rest, z = String "+" rest \/ z = String "-" rest.

(** Strictly earlier. *)
Definition before (a b : datetime) : Prop := datetime_le a b /\ a <> b.

(** The answer of [intersect_queries_with_field] for a field is a timeline of the documents:
    [made doc t]: document [doc] was created at [t]. There is one entry for every day (or
    month, ...) in which a document was created, in the order of time, with the number of
    documents created then, overall and in each query. [zone] is the offset from UTC. *)
Definition is_timeline (made : N -> datetime -> Prop) (g : granularity) (zone : string) (queries : list (string * gset N))
    (answer : list value * list N * list (string * list nat)) : Prop :=
  let '(values, totals, overlaps) := answer in
  exists periods : list datetime,
    values = (fun b => VText (isoformat "T" b ++ zone)) <$> periods /\
    StronglySorted before periods /\
    length totals = length periods /\
    (forall doc t, made doc t -> exists b, b ∈ periods /\ same_bucket g b t) /\
    (periods <> [] -> overlaps.*1 = queries.*1) /\
    forall i b, periods !! i = Some b ->
      exists docs : gset N, docs ≠ ∅ /\
        (forall doc, doc ∈ docs <-> exists t, made doc t /\ same_bucket g b t) /\
        totals !! i = Some (N.of_nat (size docs)) /\
        (forall j name q, queries !! j = Some (name, q) ->
           exists counts, overlaps !! j = Some (name, counts) /\ counts !! i = Some (size (q ∩ docs))).
