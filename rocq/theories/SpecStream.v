(** SpecStream.v: what iterations over the documents of a corpus should give. *)
From Verif Require Export Streams.

Section spec.
  Context {D K V : Type} (all_keys : D -> res (list K)) (get : D -> K -> res V).

  (** Reading the documents [ks] one after the other from the contents [d] gives [out] and
      then ends with the given result, or has not ended yet ([None]). *)
  Inductive reads (d : D) : list K -> list (K * V) -> option (res unit) -> Prop :=
  | reads_unfinished ks : reads d ks [] None
  | reads_end : reads d [] [] (Some (Ok tt))
  | reads_missing k ks e : get d k = Err e -> reads d (k :: ks) [] (Some (Err e))
  | reads_doc k v ks out r : get d k = Ok v -> reads d ks out r -> reads d (k :: ks) ((k, v) :: out) r.
  (** The documents that were asked for: the given keys, or all. *)
  Definition reads_request (d : D) (request : option (list K)) (out : list (K * V)) (r : option (res unit)) : Prop :=
    match request with
    | Some ks => reads d ks out r
    | None => (exists ks, all_keys d = Ok ks /\ reads d ks out r) \/ out = [] /\ r = None \/
              (exists e, all_keys d = Err e /\ out = [] /\ r = Some (Err e))
    end.

  (** What rendering the documents [ks] from the contents [d] should give: all of them, or
      the error of the first that cannot be read. *)
  Definition renders (d : D) (ks : list K) (o : output K V) : Prop :=
    (exists l, reads d ks l (Some (Ok tt)) /\ o = Rendered l) \/
    (exists l e, reads d ks l (Some (Err e)) /\ o = Raised e).

  (** What happened to the iterations: the request of the [i]-th, and its documents so far. *)
  Definition requests (tr : list (event D K * output K V)) : list (option (list K)) :=
    omap (fun x => match x.1 with New ks => Some ks | _ => None end) tr.
  Definition given (tr : list (event D K * output K V)) (i : nat) : list (K * V) :=
    omap (fun x => match x with (Next j, Yielded k v) => if j =? i then Some (k, v) else None | _ => None end) tr.
  Definition ended (g : iter K) : option (res unit) := match g with Over r => r | _ => None end.
  (** The iteration is in progress. *)
  Definition in_progress (g : iter K) : Prop := match g with Running _ _ => True | _ => False end.

  Definition is_replace (e : event D K) : Prop := match e with Replace _ => True | _ => False end.
  (** The rendering of documents failed. *)
  Definition failed_rendering (x : event D K * output K V) : Prop :=
    match x with (Render _, Raised _) => True | _ => False end.
End spec.
