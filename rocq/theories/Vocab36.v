(** * Vocab36: words for C133, encoding to a stream that raises.  Only definitions. *)
From Verif Require Export Vocab StrictOut.

(** [X] is [x] for a stream with exceptions: the sink takes the same bytes from both; [X] ends like
    [x] if it took all of them, and raises if it did not.  ([x] never touches a stream that
    failed earlier.) *)
Definition same_or_fails (x X : W) : Prop :=
  (forall m out room, exists o out' room' f, x m (WLim out room false) = (o, m, WLim out' room' f) /\
     X m (WLim out room false) = (if f then ios_failure else o, m, WLim out' room' f)) /\
  (forall m out room, exists o, x m (WLim out room true) = (o, m, WLim out room true)).
(** [X] writes [bs]: a sink with room for all of it gets all of it and the call returns; any other
    gets what fits and the call raises. *)
Definition delivers (m : heap) (X : W) (bs : list byte) : Prop := forall out room,
  X m (WLim out room false) =
    if len bs <=? room then (Ret tt, m, WLim (out ++ bs) (room - len bs) false)
    else (ios_failure, m, WLim (out ++ take room bs) 0 true).
(** Nothing more goes to a stream that has failed, and the caller is told. *)
Definition refuses (X : W) : Prop := forall m out room, X m (WLim out room true) = (ios_failure, m, WLim out room true).
(** An optional part that encodes to [d]; [put] does that on a stream with exceptions. *)
Definition part (put : ser -> W) (m : heap) (p : option ser) (d : list byte) : Prop :=
  match p with
  | None => d = []
  | Some s => s_length s = Ret (len d) /\ writes m (s_serialize s) d /\ same_or_fails (s_serialize s) (put s)
  end.
Definition item_part (put : ser -> W) (m : heap) (i : cpf_item) (x : N * list byte) : Prop :=
  it_type i = fst x /\ part put m (it_data i) (snd x).
Definition part_safe (put : ser -> W) (p : option ser) : Prop :=
  match p with None => True | Some s => same_or_fails (s_serialize s) (put s) end.
