(** * Vocab35: words for C132, decoding from a stream that raises.  Only definitions. *)
From Verif Require Export Vocab Strict Vocab32.

(** Reading from position [p] of the data [d] ends in the exception of the stream. *)
Definition raises {T A} (X : D T A) (m : heap) (d : list byte) (p : N) (t : T) : Prop :=
  exists m2 p2 t2, X m (RStr d p false) t = (ios_failure, m2, RStr d p2 true, t2).
(** [X] is [x] for a stream with exceptions: it is the same as long as [x] does not run out of
    data; when [x] does, [X] raises. *)
Definition same_or_raises {T A} (x X : D T A) : Prop := forall m d p t,
  exists o m' p' f t', x m (RStr d p false) t = (o, m', RStr d p' f, t') /\
    if f then raises X m d p t
    else X m (RStr d p false) t = (o, m', RStr d p' false, t').
(** Bytes a buffer object of [n] bytes holds when only the first of them came. *)
Definition padded (n : N) (bs : list byte) : list byte := bs ++ zeros (n - len bs).
(** Whatever [X] reads in full, it raises when the data end anywhere before. *)
Definition needs_all {T A} (X : D T A) : Prop := forall m d p t o m' p' t' j,
  X m (RStr d p false) t = (o, m', RStr d p' false, t') -> p <= j -> j < p' -> p' <= len d -> raises X m (take j d) p t.
