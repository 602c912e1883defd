(** * Vocabulary for C103, C104 *)
From Verif Require Export Vocab Life.

(** An item whose type is right and whose data has been freed. *)
Definition item_freed (m : heap) (i : cpf_item) (x : N * list byte) : Prop :=
  it_type i = fst x /\ freed_data m (it_data i) (snd x).

(** Decoding from a stream takes at most the bytes the stream still has, and [k] more. *)
Definition frugal {T} (k : N) (x : D T unit) : Prop := forall m d p t o m' r t',
  x m (RStr d p false) t = (o, m', r, t') -> heap_bytes m' <= heap_bytes m + len (drop p d) + k.
