(** * Vocab3: words for the memory theorems (C30 - C36). Only definitions. *)
From Verif Require Export Vocab Scanner Transport Threads.

(** ** Histories of one raw buffer object *)

(** The operations: deserialize(reader, n) from a stream and from a buffer,
    deserialize(reader) from a stream and from a buffer, setData, operator=, and
    serialize to a stream. *)
Inductive sb_op :=
| DecodeStream (n : N) (data : list byte) (pos : N) (fail : bool)
| DecodeBuffer (n : N) (v : view)
| FillStream (data : list byte) (pos : N) (fail : bool)
| FillBuffer (v : view)
| SetData (v : view)
| AssignView (v : view)
| Emit.

Definition sb_step (o : sb_op) (m : heap) (s : sbuf) : outcome unit * heap * sbuf :=
  match o with
  | DecodeStream n d p f => match sb_deserialize_len n m (RStr d p f) s with (r, m', _, s') => (r, m', s') end
  | DecodeBuffer n v => match sb_deserialize_len n m (RBuf v 0) s with (r, m', _, s') => (r, m', s') end
  | FillStream d p f => match sb_deserialize m (RStr d p f) s with (r, m', _, s') => (r, m', s') end
  | FillBuffer v => match sb_deserialize m (RBuf v 0) s with (r, m', _, s') => (r, m', s') end
  | SetData v => sb_setData m s v
  | AssignView v => (Ret tt, m, sb_assign_view s v)
  | Emit => match sb_serialize s m (WStr []) with (r, m', _) => (r, m', s) end
  end.
(** The history stops at the first operation that does not return. *)
Fixpoint sb_steps (os : list sb_op) (m : heap) (s : sbuf) : outcome unit * heap * sbuf :=
  match os with
  | [] => (Ret tt, m, s)
  | o :: os' => match sb_step o m s with
                | (Ret _, m', s') => sb_steps os' m' s'
                | r => r
                end
  end.
(** The memory given to an operation lies in the first [k] blocks, of sizes [ns]. *)
Definition inside (ns : list N) (v : view) : Prop :=
  v_len v = 0 \/ exists n, nth_error ns (v_blk v) = Some n /\ v_off v + v_len v <= n.
Definition sb_op_ok (ns : list N) (o : sb_op) : Prop :=
  match o with
  | DecodeBuffer _ v | FillBuffer v | SetData v | AssignView v => inside ns v
  | _ => True
  end.
(** The first blocks of [m] are live and have the sizes [ns]. *)
Definition owned_by_caller (ns : list N) (m : heap) : Prop :=
  forall b n, nth_error ns b = Some n -> exists bs, nth_error m b = Some (Some bs) /\ len bs = n.
(** All further blocks are freed. *)
Definition all_freed (ns : list N) (m : heap) : Prop :=
  forall b, (List.length ns <= b < List.length m)%nat -> nth_error m b = Some None.

(** The outcomes such a history can have: it returns, it raises length_error, or the
    caller asked to fill the object from memory overlapping its own (a memcpy on
    overlapping memory, the caller's mistake). *)
Definition sound (o : outcome unit) : Prop :=
  o = Ret tt \/ (exists s, o = Throw LengthError s) \/ o = Undef OverlappingCopy.

(** ** Typed extraction *)
(** A raw buffer payload. *)
Definition raw (s : ser) (v : view) : Prop := exists a, s = ser_of_sbuf (mkSB v a).
(** Decoding from a buffer leaves all memory as it was, whatever the outcome: what
    the object refers to afterwards is the buffer itself. *)
Definition keeps {T A} (x : D T A) : Prop :=
  forall m v c t, exists o v' c' t', x m (RBuf v c) t = (o, m, RBuf v' c', t').
Definition keeps_cls {T} (c : cls T) : Prop := keeps (c_des c) /\ forall n, keeps (deserialize_len c n).

(** Told a length, the class does not compare it with the virtual getLength(). *)
Definition own_length {T} (c : cls T) : Prop :=
  match c_deslen c with DLDirect _ => True | DLVirtual check => forall k n, check k n = check 0 n end.
