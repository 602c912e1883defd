(** * Vocab6: words for C69 and later. Only definitions. *)
From Verif Require Export Vocab5.

(** ** Memory balance *)
(** The same blocks are allocated, with the same sizes. *)
Definition same_blocks (m m' : heap) : Prop := forall b n, live m b n <-> live m' b n.
(** The call came back to its caller: it returned or raised. *)
Definition came_back {A} (o : outcome A) : Prop := (exists a, o = Ret a) \/ exists c s, o = Throw c s.
(** serialize allocates and frees nothing that outlives it. *)
Definition balanced_ser (s : ser) : Prop := forall m w o m' w', s_serialize s m w = (o, m', w') -> same_blocks m m'.
Definition balanced_opt (p : option ser) : Prop := match p with Some s => balanced_ser s | None => True end.
(** Nor does deserialize(reader, n) from a buffer. *)
Definition balanced_cls {T} (c : cls T) : Prop :=
  forall n m v k t o m' r t', deserialize_len c n m (RBuf v k) t = (o, m', r, t') -> same_blocks m m'.
Definition op_balanced (o : op) : Prop :=
  match o with
  | OpGet _ c _ _ _ _ => c_sb c <> None \/ balanced_cls c
  | OpSet _ _ _ d => balanced_opt d
  | OpSendIO p => Forall (fun i => balanced_opt (it_data i)) p
  | _ => True
  end.

(** ** Exceptions *)
(** deserialize(reader, n) of the class from a buffer can raise this. *)
Definition decode_raises {T} (c : cls T) (e : exn_class) : Prop :=
  exists n m v k t s m' r t', deserialize_len c n m (RBuf v k) t = (Throw e s, m', r, t').
(** The exceptions an operation may raise (session.h:81 documents runtime_error for open). *)
Definition may_raise (o : op) (e : exn_class) : Prop :=
  match o with
  | OpOpen _ _ _ | OpSet _ _ _ _ => is_a e RuntimeError = true
  | OpClose | OpSendIO _ => e = SystemError
  | OpGet _ c _ _ _ _ => is_a e RuntimeError = true \/ (c_sb c = None /\ decode_raises c e)
  | OpCreate _ _ | OpCloseConnection _ => is_a e RuntimeError = true \/ e = LogicError \/ e = LengthError
  | OpReceiveIO => e = SystemError \/ e = LengthError
  end.
(** Objects that can be serialized. *)
Definition op_encodes (o : op) (w : world) : Prop :=
  match o with
  | OpSet _ _ _ (Some s) => exists n, s_length s = Ret n
  | OpSendIO p => exists bs, carries (w_mem w) (cpf_ser p) bs
  | _ => True
  end.
