(** * Vocab8: words for several session objects, C75 - C79, C85.  Only definitions. *)
From Verif Require Export Objects Vocab7.

(** Object [i] exists and is [ob]; its sockets are [l]. *)
Definition alive (s : pool) (i : nat) (ob : object) : Prop := nth_error (st_objs s) i = Some (Some ob).
Definition linked (s : pool) (ob : object) (l : link) : Prop := nth_error (st_links s) (ob_link ob) = Some l.
(** The bytes of its receive buffer. *)
Definition buffer (s : pool) (ob : object) (bs : list byte) : Prop := nth_error (st_mem s) (ob_buf ob) = Some (Some bs).

(** Objects as their constructors leave them, or later: each has its sockets and its own
    receive buffer, apart from the user's memory [u]. *)
Definition pool_ok (u : heap) (s : pool) : Prop :=
  hext u (st_mem s) /\ (List.length u <= List.length (st_mem s))%nat /\
  (forall i ob, alive s i ob -> exists l, linked s ob l /\ session_ok (world_of s ob l) /\ user_memory u (world_of s ob l)) /\
  (forall i j a b, i <> j -> alive s i a -> alive s j b -> ob_buf a <> ob_buf b).

(** Arguments of the calls as in [op_ok]; objects are made on sockets that exist. *)
Definition act_ok (u : heap) (n : nat) (a : act) : Prop :=
  match a with
  | ANew _ _ _ _ k => (k < n)%nat
  | ACall _ o => op_ok u o
  | _ => True
  end.
(** The act does not name object [j] and makes no object on the sockets [k]. *)
Definition leaves_alone (j k : nat) (a : act) : Prop :=
  match a with
  | ANew _ _ _ _ k' => k' <> k
  | ACopy i | ADestroy i | ACall i _ => i <> j
  | AAssign i i' => i <> j /\ i' <> j
  end.
(** No other object has the sockets of object [j]. *)
Definition own_sockets (s : pool) (j : nat) (ob : object) : Prop :=
  forall k o, k <> j -> alive s k o -> ob_link o <> ob_link ob.

(** ** Where received data lives *)
(** A raw buffer object over [n] bytes at [off] of block [b]: nothing was copied. *)
Definition raw_at (b : nat) (off n : N) : sbuf := mkSB (mkV b off n) None.
(** The data of an item, if any, is in block [b]. *)
Definition inside (b : nat) (i : cpf_item) : Prop :=
  it_data i = None \/ exists sb, it_data i = Some (ser_of_sbuf sb) /\ v_blk (sb_data sb) = b.
(** getSingleAttributeSerializable (src/session.cpp:223-231) into a new SerializableBuffer. *)
Definition get_buffer (x y z : N) : M sbuf := fun w =>
  match getSingleAttributeSerializable sbuf_cls x y z sb_empty w with
  | (Ret _, r, w') => (Ret r, w')
  | (Throw c e, _, w') => (Throw c e, w')
  | (Undef ub, _, w') => (Undef ub, w')
  | (Stuck, _, w') => (Stuck, w')
  end.
(** Serializing the object reads freed memory. *)
Definition dangling (m : heap) (d : ser) : Prop := forall out, fst (fst (s_serialize d m (WStr out))) = Undef UseAfterFree.

(** ** Connection keys *)
(** The key of the next connection of a session. *)
Definition next_key (s : session) : N * N * N := (se_next_sn s, se_vendor s, se_serial s).
(** Vendor and serial number given to the constructor. *)
Definition originator (s : session) : N * N := (se_vendor s, se_serial s).

(** ** Abandoned sockets *)
(** No object has the sockets [k]; the act makes no object on them. *)
Definition unused (s : pool) (k : nat) : Prop := forall i ob, alive s i ob -> ob_link ob <> k.
Definition not_on (k : nat) (a : act) : Prop := match a with ANew _ _ _ _ k' => k' <> k | _ => True end.
(** A new closed session: EIP_UINT and EIP_UDINT arguments, numbers from the generator. *)
Definition new_fields (gen : N -> N * N) (time vendor serial : N) : session :=
  mkSess 0 (vendor mod 65536) (serial mod 4294967296) (snd (gen time) mod 65536) (fst (gen time) mod 4294967296) [].
