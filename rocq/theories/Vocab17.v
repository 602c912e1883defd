(** * Vocab17: words for memory that nothing was written to, C108 - C109.  Only definitions. *)
From Verif Require Export Fresh Vocab9 Vocab14.

(** The memories have the same bytes in the view. *)
Definition agree_in (g : view) (m m' : heap) : Prop :=
  forall off k, v_off g <= off -> off + k <= v_off g + v_len g -> load m (v_blk g) off k = load m' (v_blk g) off k.
(** Decoding reads no memory but the view it decodes from, and changes none. *)
Definition tight {T A} (x : D T A) : Prop :=
  forall m m' v c t, agree_in v m m' ->
  exists o v' c' t', x m (RBuf v c) t = (o, m, RBuf v' c', t') /\ x m' (RBuf v c) t = (o, m', RBuf v' c', t').
Definition tight_cls {T} (c : cls T) : Prop := tight (c_des c) /\ forall n, tight (deserialize_len c n).

(** Proper calls whose decoding classes are as the library's. *)
Definition fresh_ok (u : heap) (o : op) : Prop :=
  op_ok u o /\ match o with OpGet T c t x y z => c_sb c <> None \/ tight_cls c | _ => True end.
(** The worlds differ in their memory only. *)
Definition all_but_memory (w v : world) : Prop :=
  w_ctl w = w_ctl v /\ w_io w = w_io v /\ w_net w = w_net v /\ w_se w = w_se v /\ w_rbuf w = w_rbuf v.
(** Two worlds in which a session may be called with data from [u]. Their memories,
    receive buffers included, have nothing in common but [u]. *)
Definition unlike_memory (u : heap) (w v : world) : Prop :=
  all_but_memory w v /\ session_ok w /\ session_ok v /\ user_memory u w /\ user_memory u v.
(** The data of the item is the same in both memories. *)
Definition same_data (m m' : heap) (i : cpf_item) : Prop :=
  forall sb, it_data i = Some (ser_of_sbuf sb) -> load_view m (sb_data sb) = load_view m' (sb_data sb).
(** The reader is a buffer, or a stream with no read so far cut short. *)
Definition unfailed (r : reader) : Prop := match r with RStr _ _ f => f = false | RBuf _ _ => True end.
