(** * Vocab7: a small specification of a conforming target, for C73 and C74.
    Only definitions; written over the byte formats of Spec.v and the words of Vocab2.v. *)
From Verif Require Export Vocab6.

(** What a target knows: the session handle it gave out, its attributes (by class,
    instance, attribute) and the connections it has open (by connection serial
    number, vendor id, originator serial number). *)
Record target := mkTarget { tg_session : N; tg_attr : N * N * N -> option (list byte); tg_conns : list (N * N * N) }.

Definition triple_dec (a b : N * N * N) : {a = b} + {a <> b}.
Proof. repeat decide equality. Defined.

Definition put_attr (k : N * N * N) (d : list byte) (t : target) : target :=
  mkTarget (tg_session t) (fun k' => if triple_dec k' k then Some d else tg_attr t k') (tg_conns t).
Definition with_conns (cs : list (N * N * N)) (t : target) : target := mkTarget (tg_session t) (tg_attr t) cs.

(** A target in state [t] receives the bytes [bs], what reaches the client is [got],
    and its state becomes [t']. *)
Inductive serves (t : target) : list byte -> list byte -> target -> Prop :=
| serves_get x y z sv a v got : x < 256 -> y < 256 -> z < 256 ->
    tg_attr t (x, y, z) = Some v -> answers (tg_session t) got sv 0 a v ->
    serves t (get_request (tg_session t) x y z) got t
| serves_set x y z data sv a d got : x < 256 -> y < 256 -> z < 256 ->
    answers (tg_session t) got sv 0 a d ->
    serves t (set_request (tg_session t) x y z data) got (put_attr (x, y, z) data t)
| serves_open tick ticks o2t t2o sn vendor serial mult orpi opar trpi tpar ty path sv a d o2t' t2o' oapi tapi got :
    ~ In (sn, vendor, serial) (tg_conns t) -> opened d o2t' t2o' sn vendor serial oapi tapi ->
    answers (tg_session t) got sv 0 a d ->
    serves t (request 0x6F (tg_session t) (rr_request 0x5B manager_path
               (forward_open tick ticks o2t t2o sn vendor serial mult orpi opar trpi tpar ty path))) got
             (with_conns (tg_conns t ++ [(sn, vendor, serial)]) t)
| serves_close tick ticks sn vendor serial ss sv a d got :
    In (sn, vendor, serial) (tg_conns t) -> closed_reply d sn vendor serial ->
    answers (tg_session t) got sv 0 a d ->
    serves t (request 0x6F (tg_session t) (rr_request 0x4E manager_path (forward_close tick ticks sn vendor serial ss))) got
             (with_conns (remove triple_dec (sn, vendor, serial) (tg_conns t)) t)
| serves_refuse bs sv st a d got : st <> 0 -> answers (tg_session t) got sv st a d -> serves t bs got t.

(** The talk on the control socket is one with such a target: every request arrives
    whole and is answered, or does not leave the client at all. *)
Inductive conforms : target -> list event -> target -> Prop :=
| conforms_nil t : conforms t [] t
| conforms_exchange t bs got t1 es t' : serves t bs got t1 -> conforms t1 es t' ->
    conforms t (ESend Ctl bs (Some (len bs)) :: ERecv Ctl (Some got) :: es) t'
| conforms_unsent t bs es t' : conforms t es t' -> conforms t (ESend Ctl bs None :: es) t'.

(** Client and target agree on the session and on the open connections. *)
Definition conn_key (c : connection) : N * N * N := (cn_sn c, cn_vendor c, cn_orig_sn c).
Definition key_fits (k : N * N * N) : Prop := let '(sn, vendor, serial) := k in fits 2 sn /\ fits 2 vendor /\ fits 4 serial.
Definition agrees (s : session) (t : target) : Prop :=
  se_id s <> 0 /\ tg_session t = se_id s /\ map conn_key (se_conns s) = tg_conns t.
(** The numbers of the session are within their C++ types and no key is used twice. *)
Definition numbers_ok (s : session) : Prop :=
  key_fits (se_next_sn s, se_vendor s, se_serial s) /\ Forall (fun c => key_fits (conn_key c)) (se_conns s) /\
  NoDup (map conn_key (se_conns s)).
(** The operation sets this attribute. *)
Definition sets (o : op) (k : N * N * N) : Prop := match o with OpSet x y z _ => k = (x, y, z) | _ => False end.

(** ** Length-limited decoding *)
(** A decode told that [n] bytes belong to the object takes at most [n] bytes. *)
Definition stays_within {T} (c : cls T) : Prop :=
  forall n m v k t a m' r t', deserialize_len c n m (RBuf v k) t = (Ret a, m', r, t') -> exists v' k', r = RBuf v' k' /\ k' <= k + n.
(** A decode that was told [n] took more. *)
Definition takes_more {T} (c : cls T) (n : N) : Prop :=
  exists m v bs k t a m' v' k' t', reads m v bs /\ deserialize_len c n m (RBuf v k) t = (Ret a, m', RBuf v' k', t') /\ k + n < k'.

(** ** I/O end to end *)
(** Decoding these bytes from a buffer, whatever the object was before, gives this value. *)
Definition reads_as {T} (c : cls T) (data : list byte) (val : T) : Prop :=
  forall m v k t, reads m v data -> exists m' r, deserialize_len c (len data) m (RBuf v k) t = (Ret tt, m', r, val).
