(** * Vocab5: words for the scanner, transport and concurrency theorems (C53 - ).
    Only definitions. *)
From Verif Require Export Vocab4 Transport.

(** ** The scanner *)
(** The list-identity request. *)
Definition list_identity_request : list byte := request 0x63 0 [].
(** The datagram starts with a complete list-identity reply with these items. *)
Definition listed (got : list byte) (xs : list (N * list byte)) : Prop :=
  exists ses payload rest, reply_frame got 0x63 ses payload /\ cpf_ok xs /\ payload = cpf xs ++ rest.
(** The first item is an identity item and its data start with a complete identity. *)
Definition identifies (got : list byte) (i : identity) : Prop :=
  exists d xs rest, listed got ((0x0C, d) :: xs) /\ identity_fits i /\ d = identity_of i ++ rest.
(** The two ways a datagram crashes the scanner: a list-identity reply without
    payload, or an identity item without data. *)
Definition scan_crashes (got : list byte) : Prop :=
  (exists ses, reply_frame got 0x63 ses []) \/ exists xs, listed got ((0x0C, []) :: xs).
(** The other results: what the datagram must be. *)
Definition scan_rejects (got : list byte) (r : scan_result) : Prop :=
  match r with
  | ScanIdentity _ | ScanReceiveError => False
  | ScanWrongCommand c => c <> 0x63 /\ exists ses payload, reply_frame got c ses payload
  | ScanNoItems => listed got []
  | ScanWrongItem ty => ty <> 0x0C /\ exists d xs, listed got ((ty, d) :: xs)
  | ScanTooShort =>
      (forall c ses payload, ~ reply_frame got c ses payload) \/
      (exists ses payload, reply_frame got 0x63 ses payload /\ payload <> [] /\ forall xs, ~ listed got xs) \/
      (exists d xs, d <> [] /\ listed got ((0x0C, d) :: xs) /\ forall i, ~ identifies got i)
  end.
(** What handling one datagram must do. *)
Definition scan_outcome (got : list byte) (o : outcome scan_result) : Prop :=
  (exists i, identifies got i /\ o = Ret (ScanIdentity i)) \/
  (scan_crashes got /\ o = Undef NullDeref) \/
  (exists r, scan_rejects got r /\ o = Ret r).

(** ** Received data *)
(** Something was received on one of the sockets. *)
Definition received (es : list event) : Prop := exists i d, In (ERecv i (Some d)) es.

(** ** Threads *)
(** The steps the first (second) thread makes in a schedule. *)
Definition turns (who : bool) (sched : list bool) : nat := List.length (filter (Bool.eqb who) sched).
(** The packets handed to the I/O socket. *)
Definition io_sends (es : list event) : list (list byte) :=
  flat_map (fun e => match e with ESend Io bs _ => [bs] | _ => [] end) es.
(** What the trace gained between two worlds. *)
Definition gained (w w' : world) (es : list event) : Prop := w_net w' = w_net w ++ es.

(** ** Split replies *)
(** [a] is the first of several pieces of the complete frame [a ++ b]. *)
Definition first_piece (a b : list byte) : Prop :=
  b <> [] /\ exists cmd ses st c0 c1 o payload,
    frame_fits cmd ses st c0 c1 o payload /\ a ++ b = frame cmd ses st c0 c1 o payload.
(** Operations that await a reply on the control socket. *)
Definition awaits (o : op) : Prop := match o with OpClose | OpReceiveIO | OpSendIO _ => False | _ => True end.

(** ** Short writes *)
(** The socket never accepts only a part of what it is given. *)
Definition no_short_write (k : sock) : Prop := Forall (fun t => match t with TxSome _ => False | _ => True end) (so_send k).
(** Every send was accepted whole or raised. *)
Definition whole_sends (es : list event) : Prop := forall i bs n, In (ESend i bs (Some n)) es -> n = len bs.

(** ** UDP socket life cycle *)
(** UDPSocket::open (socket/udp_socket.h:57-64) calls socket_.open, which fails on a
    socket that is already open: is the I/O socket open after [es], and is the trace
    one such a socket can produce? *)
Fixpoint io_open (b : bool) (es : list event) : bool :=
  match es with
  | [] => b
  | EOpen Io _ _ true :: es' => io_open true es'
  | EClose Io true :: es' => io_open false es'
  | _ :: es' => io_open b es'
  end.
Fixpoint udp_possible (b : bool) (es : list event) : Prop :=
  match es with
  | [] => True
  | EOpen Io _ _ true :: es' => b = false /\ udp_possible true es'
  | EClose Io true :: es' => udp_possible false es'
  | _ :: es' => udp_possible b es'
  end.

(** ** Progress *)
(** The socket whose receive an operation awaits has nothing to deliver. *)
Definition waits (o : op) (w : world) : Prop :=
  match o with
  | OpReceiveIO => so_recv (w_io w) = []
  | OpClose | OpSendIO _ => False
  | _ => so_recv (w_ctl w) = []
  end.
(** The library's own decoders (and any other that returns or raises). *)
Definition decodes (o : op) : Prop := match o with OpGet T c _ _ _ _ => c_sb c <> None \/ tame_cls c | _ => True end.

(** ** The test socket *)
Fixpoint ts_sends (msgs : list (list byte)) (t : test_socket) : list N * test_socket :=
  match msgs with
  | [] => ([], t)
  | m :: ms => let (n, t1) := ts_send m t in let (ns, t2) := ts_sends ms t1 in (n :: ns, t2)
  end.
Fixpoint ts_receives (sizes : list N) (t : test_socket) : list (list byte) * test_socket :=
  match sizes with
  | [] => ([], t)
  | n :: ns => let (d, t1) := ts_receive n t in let (ds, t2) := ts_receives ns t1 in (d :: ds, t2)
  end.
