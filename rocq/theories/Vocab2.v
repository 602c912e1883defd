(** * Vocab2: the words the session theorems are stated with.  Only definitions. *)
From Verif Require Export Vocab Session.

(** ** Replies, as bytes *)

(** [got] starts with a complete frame with this command, session handle and payload. *)
Definition reply_frame (got : list byte) (cmd ses : N) (payload : list byte) : Prop :=
  exists st c0 c1 o rest, frame_fits cmd ses st c0 c1 o payload /\ got = frame cmd ses st c0 c1 o payload ++ rest.
(** The handle is that of the session, or anything but 0 while no session is open. *)
Definition matches (id ses : N) : Prop := (id = 0 /\ ses <> 0) \/ (id <> 0 /\ ses = id).
(** The payload is a complete unconnected message carrying these bytes. *)
Definition carries_unconnected (payload d : list byte) : Prop :=
  exists i to xs rest, rr_ok i to xs /\ payload = rr i to xs ++ rest /\ unconnected xs d.
(** ... carrying a complete router reply. *)
Definition rr_reply (payload : list byte) (sv st : N) (a d : list byte) : Prop :=
  exists rs q, carries_unconnected payload q /\ reply_ok sv rs st a /\ q = router_reply sv rs st a d.
(** The whole reply to an explicit command. *)
Definition answers (id : N) (got : list byte) (sv st : N) (a d : list byte) : Prop :=
  exists ses payload, reply_frame got 0x6F ses payload /\ matches id ses /\ rr_reply payload sv st a d.
(** The two ways a reply to an explicit command crashes the client: an empty
    payload, or an empty unconnected message. *)
Definition crashes (id : N) (got : list byte) : Prop :=
  exists ses payload, reply_frame got 0x6F ses payload /\ matches id ses /\
    (payload = [] \/ carries_unconnected payload []).

(** ** One request and its reply on the control socket *)
Inductive talked := NoSend | Blocked | NoReply | Reply (got : list byte).
Definition sent (k : sock) (bs : list byte) : option N :=
  match so_send k with
  | TxFail :: _ => None
  | TxSome n :: _ => Some (N.min n (len bs))
  | _ => Some (len bs)
  end.
(** What happens when [bs] is handed to a socket and a reply awaited, and what is
    left of the socket's script. *)
Definition talk (k : sock) (bs : list byte) : list event * talked * sock :=
  match sent k bs with
  | None => ([ESend Ctl bs None], NoSend, mkSock (so_open k) (tl (so_send k)) (so_recv k) (so_close k))
  | Some n =>
      let left := mkSock (so_open k) (tl (so_send k)) (tl (so_recv k)) (so_close k) in
      match so_recv k with
      | [] => ([ESend Ctl bs (Some n)], Blocked, left)
      | RxFail :: _ => ([ESend Ctl bs (Some n); ERecv Ctl None], NoReply, left)
      | RxData d :: _ => ([ESend Ctl bs (Some n); ERecv Ctl (Some (take 4096 d))], Reply (take 4096 d), left)
      end
  end.
Definition events (k : sock) (bs : list byte) : list event := fst (fst (talk k bs)).
Definition reply_of (k : sock) (bs : list byte) : talked := snd (fst (talk k bs)).
Definition left_of (k : sock) (bs : list byte) : sock := snd (talk k bs).

(** ** Worlds *)

(** The receive buffer of the session is there. *)
Definition rbuf_ok (w : world) : Prop := exists bl, nth_error (w_mem w) (w_rbuf w) = Some (Some bl) /\ len bl = 4096.
(** Every block except the receive buffer is as before. *)
Definition mem_kept (w w' : world) : Prop :=
  forall b x, b <> w_rbuf w -> nth_error (w_mem w) b = Some x -> nth_error (w_mem w') b = Some x.
(** [w'] comes from [w] by one exchange of [bs] on the control socket: only the
    receive buffer, the trace and the control socket changed. *)
Definition exchanged (w : world) (bs : list byte) (w' : world) : Prop :=
  w_se w' = w_se w /\ w_rbuf w' = w_rbuf w /\ w_io w' = w_io w /\ rbuf_ok w' /\ mem_kept w w' /\
  w_net w' = w_net w ++ events (w_ctl w) bs /\ w_ctl w' = left_of (w_ctl w) bs.

(** The outcome of a command, by what came back: a reply is accepted exactly when it
    is a complete frame with the command and a matching handle. *)
Definition command_outcome (w : world) (cmd : N) (bs : list byte) (o : outcome encap_packet) (w' : world) : Prop :=
  match reply_of (w_ctl w) bs with
  | NoSend | NoReply => exists s, o = Throw SystemError s
  | Blocked => o = Stuck
  | Reply got =>
      (exists ses payload p, reply_frame got cmd ses payload /\ matches (se_id (w_se w)) ses /\
         o = Ret p /\ h_session (ep_header p) = ses /\ holds (w_mem w') (ep_payload p) payload) \/
      ((forall ses payload, reply_frame got cmd ses payload -> ~ matches (se_id (w_se w)) ses) /\
       exists e s, is_a e LogicError = true /\ o = Throw e s)
  end.

(** The outcome of an explicit (unconnected) command. *)
Definition rr_outcome (w : world) (req : list byte) (o : outcome (rr_data mr_response)) (w' : world) : Prop :=
  match reply_of (w_ctl w) req with
  | NoSend | NoReply => exists s, o = Throw SystemError s
  | Blocked => o = Stuck
  | Reply got =>
      let id := se_id (w_se w) in
      (exists sv a q resp, answers id got sv 0 a q /\ o = Ret resp /\
         ms_service (rr_ext resp) = sv /\ ms_status (rr_ext resp) = 0 /\
         holds (w_mem w') (ms_additional (rr_ext resp)) a /\ holds (w_mem w') (ms_data (rr_ext resp)) q) \/
      (crashes id got /\ o = Undef NullDeref) \/
      ((forall sv a q, ~ answers id got sv 0 a q) /\ ~ crashes id got /\ exists s, o = Throw RuntimeError s)
  end.

(** ** Opening and closing *)
Definition open_fails (k : sock) : bool := match so_open k with b :: _ => b | [] => false end.
Definition close_fails (k : sock) : bool := match so_close k with b :: _ => b | [] => false end.
(** The events of closing the control socket and then the I/O socket, and whether
    both calls returned. *)
Definition closing (ctl io : sock) : list event :=
  if close_fails ctl then [EClose Ctl false]
  else [EClose Ctl true; EClose Io (negb (close_fails io))].
Definition closed (ctl io : sock) : bool := negb (close_fails ctl) && negb (close_fails io).
(** The registration request. *)
Definition register_request : list byte := request 0x65 0 (registration 1 0).
(** A registration reply accepted by the code: the frame matches and the payload is
    too short to hold a version (!) or announces version 1. *)
Definition registers (id : N) (got : list byte) (ses : N) : Prop :=
  exists payload, reply_frame got 0x65 ses payload /\ matches id ses /\ payload <> [] /\
    (len payload < 4 \/ exists options rest, payload = registration 1 options ++ rest).
(** ... and one that crashes the client. *)
Definition registers_empty (id : N) (got : list byte) : Prop :=
  exists ses, reply_frame got 0x65 ses [] /\ matches id ses.

(** ** Connections *)
Definition manager_path : list byte := epath false [SClass 6; SInstance 1].
(** The forward open request for these directions, identifiers and owner. *)
Definition open_message (vendor serial sn id : N) (o t : conn_info) : list byte :=
  forward_open 6 80 id ((id + 1) mod 2 ^ 32) sn vendor serial 0
    (ci_rpi o) (parameter_word (ci_size o mod 2 ^ 15) false 2 2 false)
    (ci_rpi t) (parameter_word (ci_size t mod 2 ^ 15) true 2 2 false) 1
    (epath false [SClass 4; SInstance 1; SPoint (ci_assembly o); SPoint (ci_assembly t)]).
Definition open_request (s : session) (o t : conn_info) : list byte :=
  request 0x6F (se_id s) (rr_request 0x5B manager_path (open_message (se_vendor s) (se_serial s) (se_next_sn s) (se_next_id s) o t)).
Definition close_request (s : session) (c : connection) : list byte :=
  request 0x6F (se_id s) (rr_request 0x4E manager_path
    (forward_close (cn_tick_size c) (cn_ticks c) (cn_sn c) (cn_vendor c) (cn_orig_sn c) [SClass 2; SInstance 1])).
(** What the session becomes when a connection is requested: the counters move on. *)
Definition numbered (s s' : session) : Prop :=
  se_id s' = se_id s /\ se_vendor s' = se_vendor s /\ se_serial s' = se_serial s /\
  se_next_sn s' = (se_next_sn s + 1) mod 2 ^ 16 /\ se_next_id s' = (se_next_id s + 2) mod 2 ^ 32.
(** A complete forward open (close) reply in the data [d]. *)
Definition opened (d : list byte) (o2t t2o sn vendor serial o2t_api t2o_api : N) : Prop :=
  exists rs app rest,
    (fits 4 o2t /\ fits 4 t2o /\ fits 2 sn /\ fits 2 vendor /\ fits 4 serial /\ fits 4 o2t_api /\ fits 4 t2o_api /\
     len app mod 2 = 0 /\ len app < 512) /\
    d = forward_open_reply o2t t2o sn vendor serial o2t_api t2o_api rs app ++ rest.
Definition closed_reply (d : list byte) (sn vendor serial : N) : Prop :=
  exists rs app rest, (fits 2 sn /\ fits 2 vendor /\ fits 4 serial /\ len app mod 2 = 0 /\ len app < 512) /\
    d = forward_close_reply sn vendor serial rs app ++ rest.
(** The connection that is recorded. *)
Definition records (s : session) (o t : conn_info) (o2t t2o o2t_api t2o_api : N) (c : connection) : Prop :=
  cn_vendor c = se_vendor s /\ cn_orig_sn c = se_serial s /\ cn_sn c = se_next_sn s /\
  cn_o2t_id c = o2t /\ cn_t2o_id c = t2o /\ cn_o2t_api c = o2t_api /\ cn_t2o_api c = t2o_api /\
  cn_o2t_rpi c = ci_rpi o /\ cn_t2o_rpi c = ci_rpi t /\ cn_o2t_size c = ci_size o /\ cn_t2o_size c = ci_size t /\
  cn_tick_size c = 6 /\ cn_ticks c = 80.
(** As [exchanged], but the session may change. *)
Definition exchanged_se (w : world) (bs : list byte) (w' : world) : Prop :=
  w_rbuf w' = w_rbuf w /\ w_io w' = w_io w /\ rbuf_ok w' /\ mem_kept w w' /\
  w_net w' = w_net w ++ events (w_ctl w) bs /\ w_ctl w' = left_of (w_ctl w) bs.

(** *** Statements about attributes, open, close and connections *)
(** The path of an attribute request. *)
Definition attribute_path (c i a : N) : list byte := epath false [SClass c; SInstance i; SAttribute a].

(** Get / set attribute requests as they must appear on the wire. *)
Definition get_request (id c i a : N) : list byte := request 0x6F id (rr_request 0x0E (attribute_path c i a) []).
Definition set_request (id c i a : N) (data : list byte) : list byte := request 0x6F id (rr_request 0x10 (attribute_path c i a) data).

(** The unregister request that ends a session. *)
Definition unregister (id : N) : list byte := request 0x66 id [].

(** What open does once both sockets are open: [tail] are the events after the
    exchange.  Accepting exactly the replies that register a session. *)
Definition open_outcome (w : world) (o : outcome unit) (w' : world) (tail : list event) : Prop :=
  match reply_of (w_ctl w) register_request with
  | NoSend | NoReply => (exists s, o = Throw SystemError s) /\ tail = [] /\ w_se w' = w_se w
  | Blocked => o = Stuck /\ tail = [] /\ w_se w' = w_se w
  | Reply got =>
      let id := se_id (w_se w) in
      (exists ses, registers id got ses /\ o = Ret tt /\ tail = [] /\ w_se w' = set_id ses (w_se w)) \/
      (registers_empty id got /\ o = Undef NullDeref /\ tail = [] /\ w_se w' = w_se w) \/
      ((forall ses, ~ registers id got ses) /\ ~ registers_empty id got /\
       w_se w' = w_se w /\ tail = closing (w_ctl w) (w_io w) /\
       if closed (w_ctl w) (w_io w) then exists s, o = Throw RuntimeError s else exists s, o = Throw SystemError s)
  end.

(** open as a whole. *)
Definition open_spec_at (w : world) (h p q : string) (o : outcome unit) (w' : world) : Prop :=
  w_rbuf w' = w_rbuf w /\ rbuf_ok w' /\ mem_kept w w' /\
  if open_fails (w_ctl w) then
    w_net w' = w_net w ++ [EOpen Ctl h p false] /\ (exists s, o = Throw SystemError s) /\ w_se w' = w_se w
  else if open_fails (w_io w) then
    w_net w' = w_net w ++ [EOpen Ctl h p true; EOpen Io h q false] /\ (exists s, o = Throw SystemError s) /\ w_se w' = w_se w
  else exists tail, open_outcome w o w' tail /\
    w_net w' = w_net w ++ [EOpen Ctl h p true; EOpen Io h q true] ++ events (w_ctl w) register_request ++ tail.

(** createConnection: result and recorded connections, by reply. *)
Definition create_outcome (w : world) (o t : conn_info) (res : outcome N) (w' : world) : Prop :=
  let s := w_se w in
  match reply_of (w_ctl w) (open_request s o t) with
  | NoSend | NoReply => (exists m, res = Throw SystemError m) /\ se_conns (w_se w') = se_conns s
  | Blocked => res = Stuck /\ se_conns (w_se w') = se_conns s
  | Reply got =>
      (exists sv a d o2t t2o oapi tapi c, answers (se_id s) got sv 0 a d /\
         opened d o2t t2o (se_next_sn s) (se_vendor s) (se_serial s) oapi tapi /\
         records s o t o2t t2o oapi tapi c /\
         res = Ret (len (se_conns s)) /\ se_conns (w_se w') = se_conns s ++ [c]) \/
      (se_conns (w_se w') = se_conns s /\
       ((exists sv a d o2t t2o sn vn os oapi tapi m, answers (se_id s) got sv 0 a d /\
           opened d o2t t2o sn vn os oapi tapi /\ (sn, vn, os) <> (se_next_sn s, se_vendor s, se_serial s) /\
           res = Throw LogicError m) \/
        (exists sv a d m, answers (se_id s) got sv 0 a d /\ d <> [] /\
           (forall o2t t2o sn vn os oapi tapi, ~ opened d o2t t2o sn vn os oapi tapi) /\ res = Throw LengthError m) \/
        ((crashes (se_id s) got \/ exists sv a, answers (se_id s) got sv 0 a []) /\ res = Undef NullDeref) \/
        ((forall sv a d, ~ answers (se_id s) got sv 0 a d) /\ ~ crashes (se_id s) got /\ exists m, res = Throw RuntimeError m)))
  end.

(** closeConnection on connection [c] with number [n]. *)
Definition drop_conn_outcome (w : world) (n : N) (c : connection) (res : outcome unit) (w' : world) : Prop :=
  let s := w_se w in
  match reply_of (w_ctl w) (close_request s c) with
  | NoSend | NoReply => (exists m, res = Throw SystemError m) /\ w_se w' = s
  | Blocked => res = Stuck /\ w_se w' = s
  | Reply got =>
      (exists sv a d, answers (se_id s) got sv 0 a d /\ closed_reply d (cn_sn c) (cn_vendor c) (cn_orig_sn c) /\
         res = Ret tt /\ w_se w' = set_conns (list_remove (N.to_nat n) (se_conns s)) s) \/
      (w_se w' = s /\
       ((exists sv a d sn vn os m, answers (se_id s) got sv 0 a d /\ closed_reply d sn vn os /\
           (sn, vn, os) <> (cn_sn c, cn_vendor c, cn_orig_sn c) /\ res = Throw LogicError m) \/
        (exists sv a d m, answers (se_id s) got sv 0 a d /\ d <> [] /\
           (forall sn vn os, ~ closed_reply d sn vn os) /\ res = Throw LengthError m) \/
        ((crashes (se_id s) got \/ exists sv a, answers (se_id s) got sv 0 a []) /\ res = Undef NullDeref) \/
        ((forall sv a d, ~ answers (se_id s) got sv 0 a d) /\ ~ crashes (se_id s) got /\ exists m, res = Throw RuntimeError m)))
  end.

(** ** Sending and receiving *)
(** Block [b] is allocated and has [n] bytes. *)
Definition live (m : heap) (b : nat) (n : N) : Prop := exists bs, nth_error m b = Some (Some bs) /\ len bs = n.

(** What a send does, given what serialize does with a new zeroed buffer of [n] bytes
    (the hypotheses on the buffer exclude objects that free or replace it). *)
Definition sends (i : which) (s : ser) (n : N) (w : world) (o : outcome N) (w' : world) : Prop :=
  match s_serialize s (w_mem w ++ [Some (zeros n)]) (WBuf (mkV (List.length (w_mem w)) 0 n) 0) with
  | (Ret _, m1, _) =>
      forall bs, nth_error m1 (List.length (w_mem w)) = Some (Some bs) -> len bs = n ->
        ((exists k, o = Ret k /\ w_net w' = w_net w ++ [ESend i bs (Some k)]) \/
         (exists e, o = Throw SystemError e /\ w_net w' = w_net w ++ [ESend i bs None])) /\
        nth_error (w_mem w') (List.length (w_mem w)) = Some None
  | (Throw c e, m1, _) =>
      live m1 (List.length (w_mem w)) n ->
        o = Throw c e /\ w_net w' = w_net w /\ nth_error (w_mem w') (List.length (w_mem w)) = Some None
  | _ => True
  end.

(** The events of one receive on the I/O socket. *)
Definition io_events (k : sock) : list event :=
  match so_recv k with [] => [] | RxFail :: _ => [ERecv Io None] | RxData d :: _ => [ERecv Io (Some (take 4096 d))] end.
(** A socket after one receive, and after one send. *)
Definition next_recv (k : sock) : sock := mkSock (so_open k) (so_send k) (tl (so_recv k)) (so_close k).
Definition next_send (k : sock) : sock := mkSock (so_open k) (tl (so_send k)) (so_recv k) (so_close k).
