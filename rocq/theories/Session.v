(** * Session: sockets, connections and the session state machine. *)
From Verif Require Export Packets.

(** ** The environment *)

(** Results a socket operation can have (asio implementations:
    socket/tcp_socket.h:56-91, socket/udp_socket.h:57-94).  Sending may accept
    only some of the bytes; a failure throws boost::system::system_error. *)
Inductive tx := TxAll | TxSome (k : N) | TxFail.
Inductive rx := RxData (bs : list byte) | RxFail.

(** The future behaviour of one socket.  [true] in [so_open]/[so_close] means the
    call throws.  When the open, close or send script is exhausted the call
    succeeds; when the receive script is exhausted, [receive] blocks for ever. *)
Record sock := mkSock {
  so_open : list bool; so_send : list tx; so_recv : list rx; so_close : list bool }.

(** The two sockets of a session, session.h:209-210. *)
Inductive which := Ctl | Io.

(** Observable socket operations, in order. [ESend i bs n]: the session handed
    [bs] to the socket, which accepted the first [n] bytes ([None]: it threw). *)
Inductive event :=
| EOpen (i : which) (host port : string) (ok : bool)
| ESend (i : which) (bs : list byte) (n : option N)
| ERecv (i : which) (bs : option (list byte))
| EClose (i : which) (ok : bool).

(** ** Connection (connection.h, src/connection.cpp) *)

(** EIP_CONNECTION_INFO_T, eip_types.h:97-105. *)
Record conn_info := mkCI { ci_assembly : N; ci_size : N; ci_rpi : N }.

(** connection.h:50-67, :115. *)
Record connection := mkConn {
  cn_vendor : N; cn_orig_sn : N; cn_sn : N; cn_o2t_id : N; cn_t2o_id : N;
  cn_tick_size : N; cn_ticks : N; cn_multiplier : N;
  cn_o2t_rpi : N; cn_t2o_rpi : N; cn_o2t_api : N; cn_t2o_api : N;
  cn_o2t_size : N; cn_t2o_size : N; cn_path : path }.

(** setConnectionPoints, src/connection.cpp:50-57. *)
Definition cn_points (origin target : N) (p : path) : path :=
  path_addLogicalConnectionPoint target (path_addLogicalConnectionPoint origin
    (path_addLogicalInstance 1 (path_addLogicalClass 0x04 (path_reset p)))).

(** Constructor, src/connection.cpp:36-48.  The first five members are left
    uninitialised by the constructor and set by the only caller
    (src/session.cpp:300-304); here they are parameters. *)
Definition cn_make (vendor orig_sn sn o2t_id t2o_id : N) (o t : conn_info) : connection :=
  mkConn vendor orig_sn sn o2t_id t2o_id 6 80 0 (ci_rpi o) (ci_rpi t) 0 0 (ci_size o) (ci_size t)
         (cn_points (ci_assembly o) (ci_assembly t) (path_empty false)).

(** createForwardOpenRequest, src/connection.cpp:59-84. *)
Definition cn_open_request (c : connection) : fo_request :=
  mkFO (cn_tick_size c) (cn_ticks c) (cn_o2t_id c) (cn_t2o_id c) (cn_sn c)
       (cn_vendor c) (cn_orig_sn c) (cn_multiplier c)
       (cn_o2t_rpi c) (calcConnectionParams (cn_o2t_size c) false 2 2 false)
       (cn_t2o_rpi c) (calcConnectionParams (cn_t2o_size c) true 2 2 false)
       1 (cn_path c).

(** createForwardCloseRequest, src/connection.cpp:86-101. *)
Definition cn_close_request (c : connection) : fc_request :=
  mkFC (cn_tick_size c) (cn_ticks c) (cn_sn c) (cn_vendor c) (cn_orig_sn c) (path_ci 0x02 0x01).

(** verifyForwardOpenResult, src/connection.cpp:103-126: None is [false]; the ids
    and intervals of the reply are stored. *)
Definition cn_verify_open (c : connection) (r : fo_success) : option connection :=
  if negb (fs_conn_sn r =? cn_sn c) || negb (fs_vendor r =? cn_vendor c)
     || negb (fs_orig_sn r =? cn_orig_sn c)
  then None
  else Some (mkConn (cn_vendor c) (cn_orig_sn c) (cn_sn c)
               (if negb (fs_o2t_id r =? cn_o2t_id c) then fs_o2t_id r else cn_o2t_id c)
               (if negb (fs_t2o_id r =? cn_t2o_id c) then fs_t2o_id r else cn_t2o_id c)
               (cn_tick_size c) (cn_ticks c) (cn_multiplier c)
               (cn_o2t_rpi c) (cn_t2o_rpi c) (fs_o2t_api r) (fs_t2o_api r)
               (cn_o2t_size c) (cn_t2o_size c) (cn_path c)).

(** verifyForwardCloseResult, src/connection.cpp:128-137. *)
Definition cn_verify_close (c : connection) (r : fc_success) : bool :=
  (cs_conn_sn r =? cn_sn c) && (cs_vendor r =? cn_vendor c) && (cs_orig_sn r =? cn_orig_sn c).

(** ** World: memory, sockets, trace, and the members of Session (session.h:209-219) *)
Record session := mkSess {
  se_id : N; se_vendor : N; se_serial : N; se_next_sn : N; se_next_id : N;
  se_conns : list connection }.
Record world := mkW {
  w_mem : heap; w_ctl : sock; w_io : sock; w_net : list event; w_se : session;
  w_rbuf : nat (* block of recv_buffer_ *) }.

Definition set_mem m w := mkW m (w_ctl w) (w_io w) (w_net w) (w_se w) (w_rbuf w).
Definition set_sock (i : which) k w :=
  match i with
  | Ctl => mkW (w_mem w) k (w_io w) (w_net w) (w_se w) (w_rbuf w)
  | Io => mkW (w_mem w) (w_ctl w) k (w_net w) (w_se w) (w_rbuf w)
  end.
Definition get_sock (i : which) w := match i with Ctl => w_ctl w | Io => w_io w end.
Definition emit e w := mkW (w_mem w) (w_ctl w) (w_io w) (w_net w ++ [e]) (w_se w) (w_rbuf w).
Definition set_se s w := mkW (w_mem w) (w_ctl w) (w_io w) (w_net w) s (w_rbuf w).
Definition set_id v s := mkSess v (se_vendor s) (se_serial s) (se_next_sn s) (se_next_id s) (se_conns s).
Definition set_counters sn cid s := mkSess (se_id s) (se_vendor s) (se_serial s) sn cid (se_conns s).
Definition set_conns l s := mkSess (se_id s) (se_vendor s) (se_serial s) (se_next_sn s) (se_next_id s) l.

(** Actions of the session. *)
Definition M (A : Type) := world -> outcome A * world.
Definition mret {A} (a : A) : M A := fun w => (Ret a, w).
Definition mthrow {A} (c : exn_class) (s : string) : M A := fun w => (Throw c s, w).
Arguments mthrow {A} c s%string.
Definition mbind {A B} (x : M A) (f : A -> M B) : M B := fun w =>
  match x w with
  | (Ret a, w') => f a w'
  | (Throw c s, w') => (Throw c s, w')
  | (Undef u, w') => (Undef u, w')
  | (Stuck, w') => (Stuck, w')
  end.
Notation "'let*' x := c 'in' k" := (mbind c (fun x => k)) (at level 200, x name, c at level 100, k at level 200).
Notation "'do*' c 'in' k" := (mbind c (fun _ => k)) (at level 200, c at level 100, k at level 200).
(** Clean-up that runs on return and on unwinding. *)
Definition mfinally {A} (x : M A) (fin : M unit) : M A := fun w =>
  match x w with
  | (Ret a, w') => (do* fin in mret a) w'
  | (Throw c s, w') => (do* fin in mthrow c s) w'
  | r => r
  end.
(** [try { x } catch (std::length_error) { h1 } catch (std::logic_error) { h2 }]. *)
Definition mcatch {A} (x : M A) (h1 h2 : M A) : M A := fun w =>
  match x w with
  | (Throw c s, w') => if is_a c LengthError then h1 w' else if is_a c LogicError then h2 w'
                       else (Throw c s, w')
  | r => r
  end.
Definition mget : M world := fun w => (Ret w, w).
Definition mupd (f : world -> world) : M unit := fun w => (Ret tt, f w).
Definition mupd_se (f : session -> session) : M unit := mupd (fun w => set_se (f (w_se w)) w).
Definition mout {A} (x : outcome A) : M A := fun w => (x, w).
Definition mheap {A} (f : heap -> outcome A * heap) : M A := fun w =>
  let (o, m) := f (w_mem w) in (o, set_mem m w).
Definition m_free (b : nat) : M unit := mheap (fun m =>
  match free m b with
  | Ret m' => (Ret tt, m')
  | Throw c s => (Throw c s, m) | Undef u => (Undef u, m) | Stuck => (Stuck, m)
  end).

(** ** Socket (socket/socket.h:58-103) *)

(** open, :69; close, :74. *)
Definition sock_open (i : which) (host port : string) : M unit := fun w =>
  let k := get_sock i w in
  let bad := match so_open k with b :: _ => b | [] => false end in
  let w' := emit (EOpen i host port (negb bad))
              (set_sock i (mkSock (tl (so_open k)) (so_send k) (so_recv k) (so_close k)) w) in
  if bad then (Throw SystemError "open", w') else (Ret tt, w').
Definition sock_close (i : which) : M unit := fun w =>
  let k := get_sock i w in
  let bad := match so_close k with b :: _ => b | [] => false end in
  let w' := emit (EClose i (negb bad))
              (set_sock i (mkSock (so_open k) (so_send k) (so_recv k) (tl (so_close k))) w) in
  if bad then (Throw SystemError "close", w') else (Ret tt, w').

(** send(const_buffer), :81. *)
Definition sock_send (i : which) (bs : list byte) : M N := fun w =>
  let k := get_sock i w in
  let r := match so_send k with x :: _ => x | [] => TxAll end in
  let w1 := set_sock i (mkSock (so_open k) (tl (so_send k)) (so_recv k) (so_close k)) w in
  match r with
  | TxAll => (Ret (len bs), emit (ESend i bs (Some (len bs))) w1)
  | TxSome n => (Ret (N.min n (len bs)), emit (ESend i bs (Some (N.min n (len bs)))) w1)
  | TxFail => (Throw SystemError "send", emit (ESend i bs None) w1)
  end.

(** send(const Serializable&), :88-94: a zero-filled vector of getLength() bytes,
    freed on return and on unwinding. *)
Definition sock_send_ser (i : which) (s : ser) : M N :=
  let* n := mout (s_length s) in
  let* b := mheap (fun m => let (b, m') := alloc m (zeros n) in (Ret b, m')) in
  mfinally
    (do* mheap (fun m => match s_serialize s m (WBuf (mkV b 0 n) 0) with (o, m', _) => (o, m') end) in
     let* bs := mheap (fun m => (load m b 0 n, m)) in
     sock_send i bs)
    (m_free b).

(** receive(mutable_buffer), :101: delivers at most the size of the buffer. *)
Definition sock_recv (i : which) (dst : view) : M N := fun w =>
  let k := get_sock i w in
  match so_recv k with
  | [] => (Stuck, w)
  | r :: rs =>
      let w1 := set_sock i (mkSock (so_open k) (so_send k) rs (so_close k)) w in
      match r with
      | RxFail => (Throw SystemError "receive", emit (ERecv i None) w1)
      | RxData bs =>
          let got := take (v_len dst) bs in
          match store (w_mem w1) (v_blk dst) (v_off dst) got with
          | Ret m => (Ret (len got), emit (ERecv i (Some got)) (set_mem m w1))
          | Throw c s => (Throw c s, w1) | Undef u => (Undef u, w1) | Stuck => (Stuck, w1)
          end
      end
  end.

(** ** Session (session.h, src/session.cpp).  Log calls are not modelled. *)

(** recv_buffer_, session.h:212. *)
Definition recv_view (w : world) : view := mkV (w_rbuf w) 0 4096.

(** EIP_CMD_T, eip_types.h:59-71. *)
Definition EIP_CMD_LIST_IDENTITY := 0x0063.
Definition EIP_CMD_REGISTER_SESSION := 0x0065.
Definition EIP_CMD_UNREGISTER_SESSION := 0x0066.
Definition EIP_CMD_SEND_RR_DATA := 0x006F.

(** Session::Session, src/session.cpp:51-63: [sn0], [cid0] are the pseudo-random
    starting points; recv_buffer_ is a new block (zero here, indeterminate in C++). *)
Definition session_make (m : heap) (ctl io : sock) (vendor serial sn0 cid0 : N) : world :=
  let (b, m') := alloc m (zeros 4096) in
  mkW m' ctl io [] (mkSess 0 (u16 vendor) (u32 serial) (u16 sn0) (u32 cid0) []) b.

(** Decode a local object on a BufferReader; the object and the byte count. *)
Definition m_decode {T} (x : D T unit) (v : view) (t : T) : M (T * N) := fun w =>
  match x (w_mem w) (RBuf v 0) t with
  | (Ret _, m, RBuf _ c, t') => (Ret (t', c), set_mem m w)
  | (Ret _, m, RStr _ p _, t') => (Ret (t', p), set_mem m w)
  | (Throw e s, m, _, _) => (Throw e s, set_mem m w)
  | (Undef u, m, _, _) => (Undef u, set_mem m w)
  | (Stuck, m, _, _) => (Stuck, set_mem m w)
  end.

(** check_packet, src/session.cpp:188-221 (the three warnings at :208-220 have no
    other effect). *)
Definition check_packet (p : encap_packet) (exp_cmd : N) : M unit := fun w =>
  let h := ep_header p in
  let id := se_id (w_se w) in
  if negb (h_command h =? exp_cmd) then (Throw LogicError "Reply received with wrong command", w)
  else if (id =? 0) && (h_session h =? 0) then (Throw LogicError "Zero session handle received on registration", w)
  else if negb (id =? 0) && negb (h_session h =? id) then (Throw LogicError "Wrong session ID received for command", w)
  else (Ret tt, w).

(** sendCommand, src/session.cpp:166-186, in its three phases: send (:169),
    receive (:172) and parse/check (:175-184). *)
Definition sc_send (req : encap_packet) : M N := sock_send_ser Ctl (ep_ser req).
Definition sc_recv : M N := fun w => sock_recv Ctl (recv_view w) w.
Definition sc_parse (req : encap_packet) (n : N) : M encap_packet := fun w =>
  (let* r := m_decode ep_deserialize (view_take (recv_view w) n) (ep_make0 0 0) in
   do* check_packet (fst r) (h_command (ep_header req)) in
   mret (fst r)) w.
Definition sendCommand (req : encap_packet) : M encap_packet :=
  do* sc_send req in
  let* n := sc_recv in
  sc_parse req n.

(** Copy a payload into an object: copy_serializable on the world's memory. *)
Definition m_copy {U} (c : cls U) (p : option ser) (t : U) : world -> outcome unit * U * world := fun w =>
  match p with
  | None => (Undef NullDeref, t, w)
  | Some s => match copy_serializable c s (w_mem w) t with (o, m, t') => (o, t', set_mem m w) end
  end.
Definition m_copy_local {U} (c : cls U) (p : option ser) (t : U) : M U := fun w =>
  match m_copy c p t w with
  | (Ret _, t', w') => (Ret t', w')
  | (Throw e s, _, w') => (Throw e s, w')
  | (Undef u, _, w') => (Undef u, w')
  | (Stuck, _, w') => (Stuck, w')
  end.

Definition close_both : M unit := do* sock_close Ctl in sock_close Io.

(** open, src/session.cpp:80-148. *)
Definition session_open (host port io_port : string) : M unit :=
  do* sock_open Ctl host port in
  do* sock_open Io host io_port in
  let* reg_msg := mout (ep_make EIP_CMD_REGISTER_SESSION 0 (Some (rg_ser rg_make))) in
  let* response :=
    mcatch (sendCommand reg_msg)
      (do* close_both in mthrow RuntimeError "Invalid response received registering session")
      (do* close_both in mthrow RuntimeError "Error in registration response") in
  let* reg :=
    mcatch (let* g := m_copy_local rg_cls (ep_payload response) rg_make in mret (Some g))
      (mret None) (mret None) in
  do* (match reg with
       | Some g =>
           if negb (rg_version g =? EIP_PROTOCOL_VERSION)
           then do* close_both in
                mthrow RuntimeError "Received wrong Ethernet IP Protocol Version on registration"
           else mret tt
       | None => mret tt
       end) in
  mupd_se (set_id (h_session (ep_header response))).

(** close, src/session.cpp:150-164. *)
Definition session_close : M unit :=
  let* w := mget in
  do* sock_send_ser Ctl (ep_ser (ep_make0 EIP_CMD_UNREGISTER_SESSION (se_id (w_se w)))) in
  do* close_both in
  mupd_se (set_id 0).

(** ~Session, src/session.cpp:65-78. *)
Definition session_destroy : M unit := fun w =>
  if negb (se_id (w_se w) =? 0) then
    match session_close w with
    | (Throw _ _, w') => (Ret tt, w')
    | r => r
    end
  else (Ret tt, w).

(** sendRRDataCommand, src/session.cpp:240-294. *)
Definition sendRRDataCommand (service : N) (p : path) (d : option ser) : M (rr_data mr_response) :=
  let* w := mget in
  let* pkt := mout (ep_make EIP_CMD_SEND_RR_DATA (se_id (w_se w)) (Some (rrq_ser (rrq_make service p d)))) in
  let* response :=
    mcatch (sendCommand pkt)
      (mthrow RuntimeError "Packet response to RR Data Command too short")
      (mthrow RuntimeError "Invalid packet response to RR Data Command") in
  let* resp :=
    mcatch (m_copy_local rrs_cls (ep_payload response) rrs_make)
      (mthrow RuntimeError "Response data to RR Command too short")
      (mthrow RuntimeError "Invalid data in response to RR command") in
  (* :282-287 a wrong service code only produces a warning *)
  if negb (ms_status (rr_ext resp) =? 0) then mthrow RuntimeError "RR Data Command Failed"
  else mret resp.

(** getSingleAttributeSerializable, src/session.cpp:223-231: the destination object
    is returned whatever the outcome. *)
Definition getSingleAttributeSerializable {T} (c : cls T) (class_id inst attr : N) (t : T)
  : world -> outcome unit * T * world := fun w =>
  match sendRRDataCommand 0x0E (path_cia class_id inst attr false) None w with
  | (Ret resp, w') => m_copy c (ms_data (rr_ext resp)) t w'
  | (Throw e s, w') => (Throw e s, t, w')
  | (Undef u, w') => (Undef u, t, w')
  | (Stuck, w') => (Stuck, t, w')
  end.

(** getSingleAttribute<T>, session.h:116-122, for a k-byte unsigned T; [junk] is the
    uninitialised member of the local SerializablePrimitive. *)
Definition getSingleAttribute (k : nat) (junk : N) (class_id inst attr : N) : M N := fun w =>
  match getSingleAttributeSerializable (prim_cls k) class_id inst attr junk w with
  | (Ret _, v, w') => (Ret v, w')
  | (Throw e s, _, w') => (Throw e s, w')
  | (Undef u, _, w') => (Undef u, w')
  | (Stuck, _, w') => (Stuck, w')
  end.

(** setSingleAttributeSerializable, src/session.cpp:233-238. *)
Definition setSingleAttributeSerializable (class_id inst attr : N) (d : option ser) : M unit :=
  do* sendRRDataCommand 0x10 (path_cia class_id inst attr false) d in mret tt.
(** setSingleAttribute<T>, session.h:141-148. *)
Definition setSingleAttribute (k : nat) (class_id inst attr v : N) : M unit :=
  setSingleAttributeSerializable class_id inst attr (Some (prim_ser k v)).

(** Uninitialised locals [ForwardOpenSuccess result] and [ForwardCloseSuccess result],
    src/session.cpp:308,324: every member is read before use. *)
Definition fs_make : fo_success := mkFOS 0 0 0 0 0 0 0 None.
Definition cs_make : fc_success := mkFCS 0 0 0 None.

(** createConnection, src/session.cpp:296-318. *)
Definition createConnection (o t : conn_info) : M N :=
  let* w := mget in
  let s := w_se w in
  let conn := cn_make (se_vendor s) (se_serial s) (se_next_sn s)
                      (se_next_id s) (u32 (se_next_id s + 1)) o t in
  do* mupd_se (set_counters (u16 (se_next_sn s + 1)) (u32 (se_next_id s + 2))) in
  let* resp := sendRRDataCommand 0x5B (path_ci 0x06 1) (Some (fo_ser (cn_open_request conn))) in
  let* result := m_copy_local fs_cls (ms_data (rr_ext resp)) fs_make in
  match cn_verify_open conn result with
  | None => mthrow LogicError "Forward Open Response Invalid"
  | Some conn' =>
      do* mupd_se (fun s => set_conns (se_conns s ++ [conn']) s) in
      let* w' := mget in
      mret (len (se_conns (w_se w')) - 1)
  end.

(** vector::erase(begin() + n). *)
Fixpoint list_remove {A} (n : nat) (l : list A) : list A :=
  match l, n with
  | [], _ => []
  | _ :: l', O => l'
  | x :: l', S n' => x :: list_remove n' l'
  end.

(** getConnection, session.h:187-190; operator[] in src/session.cpp:322,326. *)
Definition getConnection (n : N) : M connection := fun w =>
  match nth_error (se_conns (w_se w)) (N.to_nat n) with
  | Some c => (Ret c, w)
  | None => (Undef VecOutOfBounds, w)
  end.

(** closeConnection, src/session.cpp:320-333. *)
Definition closeConnection (n : N) : M unit :=
  let* c := getConnection n in
  let* resp := sendRRDataCommand 0x4E (path_ci 0x06 1) (Some (fc_ser (cn_close_request c))) in
  let* result := m_copy_local cs_cls (ms_data (rr_ext resp)) cs_make in
  let* c' := getConnection n in
  if negb (cn_verify_close c' result) then mthrow LogicError "Forward Close Response Invalid"
  else mupd_se (fun s => set_conns (list_remove (N.to_nat n) (se_conns s)) s).

(** receiveIOPacket, src/session.cpp:335-351. *)
Definition receiveIOPacket : M cpf_packet := fun w =>
  (let* n := sock_recv Io (recv_view w) in
   let* r := m_decode cpf_deserialize (view_take (recv_view w) n) [] in
   mret (fst r)) w.

(** sendIOPacket, src/session.cpp:353-357. *)
Definition sendIOPacket (p : cpf_packet) : M unit :=
  do* sock_send_ser Io (cpf_ser p) in mret tt.

(** ** Histories: any sequence of API calls on one session *)
Inductive op :=
| OpOpen (host port io_port : string)
| OpClose
| OpGet (T : Type) (c : cls T) (t : T) (class_id inst attr : N)
| OpSet (class_id inst attr : N) (d : option ser)
| OpCreate (o t : conn_info)
| OpCloseConnection (n : N)
| OpReceiveIO
| OpSendIO (p : cpf_packet).

Inductive result := RUnit | RNumber (n : N) | RItems (p : cpf_packet).

Definition step (o : op) : M result :=
  match o with
  | OpOpen h p q => do* session_open h p q in mret RUnit
  | OpClose => do* session_close in mret RUnit
  | OpGet _ c t x y z => fun w =>
      match getSingleAttributeSerializable c x y z t w with
      | (Ret _, _, w') => (Ret RUnit, w')
      | (Throw e s, _, w') => (Throw e s, w')
      | (Undef u, _, w') => (Undef u, w')
      | (Stuck, _, w') => (Stuck, w')
      end
  | OpSet x y z d => do* setSingleAttributeSerializable x y z d in mret RUnit
  | OpCreate a b => let* n := createConnection a b in mret (RNumber n)
  | OpCloseConnection n => do* closeConnection n in mret RUnit
  | OpReceiveIO => let* p := receiveIOPacket in mret (RItems p)
  | OpSendIO p => do* sendIOPacket p in mret RUnit
  end.

(** A caller that catches every exception and goes on. *)
Fixpoint exec (ops : list op) (w : world) : list (outcome result) * world :=
  match ops with
  | [] => ([], w)
  | o :: ops' =>
      match step o w with
      | (Ret r, w') => let (rs, w'') := exec ops' w' in (Ret r :: rs, w'')
      | (Throw c s, w') => let (rs, w'') := exec ops' w' in (Throw c s :: rs, w'')
      | (x, w') => ([x], w')
      end
  end.
