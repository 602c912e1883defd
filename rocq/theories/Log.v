(** * Log: the log calls of src/session.cpp, src/connection.cpp, src/rr_data.cpp and
    src/io_scanner.cpp.
    Session.v and Scanner.v leave the log calls out. Here the functions that contain log
    calls are written again with them; PLog.v proves that without the calls they are the
    functions of Session.v and Scanner.v. *)
From Verif Require Export Scanner.
Local Open Scope N_scope.

(** Arguments of a log call, by the type that is passed: EIP_USINT, EIP_UINT (eip_types.h:36-39),
    enumerators and constants, promoted to [int] and never negative ([ASmall]); [int]
    after a cast ([AInt], the bit pattern); EIP_UDINT and EIP_DWORD, [unsigned int]
    (:41-42); [size_t]; [const char*] (a text of the program or bytes received). *)
Inductive larg := ASmall (n : N) | AInt (n : N) | AU32 (n : N) | ASize (n : N) | AStr (s : string) | AText (bs : list byte).
(** CONSOLE_BRIDGE_logDebug, logInform, logWarn, logError; [Out] is printf. *)
Inductive level := Debug | Inform | Warn | Error | Out.
Record logc := mkLog { lg_level : level; lg_fmt : string; lg_args : list larg }.
Arguments mkLog _ _%string _.

(** Actions that log; [S] is the world of a session, or the memory and reader of a decode. *)
Definition L (S A : Type) := S -> outcome A * S * list logc.
Definition lret {S A} (a : A) : L S A := fun s => (Ret a, s, []).
Definition lift {S A} (x : S -> outcome A * S) : L S A := fun s => let (o, s') := x s in (o, s', []).
Definition says {S} (l : S -> list logc) : L S unit := fun s => (Ret tt, s, l s).
Definition say {S} (v : level) (f : string) (l : list larg) : L S unit := says (fun _ => [mkLog v f l]).
Arguments say {S} _ _%string _.
Definition say_if {S} (b : bool) (v : level) (f : string) (l : list larg) : L S unit := says (fun _ => if b then [mkLog v f l] else []).
Arguments say_if {S} _ _ _%string _.
Definition lthrow {S A} (c : exn_class) (t : string) : L S A := fun s => (Throw c t, s, []).
Arguments lthrow {S A} _ _%string.
Definition lbind {S A B} (x : L S A) (f : A -> L S B) : L S B := fun s =>
  match x s with
  | (Ret a, s', l) => match f a s' with (o, s'', l') => (o, s'', l ++ l') end
  | (Throw c t, s', l) => (Throw c t, s', l)
  | (Undef u, s', l) => (Undef u, s', l)
  | (Stuck, s', l) => (Stuck, s', l)
  end.
Notation "'let!' x := c 'in' k" := (lbind c (fun x => k)) (at level 200, x name, c at level 100, k at level 200).
Notation "'do!' c 'in' k" := (lbind c (fun _ => k)) (at level 200, c at level 100, k at level 200).
(** The handlers get what(). *)
Definition lcatch {S A} (x : L S A) (h1 h2 : string -> L S A) : L S A := fun s =>
  match x s with
  | (Throw c t, s', l) =>
      if is_a c LengthError then match h1 t s' with (o, s'', l') => (o, s'', l ++ l') end
      else if is_a c LogicError then match h2 t s' with (o, s'', l') => (o, s'', l ++ l') end
      else (Throw c t, s', l)
  | r => r
  end.

(** ** Session *)
(** The constructor's, src/session.cpp:62. *)
Definition session_make_log (id sn : N) : list logc :=
  [mkLog Inform "Generated starting connection ID %zu and SN %zu" [AU32 id; ASmall sn]].

(** check_packet, src/session.cpp:188-221. *)
Definition l_check_packet (p : encap_packet) (exp_cmd : N) : L world unit := fun w =>
  let h := ep_header p in
  let id := se_id (w_se w) in
  (if negb (h_command h =? exp_cmd) then
     do! say Error "Reply received with wrong command. Expected %u received %u" [ASmall exp_cmd; ASmall (h_command h)] in
     lthrow LogicError "Reply received with wrong command"
   else if (id =? 0) && (h_session h =? 0) then
     do! say Error "Zero session handle received on registration: %zu" [AU32 (h_session h)] in
     lthrow LogicError "Zero session handle received on registration"
   else if negb (id =? 0) && negb (h_session h =? id) then
     do! say Error "Reply received with wrong session ID. Expected %zu, received %zu" [AU32 id; AU32 (h_session h)] in
     lthrow LogicError "Wrong session ID received for command"
   else
     do! say_if (negb (h_status h =? 0)) Warn "Non-zero status received: %zu" [AU32 (h_status h)] in
     do! say_if (negb (h_ctx0 h =? 0) || negb (h_ctx1 h =? 0)) Warn "Non-zero sender context received: %zu/%zu" [AU32 (h_ctx0 h); AU32 (h_ctx1 h)] in
     say_if (negb (h_options h =? 0)) Warn "Non-zero options received: %zu" [AU32 (h_options h)]) w.

(** sendCommand, src/session.cpp:166-186. *)
Definition l_sendCommand (req : encap_packet) : L world encap_packet :=
  do! say Debug "Sending Command" [] in
  do! lift (sc_send req) in
  do! say Debug "Waiting for response" [] in
  let! n := lift sc_recv in
  do! say Debug "Received response of %zu bytes" [ASize n] in
  let! r := lift (fun w => m_decode ep_deserialize (view_take (recv_view w) n) (ep_make0 0 0) w) in
  do! say_if (negb (snd r =? n)) Warn "Packet received with %zu bytes, but only %zu bytes used" [ASize n; ASize (snd r)] in
  do! l_check_packet (fst r) (h_command (ep_header req)) in
  lret (fst r).

(** open, src/session.cpp:80-148. *)
Definition l_open (host port io_port : string) : L world unit :=
  do! say Inform "Resolving hostname and connecting socket" [] in
  do! lift (sock_open Ctl host port) in
  do! lift (sock_open Io host io_port) in
  do! say Inform "Creating and sending the registration message" [] in
  let! reg_msg := lift (mout (ep_make EIP_CMD_REGISTER_SESSION 0 (Some (rg_ser rg_make)))) in
  let! response :=
    lcatch (l_sendCommand reg_msg)
      (fun t => do! lift close_both in
                do! say Error "Could not parse response when registering session: %s" [AStr t] in
                lthrow RuntimeError "Invalid response received registering session")
      (fun t => do! lift close_both in
                do! say Error "Error in registration response: %s" [AStr t] in
                lthrow RuntimeError "Error in registration response") in
  do! say_if (negb (h_length (ep_header response) =? rg_getLength)) Warn
        "Registration message received with wrong size. Expected %zu bytes, received %u" [ASize rg_getLength; ASmall (h_length (ep_header response))] in
  let! reg :=
    lcatch (let! g := lift (m_copy_local rg_cls (ep_payload response) rg_make) in lret (Some g))
      (fun _ => do! say Warn "Registration message too short, ignoring" [] in lret None)
      (fun t => do! say Warn "Could not parse registration response: %s" [AStr t] in lret None) in
  do! (match reg with
       | Some g =>
           if negb (rg_version g =? EIP_PROTOCOL_VERSION)
           then do! say Error "Error: Wrong Ethernet Industrial Protocol Version. Expected %u got %u" [ASmall EIP_PROTOCOL_VERSION; ASmall (rg_version g)] in
                do! lift close_both in
                lthrow RuntimeError "Received wrong Ethernet IP Protocol Version on registration"
           else say_if (negb (rg_options g =? 0)) Warn "Registration message included non-zero options flags: %u" [ASmall (rg_options g)]
       | None => lret tt
       end) in
  do! lift (mupd_se (set_id (h_session (ep_header response)))) in
  say Inform "Successfully opened session ID %zu" [AU32 (h_session (ep_header response))].

(** close, src/session.cpp:150-164. *)
Definition l_close : L world unit :=
  do! say Inform "Closing session" [] in
  let! w := lift mget in
  do! lift (sock_send_ser Ctl (ep_ser (ep_make0 EIP_CMD_UNREGISTER_SESSION (se_id (w_se w))))) in
  do! say Inform "Session closed" [] in
  do! lift close_both in
  lift (mupd_se (set_id 0)).

(** The items RRData::deserialize has decoded at src/rr_data.cpp:62, if it gets there. *)
Definition rr_head : D cpf_packet unit := fun m r _ =>
  match (rd_uint 4 rr_iface rr_set_iface ;;; rd_uint 2 rr_timeout rr_set_timeout ;;; dlocal [] cpf_deserialize) m r (mkRR 0 0 tt) with
  | (Ret p, m', r', _) => (Ret tt, m', r', p)
  | (Throw c s, m', r', _) => (Throw c s, m', r', [])
  | (Undef u, m', r', _) => (Undef u, m', r', [])
  | (Stuck, m', r', _) => (Stuck, m', r', [])
  end.
Definition rr_head_cls : cls cpf_packet := mkCls (DLVirtual no_check) rr_head None.
(** src/rr_data.cpp:62-65. *)
Definition rr_log (p : option ser) (w : world) : list logc :=
  match m_copy rr_head_cls p [] w with
  | (Ret _, pkt, _) => if 2 <? cpf_getItemCount pkt then [mkLog Warn "More than 2 items in RR data response" []] else []
  | _ => []
  end.

(** sendRRDataCommand, src/session.cpp:240-294. *)
Definition l_sendRRDataCommand (service : N) (p : path) (d : option ser) : L world (rr_data mr_response) :=
  do! say Debug "Creating RR Data Request" [] in
  let! w := lift mget in
  let! pkt := lift (mout (ep_make EIP_CMD_SEND_RR_DATA (se_id (w_se w)) (Some (rrq_ser (rrq_make service p d))))) in
  let! response :=
    lcatch (l_sendCommand pkt)
      (fun t => do! say Error "Response packet to RR command too short: %s" [AStr t] in
                lthrow RuntimeError "Packet response to RR Data Command too short")
      (fun t => do! say Error "Invalid response to RR command: %s" [AStr t] in
                lthrow RuntimeError "Invalid packet response to RR Data Command") in
  do! says (rr_log (ep_payload response)) in
  let! resp :=
    lcatch (lift (m_copy_local rrs_cls (ep_payload response) rrs_make))
      (fun t => do! say Error "Response data to RR command too short: %s" [AStr t] in
                lthrow RuntimeError "Response data to RR Command too short")
      (fun t => do! say Error "Invalid data to RR command: %s" [AStr t] in
                lthrow RuntimeError "Invalid data in response to RR command") in
  do! say_if (negb (ms_service (rr_ext resp) =? N.lor (u8 service) 0x80)) Warn
        "Wrong service code returned for RR Data command. Expected: %d but received %d" [AInt (u8 service); AInt (ms_service (rr_ext resp))] in
  if negb (ms_status (rr_ext resp) =? 0) then
    do! say Error "RR Data Command failed with status %d" [AInt (ms_status (rr_ext resp))] in
    lthrow RuntimeError "RR Data Command Failed"
  else lret resp.

(** verifyForwardOpenResult, src/connection.cpp:103-126. *)
Definition verify_log (c : connection) (r : fo_success) : list logc :=
  if negb (fs_conn_sn r =? cn_sn c) || negb (fs_vendor r =? cn_vendor c) || negb (fs_orig_sn r =? cn_orig_sn c)
  then []
  else (if negb (fs_o2t_id r =? cn_o2t_id c)
        then [mkLog Inform "Replacing our o_to_t connection ID (%zu) with connection ID provided by target (%zu)" [AU32 (cn_o2t_id c); AU32 (fs_o2t_id r)]] else [])
    ++ (if negb (fs_t2o_id r =? cn_t2o_id c)
        then [mkLog Inform "Replacing our t_to_o connection ID (%zu) with connection ID provided by target (%zu)" [AU32 (cn_t2o_id c); AU32 (fs_t2o_id r)]] else []).

(** createConnection, src/session.cpp:296-318. *)
Definition l_createConnection (o t : conn_info) : L world N :=
  let! w := lift mget in
  let s := w_se w in
  let conn := cn_make (se_vendor s) (se_serial s) (se_next_sn s) (se_next_id s) (u32 (se_next_id s + 1)) o t in
  do! lift (mupd_se (set_counters (u16 (se_next_sn s + 1)) (u32 (se_next_id s + 2)))) in
  let! resp := l_sendRRDataCommand 0x5B (path_ci 0x06 1) (Some (fo_ser (cn_open_request conn))) in
  let! result := lift (m_copy_local fs_cls (ms_data (rr_ext resp)) fs_make) in
  do! says (fun _ => verify_log conn result) in
  match cn_verify_open conn result with
  | None =>
      do! say Error "Received invalid response to forward open request" [] in
      lthrow LogicError "Forward Open Response Invalid"
  | Some conn' =>
      do! lift (mupd_se (fun s => set_conns (se_conns s ++ [conn']) s)) in
      let! w' := lift mget in
      lret (len (se_conns (w_se w')) - 1)
  end.

(** closeConnection, src/session.cpp:320-333; the printf is src/connection.cpp:133. *)
Definition l_closeConnection (n : N) : L world unit :=
  let! c := lift (getConnection n) in
  let! resp := l_sendRRDataCommand 0x4E (path_ci 0x06 1) (Some (fc_ser (cn_close_request c))) in
  let! result := lift (m_copy_local cs_cls (ms_data (rr_ext resp)) cs_make) in
  let! c' := lift (getConnection n) in
  do! say Out "Connection SN: 0x%08X vs 0x%08X\n" [ASmall (cn_sn c'); ASmall (cs_conn_sn result)] in
  if negb (cn_verify_close c' result) then
    do! say Error "Received invalid response to forward close request" [] in
    lthrow LogicError "Forward Close Response Invalid"
  else lift (mupd_se (fun s => set_conns (list_remove (N.to_nat n) (se_conns s)) s)).

(** receiveIOPacket, src/session.cpp:335-351. *)
Definition l_receiveIOPacket : L world cpf_packet :=
  do! say Debug "Receiving IO packet" [] in
  let! n := lift (fun w => sock_recv Io (recv_view w) w) in
  do! say Debug "Received IO of %zu bytes" [ASize n] in
  let! r := lift (fun w => m_decode cpf_deserialize (view_take (recv_view w) n) [] w) in
  do! say_if (negb (snd r =? n)) Warn "IO packet received with %zu bytes, but only %zu bytes used" [ASize n; ASize (snd r)] in
  lret (fst r).
(** sendIOPacket, src/session.cpp:353-357. *)
Definition l_sendIOPacket (p : cpf_packet) : L world unit :=
  do! say Debug "Sending CPF Packet on IO Socket" [] in
  do! lift (sock_send_ser Io (cpf_ser p)) in lret tt.

(** The calls of [step], with what they log. *)
Definition l_step (o : op) : L world result :=
  match o with
  | OpOpen h p q => do! l_open h p q in lret RUnit
  | OpClose => do! l_close in lret RUnit
  | OpGet _ c t x y z =>
      let! resp := l_sendRRDataCommand 0x0E (path_cia x y z false) None in
      do! lift (m_copy_local c (ms_data (rr_ext resp)) t) in lret RUnit
  | OpSet x y z d => do! l_sendRRDataCommand 0x10 (path_cia x y z false) d in lret RUnit
  | OpCreate a b => let! n := l_createConnection a b in lret (RNumber n)
  | OpCloseConnection n => do! l_closeConnection n in lret RUnit
  | OpReceiveIO => let! p := l_receiveIOPacket in lret (RItems p)
  | OpSendIO p => do! l_sendIOPacket p in lret RUnit
  end.

(** ** IOScanner *)
(** A decode of a local object, as an action on the memory and the reader. *)
Definition ldec {A} (x : D unit A) : heap * reader -> outcome A * (heap * reader) := fun s =>
  match x (fst s) (snd s) tt with (o, m, r, _) => (o, (m, r)) end.
(** Decimal value of a port in network byte order at offset 2 of a sockaddr_in (ntohs). *)
Definition port_of (sa : list byte) : N := match drop 2 sa with a :: b :: _ => 256 * Byte.to_N a + Byte.to_N b | _ => 0 end.
Definition rev_of (i : identity) (k : nat) : N := match nth_error (id_revision i) k with Some b => Byte.to_N b | None => 0 end.
(** src/io_scanner.cpp:142-152. The text inet_ntoa returns is the four address bytes here. *)
Definition identity_log (i : identity) : list logc :=
  [mkLog Inform "=== Received ID Message ===" [];
   mkLog Inform "Encapsulation Protocol Version: %d" [AInt (id_version i)];
   mkLog Inform "Address: %d : %d" [AText (take 4 (drop 4 (id_sockaddr i))); ASmall (port_of (id_sockaddr i))];
   mkLog Inform "Vendor ID: %d" [AInt (id_vendor i)];
   mkLog Inform "Device Type: %d" [AInt (id_device i)];
   mkLog Inform "Product Code: %d" [AInt (id_product i)];
   mkLog Inform "Revision: %d.%d" [AInt (rev_of i 0); AInt (rev_of i 1)];
   mkLog Inform "Status: %d" [AInt (id_status i)];
   mkLog Inform "Serial Number: %d" [AInt (id_serial i)];
   mkLog Inform "Product Name: %s" [AText (id_name i)];
   mkLog Inform "State: %d" [AInt (id_state i)]].
(** handleListIdentityResponse, src/io_scanner.cpp:85-152. *)
Definition l_scan_body (n : N) : L (heap * reader) scan_result :=
  let! pkt := lift (ldec (dlocal (ep_make0 0 0) ep_deserialize)) in
  let h := ep_header pkt in
  do! says (fun s => match snd s with
                     | RBuf _ c => if negb (c =? n) then [mkLog Warn "Packet received with %zu bytes, but only %zu bytes used" [ASize n; ASize c]] else []
                     | RStr _ _ _ => []
                     end) in
  if negb (h_command h =? EIP_CMD_LIST_IDENTITY) then
    do! say Error "Reply received with wrong command. Expected %u, received %u" [ASmall EIP_CMD_LIST_IDENTITY; ASmall (h_command h)] in
    lret (ScanWrongCommand (h_command h))
  else
    do! say_if (negb (h_session h =? 0)) Warn "Non-zero session handle received: %zu" [AU32 (h_session h)] in
    do! say_if (negb (h_status h =? 0)) Warn "Non-zero status received: %zu" [AU32 (h_status h)] in
    do! say_if (negb (h_ctx0 h =? 0) || negb (h_ctx1 h =? 0)) Warn "Non-zero sender context received: %zu, %zu" [AU32 (h_ctx0 h); AU32 (h_ctx1 h)] in
    do! say_if (negb (h_options h =? 0)) Warn "Non-zero options received: %zu" [AU32 (h_options h)] in
    let! payload := lift (ldec (dlocal [] (ep_getPayloadAs cpf_cls pkt))) in
    if cpf_getItemCount payload <? 1 then
      do! say Error "No items in list identity payload!" [] in lret ScanNoItems
    else
      do! say_if (1 <? cpf_getItemCount payload) Warn "More than one item in list identity payload %u" [ASmall (cpf_getItemCount payload)] in
      let! i0 := lift (ldec (d_at payload 0)) in
      if negb (it_type i0 =? EIP_ITEM_LIST_IDENTITY_RESPONSE) then
        do! say Error "Error: Payload response received with the wrong item type. Expected: %zu, received %zu" [ASmall EIP_ITEM_LIST_IDENTITY_RESPONSE; ASmall (it_type i0)] in
        lret (ScanWrongItem (it_type i0))
      else
        let! i := lift (ldec (dlocal id_make (it_getDataAs id_cls i0))) in
        do! says (fun _ => identity_log i) in
        lret (ScanIdentity i).
(** :76-83, :154-157. *)
Definition l_scan_handle (ec : bool) (n : N) (b : nat) (m : heap) : outcome scan_result * heap * list logc :=
  if ec then (Ret ScanReceiveError, m, [mkLog Error "Error receiving list identity response message" []])
  else match l_scan_body n (m, RBuf (view_take (mkV b 0 4096) n) 0) with
       | (Throw c s, s', l) =>
           if is_a c LengthError then (Ret ScanTooShort, fst s', l ++ [mkLog Out "ERROR: Packet too short for identity response\n" []])
           else (Throw c s, fst s', l)
       | (o, s', l) => (o, fst s', l)
       end.
