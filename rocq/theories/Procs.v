(** * Procs: calls as sequences of atomic steps, and any number of threads.

    A program is what a thread still has to do: a result, or one atomic step on the
    session and a continuation.  The programs below follow src/session.cpp statement by
    statement; [run] of a program is the call of Session.v ([run_op] in PProcs.v), so they
    add only where a thread can be interrupted: between any two socket calls, decodings,
    and reads or writes of members.  A step itself is atomic. *)
From Verif Require Export Objects.

Inductive prog (A : Type) : Type :=
| PEnd (o : outcome A)
| PDo (B : Type) (x : M B) (k : outcome B -> prog A).
Arguments PEnd {A} o.
Arguments PDo {A B} x k.

Fixpoint run {A} (p : prog A) (w : world) : outcome A * world :=
  match p with
  | PEnd o => (o, w)
  | PDo x k => let (o, w') := x w in run (k o) w'
  end.

Definition step1 {A} (x : M A) : prog A := PDo x PEnd.
Fixpoint pbind {A B} (p : prog A) (f : A -> prog B) : prog B :=
  match p with
  | PEnd (Ret a) => f a
  | PEnd (Throw c s) => PEnd (Throw c s)
  | PEnd (Undef u) => PEnd (Undef u)
  | PEnd Stuck => PEnd Stuck
  | PDo x k => PDo x (fun o => pbind (k o) f)
  end.
Fixpoint pcatch {A} (p h1 h2 : prog A) : prog A :=
  match p with
  | PEnd (Throw c s) => if is_a c LengthError then h1 else if is_a c LogicError then h2 else PEnd (Throw c s)
  | PEnd o => PEnd o
  | PDo x k => PDo x (fun o => pcatch (k o) h1 h2)
  end.
Notation "'let%' x := c 'in' k" := (pbind c (fun x => k)) (at level 200, x name, c at level 100, k at level 200).
Notation "'do%' c 'in' k" := (pbind c (fun _ => k)) (at level 200, c at level 100, k at level 200).
Definition pret {A} (a : A) : prog A := PEnd (Ret a).
Definition pthrow {A} (c : exn_class) (s : string) : prog A := PEnd (Throw c s).
Arguments pthrow {A} c s%string.

(** Reading the members of the session. *)
Definition read_se : M session := fun w => (Ret (w_se w), w).
(** sendCommand, src/session.cpp:166-186: send, receive, decode, check. *)
Definition decode_reply (n : N) : M encap_packet := fun w =>
  (let* r := m_decode ep_deserialize (view_take (recv_view w) n) (ep_make0 0 0) in mret (fst r)) w.
Definition sendCommand_p (req : encap_packet) : prog encap_packet :=
  do% step1 (sc_send req) in
  let% n := step1 sc_recv in
  let% r := step1 (decode_reply n) in
  do% step1 (check_packet r (h_command (ep_header req))) in
  pret r.
Definition close_both_p : prog unit := do% step1 (sock_close Ctl) in step1 (sock_close Io).
(** open, src/session.cpp:80-148. *)
Definition session_open_p (host port io_port : string) : prog unit :=
  do% step1 (sock_open Ctl host port) in
  do% step1 (sock_open Io host io_port) in
  let% reg_msg := PEnd (ep_make EIP_CMD_REGISTER_SESSION 0 (Some (rg_ser rg_make))) in
  let% response :=
    pcatch (sendCommand_p reg_msg)
      (do% close_both_p in pthrow RuntimeError "Invalid response received registering session")
      (do% close_both_p in pthrow RuntimeError "Error in registration response") in
  let% reg :=
    pcatch (let% g := step1 (m_copy_local rg_cls (ep_payload response) rg_make) in pret (Some g))
      (pret None) (pret None) in
  do% (match reg with
       | Some g =>
           if negb (rg_version g =? EIP_PROTOCOL_VERSION)
           then do% close_both_p in
                pthrow RuntimeError "Received wrong Ethernet IP Protocol Version on registration"
           else pret tt
       | None => pret tt
       end) in
  step1 (mupd_se (set_id (h_session (ep_header response)))).
(** close, src/session.cpp:150-164. *)
Definition session_close_p : prog unit :=
  let% s := step1 read_se in
  do% step1 (sock_send_ser Ctl (ep_ser (ep_make0 EIP_CMD_UNREGISTER_SESSION (se_id s)))) in
  do% close_both_p in
  step1 (mupd_se (set_id 0)).
(** sendRRDataCommand, src/session.cpp:240-294. *)
Definition sendRR_p (service : N) (p : path) (d : option ser) : prog (rr_data mr_response) :=
  let% s := step1 read_se in
  let% pkt := PEnd (ep_make EIP_CMD_SEND_RR_DATA (se_id s) (Some (rrq_ser (rrq_make service p d)))) in
  let% response :=
    pcatch (sendCommand_p pkt)
      (pthrow RuntimeError "Packet response to RR Data Command too short")
      (pthrow RuntimeError "Invalid packet response to RR Data Command") in
  let% resp :=
    pcatch (step1 (m_copy_local rrs_cls (ep_payload response) rrs_make))
      (pthrow RuntimeError "Response data to RR Command too short")
      (pthrow RuntimeError "Invalid data in response to RR command") in
  if negb (ms_status (rr_ext resp) =? 0) then pthrow RuntimeError "RR Data Command Failed"
  else pret resp.
(** getSingleAttributeSerializable, src/session.cpp:223-231; the value is the object read. *)
Definition get_p {T} (c : cls T) (t : T) (class_id inst attr : N) : prog T :=
  let% resp := sendRR_p 0x0E (path_cia class_id inst attr false) None in
  step1 (m_copy_local c (ms_data (rr_ext resp)) t).
(** setSingleAttributeSerializable, src/session.cpp:233-238. *)
Definition set_p (class_id inst attr : N) (d : option ser) : prog unit :=
  do% sendRR_p 0x10 (path_cia class_id inst attr false) d in pret tt.
(** [next_connection_sn_++], [next_connection_id_++] (src/session.cpp:302-304): a read, then
    a write of what was read plus one. *)
Definition next_sn_p : prog N :=
  let% s := step1 read_se in
  do% step1 (mupd_se (fun s' => set_counters (u16 (se_next_sn s + 1)) (se_next_id s') s')) in
  pret (se_next_sn s).
Definition next_id_p : prog N :=
  let% s := step1 read_se in
  do% step1 (mupd_se (fun s' => set_counters (se_next_sn s') (u32 (se_next_id s + 1)) s')) in
  pret (se_next_id s).
(** createConnection, src/session.cpp:296-318. *)
Definition create_p (o t : conn_info) : prog N :=
  let% s := step1 read_se in
  let% sn := next_sn_p in
  let% i := next_id_p in
  let% j := next_id_p in
  let conn := cn_make (se_vendor s) (se_serial s) sn i j o t in
  let% resp := sendRR_p 0x5B (path_ci 0x06 1) (Some (fo_ser (cn_open_request conn))) in
  let% result := step1 (m_copy_local fs_cls (ms_data (rr_ext resp)) fs_make) in
  match cn_verify_open conn result with
  | None => pthrow LogicError "Forward Open Response Invalid"
  | Some conn' =>
      do% step1 (mupd_se (fun s => set_conns (se_conns s ++ [conn']) s)) in
      let% s' := step1 read_se in
      pret (len (se_conns s') - 1)
  end.
(** closeConnection, src/session.cpp:320-333. *)
Definition drop_p (n : N) : prog unit :=
  let% c := step1 (getConnection n) in
  let% resp := sendRR_p 0x4E (path_ci 0x06 1) (Some (fc_ser (cn_close_request c))) in
  let% result := step1 (m_copy_local cs_cls (ms_data (rr_ext resp)) cs_make) in
  let% c' := step1 (getConnection n) in
  if negb (cn_verify_close c' result) then pthrow LogicError "Forward Close Response Invalid"
  else step1 (mupd_se (fun s => set_conns (list_remove (N.to_nat n) (se_conns s)) s)).
(** receiveIOPacket, src/session.cpp:335-351: receive, decode. *)
Definition recv_io : M N := fun w => sock_recv Io (recv_view w) w.
Definition decode_io (n : N) : M cpf_packet := fun w =>
  (let* r := m_decode cpf_deserialize (view_take (recv_view w) n) [] in mret (fst r)) w.
Definition receive_p : prog cpf_packet := let% n := step1 recv_io in step1 (decode_io n).
(** sendIOPacket, src/session.cpp:353-357. *)
Definition send_p (p : cpf_packet) : prog unit := do% step1 (sock_send_ser Io (cpf_ser p)) in pret tt.

Definition op_p (o : op) : prog result :=
  match o with
  | OpOpen h p q => do% session_open_p h p q in pret RUnit
  | OpClose => do% session_close_p in pret RUnit
  | OpGet _ c t x y z => do% get_p c t x y z in pret RUnit
  | OpSet x y z d => do% set_p x y z d in pret RUnit
  | OpCreate a b => let% n := create_p a b in pret (RNumber n)
  | OpCloseConnection n => do% drop_p n in pret RUnit
  | OpReceiveIO => let% p := receive_p in pret (RItems p)
  | OpSendIO p => do% send_p p in pret RUnit
  end.
(** A caller that catches every exception and goes on ([exec] of Session.v). *)
Fixpoint pall {A} (p : prog A) (f : outcome A -> prog (list (outcome A))) : prog (list (outcome A)) :=
  match p with
  | PEnd o => f o
  | PDo x k => PDo x (fun o => pall (k o) f)
  end.
Fixpoint exec_p (ops : list op) : prog (list (outcome result)) :=
  match ops with
  | [] => pret []
  | o :: ops' => pall (op_p o) (fun r =>
      match r with
      | Ret _ | Throw _ _ => let% rs := exec_p ops' in pret (r :: rs)
      | _ => pret [r]
      end)
  end.

(** ** Threads *)
(** A thread works on one object. *)
Record thread (A : Type) := mkTh { th_obj : nat; th_prog : prog A }.
Arguments mkTh {A} _ _.
Arguments th_obj {A} _.
Arguments th_prog {A} _.
(** One atomic step of it. *)
Definition turn {A} (t : thread A) (s : pool) : thread A * pool :=
  match th_prog t with
  | PEnd _ => (t, s)
  | PDo x k => let (o, s') := on (th_obj t) x s in (mkTh (th_obj t) (k o), s')
  end.
(** A schedule names the thread that runs next. *)
Fixpoint rounds {A} (sched : list nat) (ts : list (thread A)) (s : pool) : list (thread A) * pool :=
  match sched with
  | [] => (ts, s)
  | j :: sched' =>
      match nth_error ts j with
      | Some t => let (t', s') := turn t s in rounds sched' (list_set ts j t') s'
      | None => rounds sched' ts s
      end
  end.
