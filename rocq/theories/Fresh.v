(** * Fresh: the session and the scanner with memory that nothing was written to.

    The C++ program leaves some memory uninitialised: the receive buffers (session.h:212,
    io_scanner.h:73), the scanner's request array (src/io_scanner.cpp:69) and the members of
    three local objects whose classes have no constructor (src/session.cpp:308, :324,
    src/io_scanner.cpp:139). Session.v and Scanner.v put zeros there. Here these bytes and
    members are parameters. The value of such a local may depend on everything, so it is a
    function of the state in which the object is made. *)
From Verif Require Export Scanner.

Record garbage := mkG {
  g_open : world -> fo_success;    (* [ForwardOpenSuccess result], src/session.cpp:308 *)
  g_close : world -> fc_success;   (* [ForwardCloseSuccess result], src/session.cpp:324 *)
  g_ident : heap -> identity;      (* [IdentityItemData id], src/io_scanner.cpp:139 *)
  g_block : heap -> N -> list byte (* an array of that many bytes *) }.
(** Arrays have the size asked for. *)
Definition sized (g : garbage) : Prop := forall m n, len (g_block g m n) = n.

(** Session::Session, src/session.cpp:51-63. *)
Definition session_make_g (g : garbage) (m : heap) (ctl io : sock) (vendor serial sn0 cid0 : N) : world :=
  let (b, m') := alloc m (g_block g m 4096) in
  mkW m' ctl io [] (mkSess 0 (u16 vendor) (u32 serial) (u16 sn0) (u32 cid0) []) b.

(** createConnection, src/session.cpp:296-318. *)
Definition createConnection_g (g : garbage) (o t : conn_info) : M N :=
  let* w := mget in
  let s := w_se w in
  let conn := cn_make (se_vendor s) (se_serial s) (se_next_sn s)
                      (se_next_id s) (u32 (se_next_id s + 1)) o t in
  do* mupd_se (set_counters (u16 (se_next_sn s + 1)) (u32 (se_next_id s + 2))) in
  let* resp := sendRRDataCommand 0x5B (path_ci 0x06 1) (Some (fo_ser (cn_open_request conn))) in
  let* result := fun w' => m_copy_local fs_cls (ms_data (rr_ext resp)) (g_open g w') w' in
  match cn_verify_open conn result with
  | None => mthrow LogicError "Forward Open Response Invalid"
  | Some conn' =>
      do* mupd_se (fun s => set_conns (se_conns s ++ [conn']) s) in
      let* w' := mget in
      mret (len (se_conns (w_se w')) - 1)
  end.

(** closeConnection, src/session.cpp:320-333. *)
Definition closeConnection_g (g : garbage) (n : N) : M unit :=
  let* c := getConnection n in
  let* resp := sendRRDataCommand 0x4E (path_ci 0x06 1) (Some (fc_ser (cn_close_request c))) in
  let* result := fun w' => m_copy_local cs_cls (ms_data (rr_ext resp)) (g_close g w') w' in
  let* c' := getConnection n in
  if negb (cn_verify_close c' result) then mthrow LogicError "Forward Close Response Invalid"
  else mupd_se (fun s => set_conns (list_remove (N.to_nat n) (se_conns s)) s).

(** The calls; the others have no uninitialised locals. *)
Definition step_g (g : garbage) (o : op) : M result :=
  match o with
  | OpCreate a b => let* n := createConnection_g g a b in mret (RNumber n)
  | OpCloseConnection n => do* closeConnection_g g n in mret RUnit
  | _ => step o
  end.
Fixpoint exec_g (g : garbage) (ops : list op) (w : world) : list (outcome result) * world :=
  match ops with
  | [] => ([], w)
  | o :: ops' =>
      match step_g g o w with
      | (Ret r, w') => let (rs, w'') := exec_g g ops' w' in (Ret r :: rs, w'')
      | (Throw c s, w') => let (rs, w'') := exec_g g ops' w' in (Throw c s :: rs, w'')
      | (x, w') => ([x], w')
      end
  end.

(** sendListIdentityRequest, src/io_scanner.cpp:61-74. *)
Definition scan_request_g (g : garbage) (m : heap) : outcome (list byte) :=
  let (b, m1) := alloc m (g_block g m 128) in
  match ep_serialize (ep_make0 EIP_CMD_LIST_IDENTITY 0) m1 (WBuf (mkV b 0 128) 0) with
  | (Ret _, m2, w) => load m2 b 0 (N.min 128 (w_count w))
  | (Throw c s, _, _) => Throw c s
  | (Undef u, _, _) => Undef u
  | (Stuck, _, _) => Stuck
  end.

(** handleListIdentityResponse, src/io_scanner.cpp:76-158. *)
Definition scan_body_g (g : garbage) (n : N) (v : view) : D unit scan_result := fun m _ u =>
  (pkt <- dlocal (ep_make0 0 0) ep_deserialize ;;;
   (if negb (h_command (ep_header pkt) =? EIP_CMD_LIST_IDENTITY)
    then dret (ScanWrongCommand (h_command (ep_header pkt)))
    else
      payload <- dlocal [] (ep_getPayloadAs cpf_cls pkt) ;;;
      (if cpf_getItemCount payload <? 1 then dret ScanNoItems
       else
         i0 <- d_at payload 0 ;;;
         (if negb (it_type i0 =? EIP_ITEM_LIST_IDENTITY_RESPONSE) then dret (ScanWrongItem (it_type i0))
          else
            i <- (fun m' => dlocal (g_ident g m') (it_getDataAs id_cls i0) m') ;;;
            dret (ScanIdentity i))))) m (RBuf (view_take v n) 0) u.
Definition scan_handle_g (g : garbage) (ec : bool) (n : N) (b : nat) (m : heap) : outcome scan_result * heap :=
  if ec then (Ret ScanReceiveError, m)
  else match scan_body_g g n (mkV b 0 4096) m (RBuf null_view 0) tt with
       | (Throw c s, m', _, _) => if is_a c LengthError then (Ret ScanTooShort, m') else (Throw c s, m')
       | (o, m', _, _) => (o, m')
       end.
Definition scan_run_g (g : garbage) (m : heap) (inbox : list (unit + list byte)) : list (outcome scan_result) :=
  let (b, m1) := alloc m (g_block g m 4096) in
  match inbox with
  | [] => []
  | inl _ :: _ => [fst (scan_handle_g g true 0 b m1)]
  | inr bs :: _ =>
      match store m1 b 0 (take 4096 bs) with
      | Ret m2 => [fst (scan_handle_g g false (len (take 4096 bs)) b m2)]
      | Throw c s => [Throw c s] | Undef u => [Undef u] | Stuck => [Stuck]
      end
  end.

(** ** Decoding from streams, with the true contents of [new char[length]]
    (serializable_buffer.h:118-139). *)
Definition sb_deserialize_len_g (g : garbage) (n : N) : D sbuf unit :=
  isbuf <- rd_is_buffer ;;;
  if (isbuf : bool) then
    sb_delete ;;;
    v <- rd_view n ;;;
    dmod (fun s => mkSB v (sb_alloc s))
  else
    s <- dget ;;;
    (if n =? v_len (sb_data s) then dret tt
     else sb_delete ;;;
          b <- (fun m => d_alloc (g_block g m n) m) ;;;
          dmod (fun _ => mkSB (mkV b 0 n) (Some b))) ;;;
    s' <- dget ;;;
    rd_into (sb_data s').

(** EncapPacket::deserialize, src/encap_packet.cpp:61-75. *)
Definition ep_deserialize_g (g : garbage) : D encap_packet unit :=
  dzoom ep_header ep_set_header hdr_deserialize ;;;
  p <- dget ;;;
  (if 0 <? h_length (ep_header p) then
     sb <- dlocal sb_empty (sb_deserialize_len_g g (h_length (ep_header p))) ;;;
     dmod (ep_set_payload_field (Some (ser_of_sbuf sb)))
   else dmod (ep_set_payload_field None)).

(** CPFItem::deserializeData and deserialize, src/cpf_item.cpp:64-84. *)
Definition it_deserialize_g (g : garbage) : D cpf_item unit :=
  rd_uint 2 it_type it_set_type ;;;
  n <- rd_local 2 ;;;
  (if 0 <? n then
     dmod (it_set_data (Some (ser_of_sbuf sb_empty))) ;;;
     sb <- dlocal sb_empty (sb_deserialize_len_g g n) ;;;
     dmod (it_set_data (Some (ser_of_sbuf sb)))
   else dmod (it_set_data None)).
(** CPFPacket::deserialize, src/cpf_packet.cpp:56-68. *)
Fixpoint cpf_loop_g (g : garbage) (n : nat) : D cpf_packet unit :=
  match n with
  | O => dret tt
  | S n' =>
      i <- dlocal it_null (it_deserialize_g g) ;;;
      dmod (fun items => items ++ [i]) ;;;
      cpf_loop_g g n'
  end.
Definition cpf_deserialize_g (g : garbage) : D cpf_packet unit :=
  dmod (fun _ => []) ;;;
  n <- rd_local 2 ;;;
  cpf_loop_g g (N.to_nat n).
