(** * Properties C53 - C68: I/O, transport, threads, scanner, life cycle.

    Statements only; every proof is in the P*.v files.  The words used are defined in
    Spec.v (byte formats), Vocab2.v, Vocab4.v and Vocab5.v. *)
From Verif Require Import PWitness5.

(** ** C53 I/O packets are received and sent faithfully *)
Theorem C53_receive : forall w o w', rbuf_ok w -> receiveIOPacket w = (o, w') ->
  w_ctl w' = w_ctl w /\ w_se w' = w_se w /\ w_io w' = next_recv (w_io w) /\ w_net w' = w_net w ++ io_events (w_io w) /\
  match so_recv (w_io w) with
  | [] => o = Stuck
  | RxFail :: _ => exists s, o = Throw SystemError s
  | RxData d :: _ =>
      (exists xs rest p, cpf_ok xs /\ len (cpf xs) <= 4096 /\ d = cpf xs ++ rest /\ o = Ret p /\ Forall2 (item_is (w_mem w')) p xs) \/
      ((forall xs rest, cpf_ok xs -> len (cpf xs) <= 4096 -> d <> cpf xs ++ rest) /\ exists s, o = Throw LengthError s)
  end.
Proof. exact io_received. Qed.
Print Assumptions C53_receive.
Theorem C53_send : forall w p xs o w', rbuf_ok w -> carries (w_mem w) (cpf_ser p) (cpf xs) -> sendIOPacket p w = (o, w') ->
  w_ctl w' = w_ctl w /\ w_se w' = w_se w /\ w_io w' = next_send (w_io w) /\
  match sent (w_io w) (cpf xs) with
  | None => (exists s, o = Throw SystemError s) /\ w_net w' = w_net w ++ [ESend Io (cpf xs) None]
  | Some n => o = Ret tt /\ w_net w' = w_net w ++ [ESend Io (cpf xs) (Some n)]
  end.
Proof. exact io_sent. Qed.
Print Assumptions C53_send.
Example C53_example : exists p w', let d := cpf [(0x8002, seq_address 7 1); (0x00B1, [x01; x02; x03])] in
  rbuf_ok (w9 [] [RxData (d ++ [x00])]) /\ receiveIOPacket (w9 [] [RxData (d ++ [x00])]) = (Ret p, w') /\ len p = 2.
Proof. do 2 eexists. cbv zeta. split; [apply rbuf_w9|]. split; [vm_compute; reflexivity|reflexivity]. Qed.
Example C53_example_send : carries (w_mem (w9 [] [])) (cpf_ser [io_item]) (cpf [(0x8002, [x05])]) /\
  exists w', sendIOPacket [io_item] (w9 [] []) = (Ret tt, w') /\ w_net w' = [ESend Io (cpf [(0x8002, [x05])]) (Some 7)].
Proof.
  split; [|eexists; split; [vm_compute; reflexivity|]; vm_compute; reflexivity].
  apply cpf_carries; [|constructor; [reflexivity|constructor]]. constructor; [|constructor]. split; [reflexivity|]. exact (carries_prim _ 1 5).
Qed.

(** ** C54 Received data stays valid: violated by the next receive *)
(** Holds as long as nothing else is received on either socket, whatever is called. *)
Theorem C54_quiet_partial : forall u w p w1 xs ops rs w2 es, session_ok w1 -> user_memory u w1 -> Forall (op_ok u) ops ->
  receiveIOPacket w = (Ret p, w1) -> Forall2 (item_is (w_mem w1)) p xs ->
  exec ops w1 = (rs, w2) -> gained w1 w2 es -> ~ received es -> Forall2 (item_is (w_mem w2)) p xs.
Proof. exact items_stay. Qed.
Print Assumptions C54_quiet_partial.
(** A second packet replaces the data of the first one. *)
Theorem C54_overwritten_refuted : exists w p w1 q w2, session_ok w /\ receiveIOPacket w = (Ret p, w1) /\
  Forall2 (item_is (w_mem w1)) p [(0x8002, [x01])] /\ receiveIOPacket w1 = (Ret q, w2) /\ Forall2 (item_is (w_mem w2)) p [(0x8002, [x02])].
Proof. exact items_overwritten. Qed.
Print Assumptions C54_overwritten_refuted.
(** So does reading an attribute. *)
Theorem C54_command_refuted : exists w p w1 v w2 junk, session_ok w /\ receiveIOPacket w = (Ret p, w1) /\
  Forall2 (item_is (w_mem w1)) p [(0x8002, [x01; x01])] /\ getSingleAttribute 1 junk 1 1 1 w1 = (Ret v, w2) /\
  ~ Forall2 (item_is (w_mem w2)) p [(0x8002, [x01; x01])].
Proof. exact items_overwritten_by_command. Qed.
Print Assumptions C54_command_refuted.
Example C54_example : exists p w1 rs w2 es, let w := w9 [RxFail] [RxData (cpf [(0x8002, [x01])])] in
  receiveIOPacket w = (Ret p, w1) /\ exec [OpSendIO [io_item]; OpGet N (prim_cls 2) 0 1 1 1; OpClose] w1 = (rs, w2) /\
  gained w1 w2 es /\ len es = 6 /\ ~ received es.
Proof.
  do 5 eexists. cbv zeta. split; [vm_compute; reflexivity|]. split; [vm_compute; reflexivity|]. split; [reflexivity|]. split; [vm_compute; reflexivity|].
  intros (i & d & H). repeat (destruct H as [H|H]; [discriminate|]). exact H.
Qed.

(** ** C55 A reply split by the transport is reassembled: violated *)
(** Whatever the operation, the reply and the split, the operation raises; the rest of
    the reply stays in the socket for the next operation. *)
Theorem C55_split_raises_partial : forall u o w r w' bs a b, session_ok w -> user_memory u w -> op_ok u o -> awaits o -> ~ silent o w ->
  request_of u o (w_se w) bs -> reply_of (w_ctl w) bs = Reply a -> first_piece a b -> step o w = (r, w') ->
  (exists s, r = Throw RuntimeError s \/ (is_open_close o /\ r = Throw SystemError s)) /\
  (~ is_open_close o -> so_recv (w_ctl w') = tl (so_recv (w_ctl w))).
Proof. exact split_reply. Qed.
Print Assumptions C55_split_raises_partial.
(** TCP delivers segments of at most 4096 bytes one by one. *)
Theorem C55_segments_partial : forall max segs, 0 < max -> Forall (fun s => s <> [] /\ len s <= max) segs -> tcp_script max segs = map RxData segs.
Proof. exact tcp_segments. Qed.
Print Assumptions C55_segments_partial.
(** Whatever the segments, no byte of the stream is lost, repeated or moved; one call of
    receive gives at least one byte and no more than fit. *)
Theorem C55_stream_partial : forall max segs, 0 < max ->
  exists ds, tcp_script max segs = map RxData ds /\ List.concat ds = List.concat segs /\ Forall (fun d => d <> [] /\ len d <= max) ds.
Proof. exact tcp_stream. Qed.
Print Assumptions C55_stream_partial.
Example C55_stream_example : tcp_script 2 [le 3 0x030201; []; le 1 4] = map RxData [le 2 0x0201; le 1 3; le 1 4].
Proof. reflexivity. Qed.
(** The same byte stream in different segments: two reads that give 1 and 9 give an
    error and 7 instead, the 7 being taken from the middle of the first reply. *)
Theorem C55_split_refuted :
  exists segs segs' : list (list byte), List.concat segs = List.concat segs' /\
  (forall s, In s (segs ++ segs') -> s <> [] /\ len s <= 4096) /\
  (let ops := [OpGet N (prim_cls 2) 0 1 1 1; OpGet N (prim_cls 2) 0 1 1 2] in
   fst (exec ops (w9 (tcp_script 4096 segs) [])) = [Ret RUnit; Ret RUnit] /\
   exists s, fst (exec ops (w9 (tcp_script 4096 segs') [])) = [Throw RuntimeError s; Ret RUnit]) /\
  exists w1 w2 s w1' w2',
   getSingleAttribute 2 0 1 1 1 (w9 (tcp_script 4096 segs) []) = (Ret 1, w1) /\ getSingleAttribute 2 0 1 1 2 w1 = (Ret 9, w2) /\
   getSingleAttribute 2 0 1 1 1 (w9 (tcp_script 4096 segs') []) = (Throw RuntimeError s, w1') /\ getSingleAttribute 2 0 1 1 2 w1' = (Ret 7, w2').
Proof. exact split_changes_results. Qed.
Print Assumptions C55_split_refuted.
Example C55_example : let whole := explicit_reply 9 0x8E 0 (le 2 7) in
  first_piece (take 30 whole) (drop 30 whole) /\
  reply_of (w_ctl (w9 [RxData (take 30 whole); RxData (drop 30 whole)] [])) (get_request 9 1 2 3) = Reply (take 30 whole).
Proof.
  cbv zeta. split; [|vm_compute; reflexivity]. split; [discriminate|].
  exists 0x6F, 9, 0, 0, 0, 0, (rr 0 0 [(0, []); (0xB2, router_reply 0x8E 0 0 [] (le 2 7))]). split; [frames|]. rewrite take_drop. reflexivity.
Qed.

(** ** C56 Concurrent callers get their own replies: violated *)
(** Holds when the calls do not overlap: then they are sequential calls. *)
Theorem C56_serial_partial : forall ra rb n k w oa wa ob wb, sendCommand ra w = (oa, wa) -> sendCommand rb wa = (ob, wb) ->
  interleave (repeat false (3 + n) ++ repeat true (3 + k)) (PCmdSend ra) (PCmdSend rb) w = (PCmdDone oa, PCmdDone ob, wb).
Proof. exact serial_commands. Qed.
Print Assumptions C56_serial_partial.
(** A target that answers two requests in order; each caller returns with the other's reply
    (and afterwards both packets show the second reply, since they share the buffer). *)
Theorem C56_swapped_refuted : exists w1 pb w2 pa,
  let ra := request 0x6F 9 [x01] in let rb := request 0x6F 9 [x02] in let w := w9 [RxData ra; RxData rb] [] in
  carries (w_mem w) (ep_ser (ask 1)) (request 0x6F 9 (le 2 1)) /\ carries (w_mem w) (ep_ser (ask 2)) (request 0x6F 9 (le 2 2)) /\
  interleave [false; true; true; true] (PCmdSend (ask 1)) (PCmdSend (ask 2)) w = (PCmdRecv (ask 1), PCmdDone (Ret pb), w1) /\
  interleave [false; false] (PCmdRecv (ask 1)) (PCmdDone (Ret pb)) w1 = (PCmdDone (Ret pa), PCmdDone (Ret pb), w2) /\
  w_net w2 = [ESend Ctl (request 0x6F 9 (le 2 1)) (Some 26); ESend Ctl (request 0x6F 9 (le 2 2)) (Some 26); ERecv Ctl (Some ra); ERecv Ctl (Some rb)] /\
  holds (w_mem w1) (ep_payload pb) [x01] /\ holds (w_mem w2) (ep_payload pa) [x02] /\ holds (w_mem w2) (ep_payload pb) [x02].
Proof. exact replies_swapped. Qed.
Print Assumptions C56_swapped_refuted.
(** A datagram received by another thread is taken as the reply of a command. *)
Theorem C56_datagram_refuted : exists p w', let ra := request 0x6F 9 [x01] in let evil := request 0x6F 9 [x66] in
  interleave [false; false; true; false] (PCmdSend (ask 1)) PIoRecv (w9 [RxData ra] [RxData evil]) = (PCmdDone (Ret p), PIoParse 25, w') /\
  holds (w_mem w') (ep_payload p) [x66].
Proof. exact datagram_taken_as_reply. Qed.
Print Assumptions C56_datagram_refuted.
Example C56_example : exists pa wa pb wb, let w := w9 [RxData (request 0x6F 9 [x01]); RxData (request 0x6F 9 [x02])] [] in
  sendCommand (ask 1) w = (Ret pa, wa) /\ sendCommand (ask 2) wa = (Ret pb, wb).
Proof. do 4 eexists. cbv zeta. split; [vm_compute; reflexivity|]. vm_compute; reflexivity. Qed.

(** ** C57 Identity scan: holds except that two kinds of reply crash the scanner *)
Theorem C57_request_partial : forall m, scan_request m = Ret (request 0x63 0 []).
Proof. exact scan_request_bytes. Qed.
Print Assumptions C57_request_partial.
(** One result per datagram: the identity exactly for a complete reply, undefined
    behaviour exactly for the two crashing forms, else the stated reason. *)
Theorem C57_reply_partial : forall m bs rest, exists o, scan_run m (inr bs :: rest) = [o] /\
  (forall i, o = Ret (ScanIdentity i) <-> identifies (take 4096 bs) i) /\
  (o = Undef NullDeref <-> scan_crashes (take 4096 bs)) /\
  (forall r, o = Ret r -> (exists i, r = ScanIdentity i) \/ scan_rejects (take 4096 bs) r) /\
  (o = Undef NullDeref \/ exists r, o = Ret r).
Proof. exact scan_exactly. Qed.
Print Assumptions C57_reply_partial.
Theorem C57_crash_refuted : forall m rest, scan_run m (inr (request 0x63 0 []) :: rest) = [Undef NullDeref].
Proof. exact scan_crash. Qed.
Print Assumptions C57_crash_refuted.
Example C57_example : identifies (device_reply 5) (device 5) /\ len (request 0x63 0 []) = 24 /\
  scan_run [] [inr (device_reply 5)] = [Ret (ScanIdentity (device 5))].
Proof. split; [apply device_identifies; reflexivity|]. split; vm_compute; reflexivity. Qed.

(** ** C58 Sending I/O while a command is in progress is harmless *)
(** For every schedule of a command and any number of I/O sends: after three turns of
    the command's thread it is done, with the result and the control traffic it has
    when run alone, and the I/O socket was given the packets in order. *)
Theorem C58_sends_harmless : forall u req bs ps fs sched w a b w', rbuf_ok w -> user_memory u w -> carries u (ep_ser req) bs ->
  Forall2 (io_bytes u) ps fs -> interleave sched (PCmdSend req) (PIoSends ps) w = (a, b, w') -> (3 <= turns false sched)%nat ->
  exists o es done rest, a = PCmdDone o /\ gained w w' es /\ command_outcome w (h_command (ep_header req)) bs o w' /\
    w_ctl w' = left_of (w_ctl w) bs /\ ctl_talk es = events (w_ctl w) bs /\ w_se w' = w_se w /\
    b = PIoSends rest /\ ps = done ++ rest /\ io_sends es = take (len done) fs.
Proof. exact command_with_sends. Qed.
Print Assumptions C58_sends_harmless.
(** The same specification as for a command that runs alone. *)
Theorem C58_alone : forall w req bs, rbuf_ok w -> carries (w_mem w) (ep_ser req) bs ->
  exists o w', sendCommand req w = (o, w') /\ exchanged w bs w' /\ command_outcome w (h_command (ep_header req)) bs o w'.
Proof. exact command. Qed.
Print Assumptions C58_alone.
Example C58_example : exists p w', let w := w9 [RxData (request 0x6F 9 [x01])] [] in
  carries [] (ep_ser (ask 1)) (request 0x6F 9 (le 2 1)) /\ Forall2 (io_bytes []) [io_item :: nil] [cpf [(0x8002, [x05])]] /\
  interleave [false; true; false; false] (PCmdSend (ask 1)) (PIoSends [[io_item]]) w = (PCmdDone (Ret p), PIoSends [], w') /\
  holds (w_mem w') (ep_payload p) [x01].
Proof.
  do 2 eexists. cbv zeta. split; [exact (ep_carries _ _ (Some (prim_ser 2 1)) (le 2 1) (carries_prim _ 2 1))|]. split.
  { constructor; [|constructor]. split; [|eexists; reflexivity].
    apply cpf_carries; [|constructor; [reflexivity|constructor]]. constructor; [|constructor]. split; [reflexivity|]. exact (carries_prim _ 1 5). }
  split; [vm_compute; reflexivity|]. held.
Qed.

(** ** C59 Every device that answers a scan is reported: violated *)
(** Only the first datagram is looked at (its handling is C57). *)
Theorem C59_first_partial : forall m b1 b2 i2 rest, identifies b2 i2 -> (forall i, ~ identifies (take 4096 b1) i) ->
  forall i, ~ In (Ret (ScanIdentity i)) (scan_run m (inr b1 :: inr b2 :: rest)).
Proof. exact stray_ends_scan. Qed.
Print Assumptions C59_first_partial.
Theorem C59_second_refuted : forall m rest, exists b1 b2 i1 i2, identifies b1 i1 /\ identifies b2 i2 /\ i1 <> i2 /\
  scan_run m (inr b1 :: inr b2 :: rest) = [Ret (ScanIdentity i1)].
Proof. exact second_device_lost. Qed.
Print Assumptions C59_second_refuted.
Example C59_example : identifies (device_reply 2) (device 2) /\ forall i, ~ identifies (take 4096 [x00]) i.
Proof.
  split; [apply device_identifies; reflexivity|]. intros i (d & xs & r & (ses & p & r2 & (st & c0 & c1 & o & r3 & F & E) & _) & _).
  apply (f_equal len) in E. unfold frame, header in E. rewrite !len_app, !len_le in E. change (len (take 4096 [x00])) with 1 in E. lia.
Qed.

(** ** C60 Requests are transmitted completely: violated by short writes *)
(** Holds in every history, for any user objects, when the sockets never accept only a
    part of a buffer. *)
Theorem C60_whole_partial : forall ops w rs w', no_short_write (w_ctl w) -> no_short_write (w_io w) -> exec ops w = (rs, w') ->
  exists es, gained w w' es /\ whole_sends es.
Proof. exact sends_whole. Qed.
Print Assumptions C60_whole_partial.
(** A write that is only partly accepted is neither continued nor reported. *)
Theorem C60_short_write_refuted : exists w w', rbuf_ok w /\ session_open "h" "p" "q" w = (Ret tt, w') /\ In (ESend Ctl register_request (Some 10)) (w_net w').
Proof. exact short_write_unnoticed. Qed.
Print Assumptions C60_short_write_refuted.
Example C60_example : no_short_write (mkSock [] [TxAll; TxFail; TxAll] [] []) /\ len register_request = 28.
Proof. split; [|vm_compute; reflexivity]. repeat constructor. Qed.

(** ** C61 A failed open can be retried: violated *)
(** When both sockets were opened and the exchange failed, a UDP socket, which cannot be
    opened twice, makes every further open fail ... *)
Theorem C61_retry_refuted : forall w h p q s w1 h2 p2 q2 o w2, rbuf_ok w -> open_fails (w_ctl w) = false -> open_fails (w_io w) = false ->
  session_open h p q w = (Throw SystemError s, w1) ->
  session_open h2 p2 q2 w1 = (o, w2) -> udp_possible false (w_net w2) -> exists s', o = Throw SystemError s'.
Proof. exact open_retry_fails. Qed.
Print Assumptions C61_retry_refuted.
Theorem C61_retry_example_refuted : exists w s w1 w2 s', rbuf_ok w /\ open_fails (w_ctl w) = false /\ open_fails (w_io w) = false /\
  session_open "h" "p" "q" w = (Throw SystemError s, w1) /\
  reply_of (w_ctl w1) register_request = Reply (registered 9) /\
  session_open "h" "p" "q" w1 = (Throw SystemError s', w2) /\ udp_possible false (w_net w2).
Proof. exact open_retry_example. Qed.
Print Assumptions C61_retry_example_refuted.
(** ... until close() returns. *)
Theorem C61_close_partial : forall w w', rbuf_ok w -> session_close w = (Ret tt, w') -> io_open false (w_net w') = false /\ se_id (w_se w') = 0.
Proof. exact close_recovers. Qed.
Print Assumptions C61_close_partial.

(** ** C62 I/O data comes from the opened target: violated *)
(** A datagram is delivered whoever sent it. *)
Theorem C62_any_sender_refuted : forall w d inbox xs rest, rbuf_ok w -> so_recv (w_io w) = udp_script (d :: inbox) ->
  dg_bytes d = cpf xs ++ rest -> cpf_ok xs -> len (cpf xs) <= 4096 ->
  exists p w', receiveIOPacket w = (Ret p, w') /\ Forall2 (item_is (w_mem w')) p xs.
Proof. exact any_sender. Qed.
Print Assumptions C62_any_sender_refuted.
Theorem C62_foreign_refuted : exists w p w' d, In (EOpen Io "plc" "2222" true) (w_net w) /\ so_recv (w_io w) = udp_script [d] /\ dg_from d = "attacker"%string /\
  session_ok w /\ receiveIOPacket w = (Ret p, w') /\ Forall2 (item_is (w_mem w')) p [(0x8002, [x01])].
Proof. exact foreign_datagram. Qed.
Print Assumptions C62_foreign_refuted.

(** ** C63 The test socket records what is sent and replays what it was given: holds except for clearing *)
Theorem C63_records_partial : forall msgs junk rx, len junk = 4096 -> let (ns, t) := ts_sends msgs (ts_make junk rx) in
  ts_tx_count t = N.min 4096 (len (List.concat msgs)) /\ take (ts_tx_count t) (ts_tx t) = take 4096 (List.concat msgs).
Proof. exact ts_records. Qed.
Print Assumptions C63_records_partial.
Theorem C63_replays_partial : forall sizes junk rx, let (ds, t) := ts_receives sizes (ts_make junk rx) in
  List.concat ds ++ ts_rx t = rx /\ ts_rx_count t = len (List.concat ds) /\ Forall2 (fun d n => len d <= n) ds sizes.
Proof. exact ts_replays. Qed.
Print Assumptions C63_replays_partial.
(** clearTxBuffer clears 8 of the 4096 bytes. *)
Theorem C63_clear_refuted : exists t msg n t1, len (ts_tx t) = 4096 /\ ts_tx_count t = 0 /\ ts_tx t = zeros 4096 /\
  ts_send msg t = (n, t1) /\ ts_tx_count (ts_clear t1) = 0 /\ ts_tx (ts_clear t1) <> zeros 4096.
Proof. exact clear_leaves_data. Qed.
Print Assumptions C63_clear_refuted.
Example C63_example : let (ns, t) := ts_sends [[x01; x02]; [x03]] (ts_make (zeros 4096) []) in ns = [2; 1] /\ take 3 (ts_tx t) = [x01; x02; x03].
Proof. vm_compute. split; reflexivity. Qed.
Example C63_example_replay : fst (ts_receives [2; 2; 2] (ts_make [] [x01; x02; x03])) = [[x01; x02]; [x03]; []].
Proof. reflexivity. Qed.

(** ** C64 Commands need an open session: violated *)
(** On a session that was never opened or is closed, requests are sent with handle 0 and
    a reply with any other handle is accepted. *)
Theorem C64_closed_refuted : forall w k junk c i a got sv ad v rest, rbuf_ok w -> se_id (w_se w) = 0 -> c < 256 -> i < 256 -> a < 256 -> fits k v -> k <> O ->
  reply_of (w_ctl w) (request 0x6F 0 (rr_request 0x0E (epath false [SClass c; SInstance i; SAttribute a]) [])) = Reply got ->
  answers 0 got sv 0 ad (le k v ++ rest) ->
  exists w', getSingleAttribute k junk c i a w = (Ret v, w').
Proof. exact closed_session_get. Qed.
Print Assumptions C64_closed_refuted.
Theorem C64_any_handle_refuted : exists w w', session_ok w /\ se_id (w_se w) = 0 /\ getSingleAttribute 2 0 1 2 3 w = (Ret 7, w') /\
  so_recv (w_ctl w) = [RxData (explicit_reply 0xBAD 0x8E 0 (le 2 7))].
Proof. exact closed_session_any_handle. Qed.
Print Assumptions C64_any_handle_refuted.

(** ** C65 Closing a session closes its connections: violated *)
(** No connection is closed on the wire, and the list is kept. *)
Theorem C65_kept_refuted : forall w w', rbuf_ok w -> session_close w = (Ret tt, w') ->
  se_conns (w_se w') = se_conns (w_se w) /\ exists n, gained w w' [ESend Ctl (request 0x66 (se_id (w_se w)) []) (Some n); EClose Ctl true; EClose Io true].
Proof. exact close_keeps_connections. Qed.
Print Assumptions C65_kept_refuted.
Theorem C65_outlives_refuted : exists w w' c, session_ok w /\
  exec [OpCreate ci0 ci0; OpClose; OpOpen "h" "p" "q"] w = ([Ret (RNumber 0); Ret RUnit; Ret RUnit], w') /\ se_id (w_se w') = 10 /\ se_conns (w_se w') = [c].
Proof. exact connection_outlives_session. Qed.
Print Assumptions C65_outlives_refuted.

(** ** C66 The session identifier tells whether the sockets are open: violated *)
(** Holds after an open or close that returns. *)
Theorem C66_open_partial : forall w h p q w', rbuf_ok w -> session_open h p q w = (Ret tt, w') -> se_id (w_se w') <> 0 /\ io_open false (w_net w') = true.
Proof. exact open_id_nonzero. Qed.
Print Assumptions C66_open_partial.
Theorem C66_close_partial : forall w w', rbuf_ok w -> session_close w = (Ret tt, w') -> io_open false (w_net w') = false /\ se_id (w_se w') = 0.
Proof. exact close_recovers. Qed.
Print Assumptions C66_close_partial.
(** Opening an open session closes its sockets, unless the target assigns the same
    handle again, and keeps the old identifier. *)
Theorem C66_reopen_refuted : forall w h p q got ses payload o w', rbuf_ok w -> open_fails (w_ctl w) = false -> open_fails (w_io w) = false ->
  close_fails (w_ctl w) = false -> close_fails (w_io w) = false -> se_id (w_se w) <> 0 ->
  reply_of (w_ctl w) register_request = Reply got -> reply_frame got 0x65 ses payload -> ses <> se_id (w_se w) ->
  session_open h p q w = (o, w') ->
  (exists s, o = Throw RuntimeError s) /\ se_id (w_se w') = se_id (w_se w) /\ io_open false (w_net w') = false.
Proof. exact reopen_rejected. Qed.
Print Assumptions C66_reopen_refuted.
Theorem C66_reopen_example_refuted : exists w w' s, session_ok w /\ se_id (w_se w) = 9 /\ reply_of (w_ctl w) register_request = Reply (registered 10) /\
  session_open "h" "p" "q" w = (Throw RuntimeError s, w') /\ se_id (w_se w') = 9 /\ io_open true (w_net w') = false.
Proof. exact reopen_example. Qed.
Print Assumptions C66_reopen_example_refuted.

(** ** C67 A reply that reports an encapsulation error is not accepted: violated *)
(** The status in the header is ignored. *)
Theorem C67_status_refuted : forall w k junk c i a st ses c0 c1 o payload tail sv ad v rest, rbuf_ok w -> c < 256 -> i < 256 -> a < 256 -> fits k v -> k <> O ->
  frame_fits 0x6F ses st c0 c1 o payload -> matches (se_id (w_se w)) ses -> rr_reply payload sv 0 ad (le k v ++ rest) ->
  reply_of (w_ctl w) (get_request (se_id (w_se w)) c i a) = Reply (frame 0x6F ses st c0 c1 o payload ++ tail) ->
  exists w', getSingleAttribute k junk c i a w = (Ret v, w').
Proof. exact status_ignored. Qed.
Print Assumptions C67_status_refuted.
Theorem C67_example_refuted : exists w w', session_ok w /\
  so_recv (w_ctl w) = [RxData (frame 0x6F 9 0x64 0 0 0 (rr 0 0 [(0, []); (0xB2, router_reply 0x8E 0 0 [] (le 2 7))]))] /\
  getSingleAttribute 2 0 1 2 3 w = (Ret 7, w').
Proof. exact error_status_accepted. Qed.
Print Assumptions C67_example_refuted.
(** An error reply without payload crashes the client. *)
Theorem C67_crash_refuted : exists w w', session_ok w /\ so_recv (w_ctl w) = [RxData (frame 0x6F 9 0x64 0 0 0 [])] /\
  getSingleAttribute 2 0 1 2 3 w = (Undef NullDeref, w').
Proof. exact error_reply_crashes. Qed.
Print Assumptions C67_crash_refuted.

(** ** C68 An operation only waits for the transport *)
(** It blocks only in a receive on a socket that has nothing to deliver; in particular
    never after it got something, and close and sends never block. *)
Theorem C68_progress : forall u o w w', session_ok w -> user_memory u w -> op_ok u o -> decodes o -> step o w = (Stuck, w') -> waits o w.
Proof. exact blocks_only_waiting. Qed.
Print Assumptions C68_progress.
Example C68_example : decodes (OpGet N (prim_cls 2) 0 1 1 1) /\ exists w', step (OpGet N (prim_cls 2) 0 1 1 1) (w9 [] []) = (Stuck, w').
Proof. split; [right; apply tame_all|]. eexists. vm_compute. reflexivity. Qed.
