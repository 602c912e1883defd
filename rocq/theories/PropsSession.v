(** * Properties C37 - C52: the session.

    Statements only; every proof is in the P*.v files.  The words used are defined in
    Spec.v (byte formats), Vocab2.v (replies and exchanges) and Vocab4.v (histories).
    [rbuf_ok w] says that the session's receive buffer is allocated, [session_ok w]
    also that the members are within their C++ types; both hold for a new session
    and are preserved by every operation (C52). *)
From Verif Require Import PWitness3.

(** ** C37 Opening a session *)
(** Whenever open returns: both sockets were opened, exactly one registration request
    was sent, and the identifier is the handle of the reply. *)
Theorem C37_open_returns : forall w h p q w', rbuf_ok w -> session_open h p q w = (Ret tt, w') ->
  exists n got ses payload,
    w_net w' = w_net w ++ [EOpen Ctl h p true; EOpen Io h q true;
                           ESend Ctl (request 0x65 0 (registration 1 0)) (Some n); ERecv Ctl (Some got)] /\
    reply_frame got 0x65 ses payload /\
    (se_id (w_se w) = 0 -> ses <> 0) /\ (se_id (w_se w) <> 0 -> ses = se_id (w_se w)) /\
    (4 <= len payload -> exists options rest, payload = registration 1 options ++ rest) /\
    w_se w' = mkSess ses (se_vendor (w_se w)) (se_serial (w_se w)) (se_next_sn (w_se w)) (se_next_id (w_se w)) (se_conns (w_se w)).
Proof. exact open_returns. Qed.
Print Assumptions C37_open_returns.
(** Every behaviour of the sockets and every reply, including which replies are accepted. *)
Theorem C37_open : forall w h p q o w', rbuf_ok w -> session_open h p q w = (o, w') -> open_spec_at w h p q o w'.
Proof. exact open_spec. Qed.
Print Assumptions C37_open.
Example C37_example : rbuf_ok (w0 [RxData reg_resp]) /\
  exists w', session_open "h" "p" "q" (w0 [RxData reg_resp]) = (Ret tt, w') /\ se_id (w_se w') = 0xDEADBEEF.
Proof. split; [apply rbuf_make|]. eexists. split; vm_compute; reflexivity. Qed.

(** ** C38 A rejected registration closes both sockets: holds when the reply has a payload *)
Theorem C38_rejected_partial : forall w h p q got o w', rbuf_ok w -> open_fails (w_ctl w) = false -> open_fails (w_io w) = false ->
  close_fails (w_ctl w) = false -> close_fails (w_io w) = false ->
  reply_of (w_ctl w) register_request = Reply got -> session_open h p q w = (o, w') ->
  o = Ret tt \/ (registers_empty (se_id (w_se w)) got /\ o = Undef NullDeref) \/
  ((exists s, o = Throw RuntimeError s) /\ w_se w' = w_se w /\
   exists n, w_net w' = w_net w ++ [EOpen Ctl h p true; EOpen Io h q true; ESend Ctl register_request (Some n); ERecv Ctl (Some got);
                                    EClose Ctl true; EClose Io true]).
Proof. exact open_rejected. Qed.
Print Assumptions C38_rejected_partial.
(** A registration reply without payload is neither accepted nor rejected: null pointer. *)
Theorem C38_empty_refuted : exists w w' got ses, rbuf_ok w /\ reply_of (w_ctl w) register_request = Reply got /\
  reply_frame got 0x65 ses [] /\ ses <> 0 /\ session_open "h" "p" "q" w = (Undef NullDeref, w').
Proof. exact empty_registration_crashes. Qed.
Print Assumptions C38_empty_refuted.
(** If closing the control socket raises, that error replaces the runtime_error and the
    I/O socket stays open. *)
Theorem C38_close_error_refuted : exists w w', rbuf_ok w /\ reply_of (w_ctl w) register_request = Reply (request 0x65 0 (registration 1 0)) /\
  session_open "h" "p" "q" w = (Throw SystemError "close", w') /\ ~ In (EClose Io true) (w_net w') /\ ~ In (EClose Io false) (w_net w').
Proof. exact close_error_hides_rejection. Qed.
Print Assumptions C38_close_error_refuted.
Example C38_example : let w := w0 [RxData (request 0x65 9 (registration 2 0))] in
  rbuf_ok w /\ open_fails (w_ctl w) = false /\ close_fails (w_ctl w) = false /\
  reply_of (w_ctl w) register_request = Reply (request 0x65 9 (registration 2 0)) /\
  exists w', session_open "h" "p" "q" w = (Throw RuntimeError "Received wrong Ethernet IP Protocol Version on registration", w').
Proof. split; [apply rbuf_make|]. split; [reflexivity|]. split; [reflexivity|]. split; [vm_compute; reflexivity|]. eexists. vm_compute. reflexivity. Qed.

(** ** C39 Only protocol version 1 is accepted: violated by short replies *)
(** Holds when the reply has a complete registration: part of [C37_open_returns]. *)
Theorem C39_version_partial : forall w h p q w', rbuf_ok w -> session_open h p q w = (Ret tt, w') ->
  exists n got ses payload,
    w_net w' = w_net w ++ [EOpen Ctl h p true; EOpen Io h q true;
                           ESend Ctl (request 0x65 0 (registration 1 0)) (Some n); ERecv Ctl (Some got)] /\
    reply_frame got 0x65 ses payload /\ (4 <= len payload -> exists options rest, payload = registration 1 options ++ rest).
Proof.
  exact (fun w h p q w' R E => match open_returns w h p q w' R E with
    | ex_intro _ n (ex_intro _ got (ex_intro _ ses (ex_intro _ payload (conj A (conj B (conj _ (conj _ (conj C _)))))))) =>
        ex_intro _ n (ex_intro _ got (ex_intro _ ses (ex_intro _ payload (conj A (conj B C))))) end).
Qed.
Print Assumptions C39_version_partial.
(** A target that announces version 2 in a two byte reply is accepted. *)
Theorem C39_version_refuted : exists w w' got ses, rbuf_ok w /\ reply_of (w_ctl w) register_request = Reply got /\
  reply_frame got 0x65 ses (le 2 2) /\ session_open "h" "p" "q" w = (Ret tt, w') /\ se_id (w_se w') = ses.
Proof. exact version_2_accepted. Qed.
Print Assumptions C39_version_refuted.
Example C39_example : rbuf_ok (w0 [RxData reg_resp]) /\ exists w', session_open "h" "p" "q" (w0 [RxData reg_resp]) = (Ret tt, w').
Proof. split; [apply rbuf_make|]. eexists. vm_compute. reflexivity. Qed.

(** ** C40 No reply can crash the client: violated *)
(** Each operation that waits for a reply can be crashed by one. *)
Theorem C40_crash_refuted :
  (exists w w', session_ok w /\ step (OpOpen "h" "p" "q") w = (Undef NullDeref, w')) /\
  (exists w w', session_ok w /\ step (OpGet N (prim_cls 2) 0 1 1 1) w = (Undef NullDeref, w')) /\
  (exists w w', session_ok w /\ step (OpSet 1 1 1 None) w = (Undef NullDeref, w')) /\
  (exists w w', session_ok w /\ step (OpCreate ci0 ci0) w = (Undef NullDeref, w')) /\
  (exists w w', session_ok w /\ se_conns (w_se w) <> [] /\ step (OpCloseConnection 0) w = (Undef NullDeref, w')).
Proof. exact replies_crash. Qed.
Print Assumptions C40_crash_refuted.
(** But only by the replies listed in [crash_cause]. *)
Theorem C40_crash_partial : forall u o w ub w', session_ok w -> user_memory u w -> op_ok u o ->
  match o with OpGet T c _ _ _ _ => c_sb c <> None \/ tame_cls c | _ => True end ->
  step o w = (Undef ub, w') -> crash_cause o w.
Proof. exact crash_step. Qed.
Print Assumptions C40_crash_partial.
(** The library's classes decode without undefined behaviour. *)
Theorem C40_classes_partial :
  tame_cls hdr_cls /\ tame_cls ep_cls /\ tame_cls it_cls /\ tame_cls cpf_cls /\ tame_cls mq_cls /\ tame_cls ms_cls /\
  tame_cls rg_cls /\ tame_cls sa_cls /\ tame_cls id_cls /\
  tame_cls fo_cls /\ tame_cls fc_cls /\ tame_cls fs_cls /\ tame_cls cs_cls /\ forall k, tame_cls (prim_cls k).
Proof. exact tame_all. Qed.
Print Assumptions C40_classes_partial.
Example C40_example : let w := w9 [RxData (explicit_reply 9 0x8E 0 [])] [] in
  session_ok w /\ user_memory [] w /\ op_ok [] (OpGet N (prim_cls 2) 0 1 1 1) /\
  exists w', step (OpGet N (prim_cls 2) 0 1 1 1) w = (Undef NullDeref, w').
Proof.
  split; [apply session_ok_w9|]. split; [apply user_memory_w9|]. split.
  - repeat split. right. apply keeps_all.
  - eexists. vm_compute. reflexivity.
Qed.

(** ** C41 Replies are matched to the command and session *)
Theorem C41_matching : forall w req bs, rbuf_ok w -> carries (w_mem w) (ep_ser req) bs ->
  exists o w', sendCommand req w = (o, w') /\ exchanged w bs w' /\ command_outcome w (h_command (ep_header req)) bs o w'.
Proof. exact command. Qed.
Print Assumptions C41_matching.
Example C41_example : let w := w9 [RxData (request 0x6F 8 [])] [] in let req := ep_make0 0x6F 9 in
  rbuf_ok w /\ carries (w_mem w) (ep_ser req) (request 0x6F 9 []) /\
  exists w', sendCommand req w = (Throw LogicError "Wrong session ID received for command", w').
Proof. split; [apply rbuf_w9|]. split; [exact (ep_carries (w_mem (w9 [RxData (request 0x6F 8 [])] [])) (ep_header (ep_make0 0x6F 9)) None [] eq_refl)|]. eexists. vm_compute. reflexivity. Qed.

(** ** C42 Explicit command outcome: holds except for two crashing replies *)
Theorem C42_explicit_partial : forall w service pad ss d bs, rbuf_ok w -> len ss < 256 -> carries_opt (w_mem w) d bs ->
  let req := request 0x6F (se_id (w_se w)) (rr_request (u8 service) (epath pad ss) bs) in
  exists o w', sendRRDataCommand service (path_of pad ss) d w = (o, w') /\ exchanged w req w' /\ rr_outcome w req o w'.
Proof. exact rr_command. Qed.
Print Assumptions C42_explicit_partial.
Theorem C42_crash_refuted : exists w w' got, rbuf_ok w /\
  reply_of (w_ctl w) (request 0x6F (se_id (w_se w)) (rr_request 0x0E (epath false []) [])) = Reply got /\
  reply_frame got 0x6F (se_id (w_se w)) (rr 0 0 [(0, []); (0xB2, [])]) /\
  sendRRDataCommand 0x0E (path_of false []) None w = (Undef NullDeref, w').
Proof. exact empty_reply_crashes. Qed.
Print Assumptions C42_crash_refuted.
Example C42_example : rbuf_ok (w9 [RxData (explicit_reply 9 0x8E 0 [x05])] []) /\
  answers 9 (explicit_reply 9 0x8E 0 [x05] ++ []) 0x8E 0 [] [x05] /\
  exists resp w', sendRRDataCommand 0x0E (path_of false [SClass 1]) None (w9 [RxData (explicit_reply 9 0x8E 0 [x05])] []) = (Ret resp, w').
Proof. split; [apply rbuf_w9|]. split; [apply answers_reply; try reflexivity; discriminate|]. do 2 eexists. vm_compute. reflexivity. Qed.

(** ** C43 Reading an attribute: holds except for replies without data *)
Theorem C43_get_partial : forall w k junk c i a, rbuf_ok w -> c < 256 -> i < 256 -> a < 256 ->
  let req := get_request (se_id (w_se w)) c i a in
  exists o w', getSingleAttribute k junk c i a w = (o, w') /\ exchanged w req w' /\
  match reply_of (w_ctl w) req with
  | NoSend | NoReply => exists s, o = Throw SystemError s
  | Blocked => o = Stuck
  | Reply got =>
      let id := se_id (w_se w) in
      (exists sv ad v rest, answers id got sv 0 ad (le k v ++ rest) /\ fits k v /\ le k v ++ rest <> [] /\ o = Ret v) \/
      (exists sv ad d s, answers id got sv 0 ad d /\ 0 < len d < N.of_nat k /\ o = Throw LengthError s) \/
      ((crashes id got \/ exists sv ad, answers id got sv 0 ad []) /\ o = Undef NullDeref) \/
      ((forall sv ad d, ~ answers id got sv 0 ad d) /\ ~ crashes id got /\ exists s, o = Throw RuntimeError s)
  end.
Proof. exact get_attribute. Qed.
Print Assumptions C43_get_partial.
(** Every successful reply without data crashes the client instead of raising length_error. *)
Theorem C43_empty_refuted : forall w k junk c i a got sv ad, rbuf_ok w -> c < 256 -> i < 256 -> a < 256 ->
  reply_of (w_ctl w) (get_request (se_id (w_se w)) c i a) = Reply got -> answers (se_id (w_se w)) got sv 0 ad [] ->
  exists w', getSingleAttribute k junk c i a w = (Undef NullDeref, w').
Proof. exact get_empty_crashes. Qed.
Print Assumptions C43_empty_refuted.
Example C43_example : let w := w9 [RxData (explicit_reply 9 0x8E 0 [x05; x01])] [] in
  rbuf_ok w /\ exists w', getSingleAttribute 2 77 1 2 3 w = (Ret 0x105, w').
Proof. split; [apply rbuf_w9|]. eexists. vm_compute. reflexivity. Qed.
Example C43_empty_example : let w := w9 [RxData (explicit_reply 9 0x8E 0 [])] [] in
  rbuf_ok w /\ reply_of (w_ctl w) (get_request (se_id (w_se w)) 1 2 3) = Reply (explicit_reply 9 0x8E 0 []) /\
  answers (se_id (w_se w)) (explicit_reply 9 0x8E 0 [] ++ []) 0x8E 0 [] [].
Proof. split; [apply rbuf_w9|]. split; [vm_compute; reflexivity|]. apply answers_reply; try reflexivity; discriminate. Qed.

(** ** C44 Writing an attribute: holds for data that fits a frame *)
(** The bytes are [set_request]; with less than 65512 bytes of data they are a complete
    frame (C52). *)
Theorem C44_set_partial : forall w c i a d data, rbuf_ok w -> c < 256 -> i < 256 -> a < 256 -> carries_opt (w_mem w) d data ->
  let req := set_request (se_id (w_se w)) c i a data in
  exists o w', setSingleAttributeSerializable c i a d w = (o, w') /\ exchanged w req w' /\
  match reply_of (w_ctl w) req with
  | NoSend | NoReply => exists s, o = Throw SystemError s
  | Blocked => o = Stuck
  | Reply got =>
      let id := se_id (w_se w) in
      ((exists sv ad q, answers id got sv 0 ad q) /\ o = Ret tt) \/
      (crashes id got /\ o = Undef NullDeref) \/
      ((forall sv ad q, ~ answers id got sv 0 ad q) /\ ~ crashes id got /\ exists s, o = Throw RuntimeError s)
  end.
Proof. exact set_attribute. Qed.
Print Assumptions C44_set_partial.
(** With more data, what goes out is a shorter frame followed by stray bytes. *)
Theorem C44_oversize_refuted : forall w c i a d data, rbuf_ok w -> fits 4 (se_id (w_se w)) -> c < 256 -> i < 256 -> a < 256 ->
  carries_opt (w_mem w) d data -> 65512 <= len data -> sent (w_ctl w) [] <> None ->
  exists o w' n short rest tail, setSingleAttributeSerializable c i a d w = (o, w') /\
    w_net w' = w_net w ++ ESend Ctl (frame 0x6F (se_id (w_se w)) 0 0 0 0 short ++ rest) (Some n) :: tail /\
    frame_fits 0x6F (se_id (w_se w)) 0 0 0 0 short /\ rest <> [].
Proof. exact set_oversize. Qed.
Print Assumptions C44_oversize_refuted.
Example C44_example : let w := w9 [RxData (explicit_reply 9 0x90 0 [])] [] in
  rbuf_ok w /\ carries_opt (w_mem w) (Some (prim_ser 2 7)) (le 2 7) /\ exists w', setSingleAttribute 2 1 2 3 7 w = (Ret tt, w').
Proof. split; [apply rbuf_w9|]. split; [apply carries_prim|]. eexists. vm_compute. reflexivity. Qed.
Example C44_oversize_example : exists w d, session_ok w /\ carries_opt (w_mem w) (Some d) (zeros 65536) /\ sent (w_ctl w) [] <> None /\ 65512 <= len (zeros 65536).
Proof. exact big_data. Qed.

(** ** C45 A reply for another service is not taken as the answer: violated *)
(** Whatever the service code of the reply, its data is returned. *)
Theorem C45_service_refuted : forall w k junk c i a got sv ad v rest, rbuf_ok w -> c < 256 -> i < 256 -> a < 256 -> fits k v -> k <> O ->
  reply_of (w_ctl w) (get_request (se_id (w_se w)) c i a) = Reply got ->
  answers (se_id (w_se w)) got sv 0 ad (le k v ++ rest) ->
  exists w', getSingleAttribute k junk c i a w = (Ret v, w').
Proof. exact wrong_service_get. Qed.
Print Assumptions C45_service_refuted.
Example C45_example : let w := w9 [RxData (explicit_reply 9 0x90 0 [x05; x01])] [] in
  rbuf_ok w /\ fits 2 0x105 /\ reply_of (w_ctl w) (get_request (se_id (w_se w)) 1 2 3) = Reply (explicit_reply 9 0x90 0 [x05; x01]) /\
  answers (se_id (w_se w)) (explicit_reply 9 0x90 0 [x05; x01] ++ []) 0x90 0 [] (le 2 0x105 ++ []) /\ 0x90 <> 0x8E.
Proof.
  split; [apply rbuf_w9|]. split; [reflexivity|]. split; [vm_compute; reflexivity|]. split; [apply answers_reply; try reflexivity; discriminate|discriminate].
Qed.

(** ** C46 Closing a session *)
Theorem C46_close : forall w, rbuf_ok w -> exists o w', session_close w = (o, w') /\
  w_rbuf w' = w_rbuf w /\ rbuf_ok w' /\ mem_kept w w' /\
  match sent (w_ctl w) (unregister (se_id (w_se w))) with
  | None => (exists s, o = Throw SystemError s) /\ w_se w' = w_se w /\ w_io w' = w_io w /\
            w_net w' = w_net w ++ [ESend Ctl (unregister (se_id (w_se w))) None]
  | Some n =>
      w_net w' = w_net w ++ [ESend Ctl (unregister (se_id (w_se w))) (Some n)] ++ closing (w_ctl w) (w_io w) /\
      if closed (w_ctl w) (w_io w) then o = Ret tt /\ w_se w' = set_id 0 (w_se w)
      else (exists s, o = Throw SystemError s) /\ w_se w' = w_se w
  end.
Proof. exact session_close_spec. Qed.
Print Assumptions C46_close.
Theorem C46_destroy : forall w, rbuf_ok w -> exists w', session_destroy w = (Ret tt, w') /\
  if se_id (w_se w) =? 0 then w' = w
  else exists n tail, w_net w' = w_net w ++ [ESend Ctl (unregister (se_id (w_se w))) n] ++ tail /\
       (n = None -> tail = []) /\ (n <> None -> tail = closing (w_ctl w) (w_io w)).
Proof. exact session_destroy_spec. Qed.
Print Assumptions C46_destroy.
Example C46_example : rbuf_ok (w9 [] []) /\ exists w', session_close (w9 [] []) = (Ret tt, w') /\ se_id (w_se w') = 0 /\
  w_net w' = [ESend Ctl (bl [0x66;0;0;0;9;0;0;0] ++ zeros 16) (Some 24); EClose Ctl true; EClose Io true].
Proof. split; [apply rbuf_w9|]. eexists. split; [vm_compute; reflexivity|]. split; reflexivity. Qed.

(** ** C47 Creating a connection: holds except for crashing replies *)
Theorem C47_create_partial : forall w o t, rbuf_ok w -> ci_assembly o < 256 -> ci_assembly t < 256 ->
  exists res w', createConnection o t w = (res, w') /\ exchanged_se w (open_request (w_se w) o t) w' /\
    numbered (w_se w) (w_se w') /\ create_outcome w o t res w'.
Proof. exact create_connection. Qed.
Print Assumptions C47_create_partial.
Theorem C47_crash_refuted : forall w o t got sv ad, rbuf_ok w -> ci_assembly o < 256 -> ci_assembly t < 256 ->
  reply_of (w_ctl w) (open_request (w_se w) o t) = Reply got -> answers (se_id (w_se w)) got sv 0 ad [] ->
  exists w', createConnection o t w = (Undef NullDeref, w').
Proof. exact create_empty_crashes. Qed.
Print Assumptions C47_crash_refuted.
Example C47_example : let w := w9 [RxData (fo_reply 7)] [] in
  rbuf_ok w /\ exists w' c, createConnection ci0 ci0 w = (Ret 0, w') /\ se_conns (w_se w') = [c] /\ cn_sn c = 7 /\ cn_o2t_id c = 107 /\ cn_t2o_api c = 2000.
Proof. split; [apply rbuf_w9|]. do 2 eexists. split; [vm_compute; reflexivity|]. repeat split. Qed.
Example C47_crash_example : let w := w9 [RxData (explicit_reply 9 0xDB 0 [])] [] in
  rbuf_ok w /\ reply_of (w_ctl w) (open_request (w_se w) ci0 ci0) = Reply (explicit_reply 9 0xDB 0 []) /\
  answers (se_id (w_se w)) (explicit_reply 9 0xDB 0 [] ++ []) 0xDB 0 [] [].
Proof. split; [apply rbuf_w9|]. split; [vm_compute; reflexivity|]. apply answers_reply; try reflexivity; discriminate. Qed.

(** ** C48 Connection serial numbers are unique *)
Theorem C48_serial_numbers : forall ops w rs w', fits 2 (se_next_sn (w_se w)) -> fits 4 (se_next_id (w_se w)) -> se_conns (w_se w) = [] ->
  exec ops w = (rs, w') -> len (attempts ops w) <= 65536 ->
  NoDup (map cn_sn (se_conns (w_se w'))) /\
  NoDup (map se_next_sn (attempts ops w)) /\
  NoDup (flat_map (fun s => [se_next_id s; (se_next_id s + 1) mod 2 ^ 32]) (attempts ops w)).
Proof. exact serial_numbers. Qed.
Print Assumptions C48_serial_numbers.
Example C48_example : let w := w9 [RxData (fo_reply 7); RxData (fo_reply 8); RxData (fc_reply 7)] [] in
  fits 2 (se_next_sn (w_se w)) /\ fits 4 (se_next_id (w_se w)) /\ se_conns (w_se w) = [] /\
  map se_next_sn (attempts shift_ops w) = [7; 8].
Proof. repeat split; vm_compute; reflexivity. Qed.

(** ** C49 Closing a connection: holds except for crashing replies and bad numbers *)
Theorem C49_close_partial : forall w n c, rbuf_ok w -> nth_error (se_conns (w_se w)) (N.to_nat n) = Some c ->
  cn_tick_size c < 256 -> cn_ticks c < 256 ->
  exists res w', closeConnection n w = (res, w') /\ exchanged_se w (close_request (w_se w) c) w' /\ drop_conn_outcome w n c res w'.
Proof. exact close_connection. Qed.
Print Assumptions C49_close_partial.
(** A number that designates no connection is used unchecked. *)
Theorem C49_number_refuted : forall w n, nth_error (se_conns (w_se w)) (N.to_nat n) = None ->
  closeConnection n w = (Undef VecOutOfBounds, w).
Proof. exact close_connection_bad. Qed.
Print Assumptions C49_number_refuted.
Example C49_example : let w := set_se (set_conns [cn_make 0x195 0x4321 7 2 3 ci0 ci0] (w_se (w9 [] []))) (w9 [RxData (fc_reply 7)] []) in
  rbuf_ok w /\ exists w', closeConnection 0 w = (Ret tt, w') /\ se_conns (w_se w') = [].
Proof. split; [exact (rbuf_w9 [RxData (fc_reply 7)] [])|]. eexists. split; vm_compute; reflexivity. Qed.

(** ** C50 Connection numbers stay valid: violated when an earlier one is closed *)
(** After closing number 0, the connection created as number 1 is number 0 and number 1
    is out of bounds. *)
Theorem C50_shift_refuted : exists ops w rs w' c, session_ok w /\ exec ops w = (rs, w') /\
  rs = [Ret (RNumber 0); Ret (RNumber 1); Ret RUnit] /\ In c (se_conns (w_se w')) /\ cn_sn c = 8 /\
  nth_error (se_conns (w_se w')) 1 = None /\ nth_error (se_conns (w_se w')) 0 = Some c /\
  exists w2, step (OpCloseConnection 1) w' = (Undef VecOutOfBounds, w2).
Proof. exact numbers_shift. Qed.
Print Assumptions C50_shift_refuted.
(** With three, closing the first two by the numbers returned leaves the second open. *)
Theorem C50_wrong_connection_refuted : exists ops w rs w' n0 n1 n2, session_ok w /\ exec ops w = (rs, w') /\
  ops = [OpCreate ci0 ci0; OpCreate ci0 ci0; OpCreate ci0 ci0; OpCloseConnection n0; OpCloseConnection n1] /\
  rs = [Ret (RNumber n0); Ret (RNumber n1); Ret (RNumber n2); Ret RUnit; Ret RUnit] /\
  map cn_sn (se_conns (w_se w')) = [8].
Proof. exact wrong_connection_closed. Qed.
Print Assumptions C50_wrong_connection_refuted.
(** A number stays valid in every history that closes only higher numbers. *)
Theorem C50_numbers_partial : forall n c ops w rs w', nth_error (se_conns (w_se w)) n = Some c ->
  Forall (fun o => match o with OpCloseConnection m => (n < N.to_nat m)%nat | _ => True end) ops -> exec ops w = (rs, w') ->
  nth_error (se_conns (w_se w')) n = Some c.
Proof. exact number_kept. Qed.
Print Assumptions C50_numbers_partial.
Example C50_example : exists w1 rs w2 c, exec [OpCreate ci0 ci0] shift_world = ([Ret (RNumber 0)], w1) /\
  nth_error (se_conns (w_se w1)) 0 = Some c /\ exec [OpCreate ci0 ci0; OpCloseConnection 1; OpReceiveIO] w1 = (rs, w2).
Proof. do 4 eexists. split; [vm_compute; reflexivity|]. split; [reflexivity|]. vm_compute. reflexivity. Qed.

(** ** C51 Failed operations leave session state unchanged *)
(** For every operation, with any user objects, in any state. *)
Theorem C51_operation : forall o w r w', step o w = (r, w') ->
  (~ returned r -> se_id (w_se w') = se_id (w_se w) /\ se_conns (w_se w') = se_conns (w_se w)) /\
  (~ is_open_close o -> se_id (w_se w') = se_id (w_se w)) /\
  (~ is_connection_op o -> se_conns (w_se w') = se_conns (w_se w)) /\
  se_vendor (w_se w') = se_vendor (w_se w) /\ se_serial (w_se w') = se_serial (w_se w).
Proof. exact failed_op. Qed.
Print Assumptions C51_operation.
Theorem C51_history : forall ops w rs w', exec ops w = (rs, w') ->
  (Forall (fun r => ~ returned r) rs -> se_id (w_se w') = se_id (w_se w) /\ se_conns (w_se w') = se_conns (w_se w)) /\
  (Forall (fun o => ~ is_open_close o) ops -> se_id (w_se w') = se_id (w_se w)) /\
  (Forall (fun o => ~ is_connection_op o) ops -> se_conns (w_se w') = se_conns (w_se w)).
Proof. exact failed_history. Qed.
Print Assumptions C51_history.
Example C51_example : exists w s1 s2 w', exec [OpGet N (prim_cls 2) 0 1 2 3; OpClose] w = ([Throw RuntimeError s1; Throw SystemError s2], w') /\ se_id (w_se w') = 9.
Proof.
  exists (set_se (w_se (w9 [] [])) (session_make [] (mkSock [] [TxAll; TxFail] [RxData (explicit_reply 9 0x8E 5 [])] []) quiet 1 2 3 4)).
  do 3 eexists. split; [vm_compute; reflexivity|reflexivity].
Qed.

(** ** C52 Every request is one well-formed frame under the current session *)
(** Holds in every history whose attribute data fits a frame. *)
Theorem C52_frames_partial : forall u ops w, session_ok w -> user_memory u w -> Forall (op_ok u) ops ->
  Forall (fun x => match x with (o, w1, r, w2) => one_frame u o w1 w2 end) (calls ops w).
Proof. exact history_frames. Qed.
Print Assumptions C52_frames_partial.
(** [calls] is the whole history: its results are those of [exec], the first call starts
    in the initial world, each call starts where the previous one ended, and the last
    one ends in the final world. *)
Theorem C52_calls_partial : forall ops w rs w', exec ops w = (rs, w') ->
  map (fun x => match x with (o, w1, r, w2) => r end) (calls ops w) = rs /\
  match calls ops w with [] => w' = w | (o, w1, r, w2) :: _ => w1 = w end /\
  (forall a o1 w1 r1 w2 o2 w3 r2 w4 b, calls ops w = a ++ (o1, w1, r1, w2) :: (o2, w3, r2, w4) :: b -> w3 = w2) /\
  (forall a o1 w1 r1 w2, calls ops w = a ++ [(o1, w1, r1, w2)] -> w' = w2).
Proof. exact (fun ops w rs w' E => conj (calls_exec ops w rs w' E) (calls_chain ops w rs w' E)). Qed.
Print Assumptions C52_calls_partial.
(** A new session satisfies the hypotheses. *)
Theorem C52_initial_partial : forall m a b v s n c,
  session_ok (session_make m a b v s n c) /\ user_memory m (session_make m a b v s n c).
Proof. exact (fun m a b v s n c => conj (session_ok_make m a b v s n c) (user_memory_make m a b v s n c)). Qed.
Print Assumptions C52_initial_partial.
(** Larger data is sent as a shorter frame followed by stray bytes. *)
Theorem C52_oversize_refuted : forall w c i a d data, rbuf_ok w -> fits 4 (se_id (w_se w)) -> c < 256 -> i < 256 -> a < 256 ->
  carries_opt (w_mem w) d data -> 65512 <= len data -> sent (w_ctl w) [] <> None ->
  exists o w' n short rest tail, setSingleAttributeSerializable c i a d w = (o, w') /\
    w_net w' = w_net w ++ ESend Ctl (frame 0x6F (se_id (w_se w)) 0 0 0 0 short ++ rest) (Some n) :: tail /\
    frame_fits 0x6F (se_id (w_se w)) 0 0 0 0 short /\ rest <> [].
Proof. exact set_oversize. Qed.
Print Assumptions C52_oversize_refuted.
Example C52_example : let ops := [OpOpen "h" "p" "q"; OpSet 1 2 3 (Some (prim_ser 2 7)); OpGet N (prim_cls 4) 0 1 2 3; OpCreate ci0 ci0; OpCloseConnection 0; OpClose] in
  Forall (op_ok []) ops /\
  len (calls ops (w0 [RxData (registered 9); RxData (explicit_reply 9 0x90 0 []); RxData (explicit_reply 9 0x8E 0 [x01;x02;x03;x04])])) = 4.
Proof.
  split; [|vm_compute; reflexivity].
  constructor; [exact I|]. constructor; [split; [reflexivity|]; split; [reflexivity|]; split; [reflexivity|]; exists (le 2 7); split; [apply carries_prim|reflexivity]|].
  constructor; [split; [reflexivity|]; split; [reflexivity|]; split; [reflexivity|]; right; apply keeps_all|].
  constructor; [split; reflexivity|]. constructor; [exact I|]. constructor; [exact I|constructor].
Qed.
