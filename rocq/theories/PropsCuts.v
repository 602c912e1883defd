(** * Properties C105 - C107: calls abandoned half-way.
    Statements only; the proofs are in PCuts.v, PCuts2.v. *)
From Verif Require Import Spec Vocab Cuts Vocab16 PCuts PCuts2.

(** ** C105 A call abandoned at any point leaves the session in order *)
(** The handle, the originator and the connections are as before the call; making a
    connection has at most used its numbers up, or is complete but for its return. *)
Theorem C105_members : forall k o w w', cut k (op_p o) w = (None, w') -> half_way o w w'.
Proof. exact cut_members. Qed.
Print Assumptions C105_members.
(** The memory is in order after any history of calls, each completed or abandoned anywhere:
    the receive buffer is there, the caller's memory is unchanged, nothing else is lost. *)
Theorem C105_memory : forall u l w rs w', session_ok w -> user_memory u w -> Forall (fun x => call_ok u (snd x)) l -> exec_cut l w = (rs, w') ->
  session_ok w' /\ user_memory u w' /\ mem_kept w w'.
Proof. exact exec_cut_memory. Qed.
Print Assumptions C105_memory.
(** No serial number is sent to the target twice in such a history, and no two
    connections have the same one. *)
Theorem C105_serial_numbers : forall l w rs w', fits 2 (se_next_sn (w_se w)) -> se_conns (w_se w) = [] -> exec_cut l w = (rs, w') ->
  len (filter (fun x => match snd x with OpCreate _ _ => true | _ => false end) l) <= 65536 ->
  NoDup (map cn_sn (se_conns (w_se w'))) /\ NoDup (map se_next_sn (cut_attempts l w)).
Proof. exact cut_serial_numbers. Qed.
Print Assumptions C105_serial_numbers.
Example C105_example : exists w', exec_cut hist hist_world = ([None; Some (Ret (RNumber 0)); None; Some (Ret (RNumber 1))], w') /\
  map cn_sn (se_conns (w_se w')) = [8; 10] /\ map se_next_sn (cut_attempts hist hist_world) = [7; 8; 10] /\
  se_id (w_se w') = 9 /\ session_ok hist_world /\ Forall (fun x => call_ok [] (snd x)) hist.
Proof. exact hist_runs. Qed.

(** ** C106 After an abandoned call the next one gets its own reply: violated *)
(** Where an explicit call can be abandoned: nothing was sent, or its request is out and the
    reply not fetched, or both were done exactly as by a complete call. In the first and the
    last case the socket is as before or after a complete call. Missing: the second case. *)
Theorem C106_point_partial : forall u k o w w', session_ok w -> user_memory u w -> op_ok u o -> explicit o -> cut k (op_p o) w = (None, w') ->
  w_io w' = w_io w /\ (unsent w w' \/ exists bs, request_of u o (w_se w) bs /\ interrupted w bs w').
Proof. exact cut_point. Qed.
Print Assumptions C106_point_partial.
(** Making a connection does not take the reply to an abandoned one for its own. *)
Theorem C106_connection_partial : forall j a b w w1 a' b' n' got rs sv ad d o2t t2o vn os oapi tapi,
  rbuf_ok w1 -> cut j (op_p (OpCreate a b)) w = (None, w1) -> w_net w1 <> w_net w -> ci_assembly a' < 256 -> ci_assembly b' < 256 ->
  so_recv (w_ctl w1) = RxData got :: rs -> answers (se_id (w_se w1)) (take 4096 got) sv 0 ad d -> opened d o2t t2o (se_next_sn (w_se w)) vn os oapi tapi ->
  sent (w_ctl w1) (open_request (w_se w1) a' b') = Some n' ->
  exists m w2, createConnection a' b' w1 = (Throw LogicError m, w2) /\ se_conns (w_se w2) = se_conns (w_se w1).
Proof. exact cut_then_create. Qed.
Print Assumptions C106_connection_partial.
(** Every explicit call can be abandoned so that reading any other attribute afterwards
    returns what the reply to the abandoned call carried, *)
Theorem C106_get_refuted : forall u o w bs n got rs k junk x y z n' sv ad v rest,
  session_ok w -> user_memory u w -> call_ok u o -> explicit o -> request_of u o (w_se w) bs -> sent (w_ctl w) bs = Some n ->
  so_recv (w_ctl w) = RxData got :: rs -> answers (se_id (w_se w)) (take 4096 got) sv 0 ad (le k v ++ rest) -> fits k v -> k <> O ->
  x < 256 -> y < 256 -> z < 256 -> sent (sending (w_ctl w)) (get_request (se_id (w_se w)) x y z) = Some n' ->
  exists j w1 w2, cut j (op_p o) w = (None, w1) /\ getSingleAttribute k junk x y z w1 = (Ret v, w2).
Proof. exact cut_then_get. Qed.
Print Assumptions C106_get_refuted.
(** and setting any attribute succeeds, whatever the target does about it. *)
Theorem C106_set_refuted : forall u o w bs n got rs x y z d data n' sv ad q,
  session_ok w -> user_memory u w -> call_ok u o -> explicit o -> request_of u o (w_se w) bs -> sent (w_ctl w) bs = Some n ->
  so_recv (w_ctl w) = RxData got :: rs -> answers (se_id (w_se w)) (take 4096 got) sv 0 ad q ->
  x < 256 -> y < 256 -> z < 256 -> carries_opt u d data -> sent (sending (w_ctl w)) (set_request (se_id (w_se w)) x y z data) = Some n' ->
  exists j w1 w2, cut j (op_p o) w = (None, w1) /\ setSingleAttributeSerializable x y z d w1 = (Ret tt, w2).
Proof. exact cut_then_set. Qed.
Print Assumptions C106_set_refuted.
(** With a target that serves both requests and has 7 in the second attribute, 513 is read. *)
Example C106_example : exists w1 w2, cut 2 (op_p (OpGet N (prim_cls 2) 0 1 2 3)) w2r = (None, w1) /\ getSingleAttribute 2 0 1 2 4 w1 = (Ret 513, w2) /\
  gained w2r w2 [ESend Ctl (get_request 9 1 2 3) (Some 48); ESend Ctl (get_request 9 1 2 4) (Some 48); ERecv Ctl (Some (explicit_reply 9 0x8E 0 (le 2 513)))] /\
  agrees (w_se w2r) tg2 /\ tg_attr tg2 (1, 2, 4) = Some (le 2 7) /\
  serves tg2 (get_request 9 1 2 3) (explicit_reply 9 0x8E 0 (le 2 513)) tg2 /\ serves tg2 (get_request 9 1 2 4) (explicit_reply 9 0x8E 0 (le 2 7)) tg2.
Proof. exact swapped. Qed.

(** ** C107 Client and target agree after an abandoned call: violated *)
(** Reading or setting an attribute, abandoned anywhere, whether or not the target served
    the request. Missing: connections. *)
Theorem C107_attributes_partial : forall u k o w w' t t', (match o with OpGet _ _ _ _ _ _ | OpSet _ _ _ _ => True | _ => False end) -> op_ok u o ->
  cut k (op_p o) w = (None, w') -> agrees (w_se w) t ->
  (t' = t \/ exists bs got, request_of u o (w_se w) bs /\ serves t bs got t') -> agrees (w_se w') t'.
Proof. exact attributes_agree. Qed.
Print Assumptions C107_attributes_partial.
(** Making a connection: once the target has opened it, no point but the last is one where
    they agree, *)
Theorem C107_create_refuted : forall k a b w w' t got t', cut k (op_p (OpCreate a b)) w = (None, w') -> agrees (w_se w) t -> numbers_ok (w_se w) ->
  serves t (open_request (w_se w) a b) got t' -> tg_conns t' <> tg_conns t ->
  ~ agrees (w_se w') t' \/ exists n, step (OpCreate a b) w = (Ret (RNumber n), w').
Proof. exact create_disagrees. Qed.
Print Assumptions C107_create_refuted.
(** and every call whose request can be sent has such a point. *)
Theorem C107_created_refuted : forall a b w t n, session_ok w -> ci_assembly a < 256 -> ci_assembly b < 256 -> agrees (w_se w) t -> numbers_ok (w_se w) ->
  ~ In (se_next_sn (w_se w), se_vendor (w_se w), se_serial (w_se w)) (tg_conns t) -> sent (w_ctl w) (open_request (w_se w) a b) = Some n ->
  exists j w1 got t', cut j (op_p (OpCreate a b)) w = (None, w1) /\ w_net w1 = w_net w ++ [ESend Ctl (open_request (w_se w) a b) (Some n)] /\
    serves t (open_request (w_se w) a b) got t' /\ ~ agrees (w_se w1) t'.
Proof. exact cut_create_disagrees. Qed.
Print Assumptions C107_created_refuted.
(** Closing one: no point at all once the target has closed it. *)
Theorem C107_close_refuted : forall k j w w' c t got t', cut k (op_p (OpCloseConnection j)) w = (None, w') -> nth_error (se_conns (w_se w)) (N.to_nat j) = Some c ->
  agrees (w_se w) t -> numbers_ok (w_se w) -> serves t (close_request (w_se w) c) got t' -> tg_conns t' <> tg_conns t -> ~ agrees (w_se w') t'.
Proof. exact close_disagrees. Qed.
Print Assumptions C107_close_refuted.
Theorem C107_closed_refuted : forall i c w t n, session_ok w -> nth_error (se_conns (w_se w)) (N.to_nat i) = Some c -> agrees (w_se w) t -> numbers_ok (w_se w) ->
  sent (w_ctl w) (close_request (w_se w) c) = Some n ->
  exists j w1 got t', cut j (op_p (OpCloseConnection i)) w = (None, w1) /\ w_net w1 = w_net w ++ [ESend Ctl (close_request (w_se w) c) (Some n)] /\
    serves t (close_request (w_se w) c) got t' /\ ~ agrees (w_se w1) t'.
Proof. exact cut_close_disagrees. Qed.
Print Assumptions C107_closed_refuted.
Example C107_example : let w := w9 [RxData (fo_reply 7)] [] in
  session_ok w /\ ci_assembly ci0 < 256 /\ agrees (w_se w) tg9 /\ numbers_ok (w_se w) /\
  ~ In (se_next_sn (w_se w), se_vendor (w_se w), se_serial (w_se w)) (tg_conns tg9) /\ sent (w_ctl w) (open_request (w_se w) ci0 ci0) = Some 94 /\
  exists w1 w2, cut 9 (op_p (OpCreate ci0 ci0)) w = (None, w1) /\ step (OpCreate ci0 ci0) w = (Ret (RNumber 0), w2) /\ se_conns (w_se w1) = [] /\
  exists c, nth_error (se_conns (w_se w2)) 0 = Some c /\ sent (w_ctl w2) (close_request (w_se w2) c) = Some 62 /\ agrees (w_se w2) (with_conns [(7, 0x195, 0x4321)] tg9).
Proof. exact cut_target_example. Qed.
