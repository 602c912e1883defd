(** * PropsIds: which connection received data belongs to, C120. *)
From Verif Require Import PSession3 PWitness3 Vocab25 PIds.
Local Open Scope N_scope.

(** C120, what holds. If targets grant the T->O ids that are proposed to them, data received
    belongs to at most one of the open connections, as long as no more than 2^31 were asked
    for in the life of the session. *)
Theorem C120_own_ids_partial : forall u ops w rs w', session_ok w -> user_memory u w -> Forall (op_ok u) ops -> fits 4 (se_next_id (w_se w)) -> se_conns (w_se w) = [] ->
  exec ops w = (rs, w') -> len (attempts ops w) <= 2 ^ 31 -> Forall echoes (calls ops w) ->
  forall i j ci cj a, nth_error (se_conns (w_se w')) i = Some ci -> nth_error (se_conns (w_se w')) j = Some cj -> belongs ci a -> belongs cj a -> i = j.
Proof. exact own_ids. Qed.
Print Assumptions C120_own_ids_partial.
Example C120_echoing : let w := w9 [RxData (grant 7 101); RxData (grant 8 103)] [] in
  session_ok w /\ user_memory [] w /\ Forall (op_ok []) two_opens /\ fits 4 (se_next_id (w_se w)) /\ se_conns (w_se w) = [] /\ Forall echoes (calls two_opens w) /\
  exists rs w', exec two_opens w = (rs, w') /\ map cn_t2o_id (se_conns (w_se w')) = [101; 103].
Proof. exact echoing. Qed.

(** The T->O ids proposed are all different, whatever became of the attempts. *)
Theorem C120_fresh_ids_partial : forall ops w rs w', fits 4 (se_next_id (w_se w)) -> se_conns (w_se w) = [] -> fits 2 (se_next_sn (w_se w)) ->
  exec ops w = (rs, w') -> len (attempts ops w) <= 2 ^ 31 ->
  NoDup (map (fun s => (se_next_id s + 1) mod 2 ^ 32) (attempts ops w)).
Proof. exact fresh_ids. Qed.
Print Assumptions C120_fresh_ids_partial.
Example C120_proposed : let w := w9 [RxData (grant 7 101); RxFail; RxData (grant 9 300)] [] in
  map (fun s => (se_next_id s + 1) mod 2 ^ 32) (attempts [OpCreate ci0 ci0; OpCreate ci0 ci0; OpCreate ci0 ci0] w) = [101; 103; 105].
Proof. vm_compute. reflexivity. Qed.

(** C120, violated. A reply that grants the id of a connection that is open is accepted: data
    with that id then belongs to two connections. *)
Theorem C120_given_refuted : forall w a b c got sv ad d o2t oa ta, session_ok w -> ci_assembly a < 256 -> ci_assembly b < 256 -> In c (se_conns (w_se w)) ->
  reply_of (w_ctl w) (open_request (w_se w) a b) = Reply got -> answers (se_id (w_se w)) got sv 0 ad d ->
  opened d o2t (cn_t2o_id c) (se_next_sn (w_se w)) (se_vendor (w_se w)) (se_serial (w_se w)) oa ta ->
  exists w' c', createConnection a b w = (Ret (len (se_conns (w_se w))), w') /\ se_conns (w_se w') = se_conns (w_se w) ++ [c'] /\
    forall address, belongs c address <-> belongs c' address.
Proof. exact given_id. Qed.
Print Assumptions C120_given_refuted.
Example C120_given_case : let w := snd (step (OpCreate ci0 ci0) (w9 [RxData (grant 7 101); RxData (grant 8 101)] [])) in exists c,
  session_ok w /\ In c (se_conns (w_se w)) /\ reply_of (w_ctl w) (open_request (w_se w) ci0 ci0) = Reply (grant 8 (cn_t2o_id c)) /\
  answers (se_id (w_se w)) (grant 8 (cn_t2o_id c)) 0xDB 0 [] (forward_open_reply 500 (cn_t2o_id c) 8 0x195 0x4321 1000 2000 x00 []) /\
  opened (forward_open_reply 500 (cn_t2o_id c) 8 0x195 0x4321 1000 2000 x00 []) 500 (cn_t2o_id c) (se_next_sn (w_se w)) (se_vendor (w_se w)) (se_serial (w_se w)) 1000 2000.
Proof. exact given_case. Qed.

(** From a session without connections to two that share an id. *)
Theorem C120_shared_refuted : exists rs w ci cj a, let w0 := w9 [RxData (grant 7 101); RxData (grant 8 101)] [] in
  session_ok w0 /\ exec two_opens w0 = (rs, w) /\ rs = [Ret (RNumber 0); Ret (RNumber 1)] /\
  se_conns (w_se w) = [ci; cj] /\ cn_sn ci <> cn_sn cj /\ belongs ci a /\ belongs cj a.
Proof. exact given_twice. Qed.
Print Assumptions C120_shared_refuted.
