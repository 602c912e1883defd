(** * PropsPlant: sessions with several targets in one process, C117. *)
From Verif Require Import PPlant Vocab23 PTarget PWhole.
Local Open Scope N_scope.

(** C117, violated. Two sessions whose UDP sockets are the same, or have local endpoints with
    the same port, cannot be open at the same time: from the return of one open to a close of
    the first session, every open of the second one throws boost::system::system_error. *)
Theorem C117_one_session_refuted : forall h ks l h' ks' l1 i n p q v l2 j n2 p2 q2 r l3 k k2 u u2, Forall (post_ok h) ks -> working h ks l h' ks' ->
  l = l1 ++ (i, OpOpen n p q, Ret v) :: l2 ++ (j, OpOpen n2 p2 q2, r) :: l3 -> nth_error ks i = Some k -> nth_error ks j = Some k2 ->
  udp_at h (po_udp k) u -> udp_at h (po_udp k2) u2 -> po_udp k = po_udp k2 \/ same_port (us_local u) (us_local u2) ->
  Forall (fun c => ~ closes_udp ks (po_udp k) c) l2 -> exists s, r = Throw SystemError s.
Proof. exact one_port. Qed.
Print Assumptions C117_one_session_refuted.

Example C117_second_session : exists w1 w2 s h' ks', Forall (post_ok one_udp) [sits 0 w1; sits 1 w2] /\
  working one_udp [sits 0 w1; sits 1 w2] [(0%nat, open_of "a", Ret RUnit); (1%nat, open_of "b", Throw SystemError s)] h' ks'.
Proof. exact second_session. Qed.

(** C117, violated. An open to another host in the middle of a session fails, but keeps the
    session handle and takes away its target: the TCP socket is then connected to the other
    host, or, unless the name has no address, to nobody. *)
Theorem C117_moved_refuted : forall h ks i n p q v h1 ks1 n2 p2 q2 r h2 ks2 k1, Forall (post_ok h) ks -> working h ks [(i, OpOpen n p q, Ret v)] h1 ks1 ->
  working h1 ks1 [(i, OpOpen n2 p2 q2, r)] h2 ks2 -> nth_error ks1 i = Some k1 ->
  exists s w2, r = Throw SystemError s /\ nth_error ks2 i = Some (with_world w2 k1) /\ w_se w2 = w_se (po_world k1) /\
   ((exists e x, first_accepting e (en_resolve e n2 p2) x /\ tcp_at h2 (po_tcp k1) (TConnected x)) \/
    (exists e, (forall x, In x (en_resolve e n2 p2) -> en_accepts e x = false) /\ (en_resolve e n2 p2 <> [] -> tcp_at h2 (po_tcp k1) TOpen))).
Proof. exact left_target. Qed.
Print Assumptions C117_moved_refuted.

(** C117, violated. The next request goes to the other host, with the handle of the first. *)
Theorem C117_redirected_refuted : exists w w1 w2 w3 s h1 h2 r es, post_ok one_udp (sits 0 w) /\
  working one_udp [sits 0 w] [(0%nat, open_of "a", Ret RUnit)] h1 [sits 0 w1] /\ tcp_at h1 0 (TConnected (mkEnd 1 44818)) /\ se_id (w_se w1) = 9 /\
  working h1 [sits 0 w1] [(0%nat, open_of "b", Throw SystemError s)] h2 [sits 0 w2] /\ tcp_at h2 0 (TConnected (mkEnd 2 44818)) /\ se_id (w_se w2) = 9 /\
  step read3 w2 = (r, w3) /\ gained w2 w3 es /\ In (ESend Ctl (get_request 9 1 2 3) (Some (len (get_request 9 1 2 3)))) es /\ working h2 [sits 0 w2] [(0%nat, read3, r)] h2 [sits 0 w3].
Proof. exact redirected. Qed.
Print Assumptions C117_redirected_refuted.

(** C117, what holds. When no two sessions have a socket in common and no two local UDP
    endpoints clash, the calls on each session, with their results and the states they lead
    to, are those of a program that has only this session and only its sockets. *)
Theorem C117_apart_partial : forall h ks l h' ks' i k g, working h ks l h' ks' -> own_sockets_of ks -> own_ports h -> nth_error ks i = Some k -> only_its k h g ->
  exists w' g', nth_error ks' i = Some (with_world w' k) /\ only_its k h' g' /\ working g [at_home k] (its_calls i l) g' [at_home (with_world w' k)].
Proof. intros h ks l h' ks' i k g W. exact (working_alone h ks l h' ks' W i k g). Qed.
Print Assumptions C117_apart_partial.

Example C117_two_sessions : exists w1 w2 h' ks', own_sockets_of [sits 0 w1; sits 1 w2] /\ own_ports two_udp /\
  working two_udp [sits 0 w1; sits 1 w2] [(0%nat, open_of "a", Ret RUnit); (1%nat, open_of "b", Ret RUnit); (0%nat, OpClose, Ret RUnit)] h' ks'.
Proof. exact two_sessions. Qed.

(** C117, what holds. Conversely, whatever a session can do alone it can do among others,
    in any state they have brought themselves into; they are left as they were. *)
Theorem C117_company_partial : forall g l g' k ks0' h ks i, working g [at_home k] l g' ks0' -> own_ports h -> nth_error ks i = Some k -> only_its k h g ->
  exists l2 h' ks' w', working h ks l2 h' ks' /\ its_calls i l2 = l /\ only_its k h' g' /\ nth_error ks' i = Some (with_world w' k) /\ ks0' = [at_home (with_world w' k)] /\
    forall j, j <> i -> nth_error ks' j = nth_error ks j.
Proof. intros g l g' k ks0' h ks i W. exact (working_company g l g' [at_home k] ks0' W h ks i k eq_refl). Qed.
Print Assumptions C117_company_partial.
