(** * PropsNet: the concrete sockets: C60 and C61 continued, C63 continued, C88-C90. *)
From Verif Require Import PNet.
Local Open Scope N_scope.

(** ** C60, continued: a datagram goes out whole or the send raises *)
Theorem C60_datagram_partial : forall i h u bs, udp_at h i u ->
  (us_fd u = FClosed -> exists s, udp_send i bs h = (Throw SystemError s, h)) /\
  (us_fd u <> FClosed -> 65507 < len bs -> exists s, udp_send i bs h = (Throw SystemError s, h)) /\
  (us_fd u <> FClosed -> len bs <= 65507 -> exists h' u', udp_send i bs h = (Ret (len bs), h') /\ ho_sent h' = ho_sent h ++ [(i, us_remote u, bs)] /\
     udp_at h' i u' /\ us_fd u' <> FClosed /\ us_remote u' = us_remote u /\ us_local u' = us_local u).
Proof. exact send_exact. Qed.
Print Assumptions C60_datagram_partial.
Example C60_datagram_example :
  let h := mkHost [mkUdp (FBound (mkEnd 0 2222)) (mkEnd 0 2222) (mkEnd 7 44818)] [] [] in
  udp_at h 0 (mkUdp (FBound (mkEnd 0 2222)) (mkEnd 0 2222) (mkEnd 7 44818)) /\
  udp_send 0 (bl [1;2]) h = (Ret 2, mkHost (ho_udp h) [] [(0%nat, mkEnd 7 44818, bl [1;2])]).
Proof. split; reflexivity. Qed.

(** ** C61, continued: the hypothesis on the I/O socket holds for UDPSocket *)
(** C61_retry_refuted assumes [udp_possible] of the socket; every history of a UDPSocket,
    among any other sockets, has it. *)
Theorem C61_socket_partial : forall cs h i u, udp_at h i u -> us_fd u = FClosed -> udp_possible false (udp_events i cs (fst (do_calls cs h))).
Proof. exact possible_new. Qed.
Print Assumptions C61_socket_partial.
Example C61_socket_example : let h := mkHost [us_make 0 2222; us_make 0 0] [] [] in
  let e := mkEnv (fun _ _ => [mkEnd 7 2222]) [] (fun _ => true) in
  let cs := [(e, UOpen 1 "x" "1"); (e, UOpen 0 "x" "1"); (e, UOpen 0 "y" "1"); (e, UClose 0); (e, UOpen 0 "x" "1")]%string in
  udp_at h 0 (us_make 0 2222) /\
  udp_events 0 cs (fst (do_calls cs h)) = [EOpen Io "x" "1" true; EOpen Io "y" "1" false; EClose Io true; EOpen Io "x" "1" true]%string.
Proof. split; reflexivity. Qed.

(** ** C63, continued: any interleaving of the five calls *)
Theorem C63_history_partial : forall cs junk rx, len junk = 4096 ->
  let ds := fst (ts_run cs (ts_make junk rx)) in let t := snd (ts_run cs (ts_make junk rx)) in
  rx = List.concat ds ++ ts_rx t /\ ts_rx_count t = len (List.concat ds) /\
  Forall2 (fun c d => len d <= asked c /\ (len d < asked c -> ts_rx t = [])) cs ds /\
  ts_tx_count t = N.min 4096 (len (sent_since [] cs)) /\ take (ts_tx_count t) (ts_tx t) = take 4096 (sent_since [] cs) /\
  (ts_open t, (ts_host t, ts_port t)) = last_opened false (EmptyString, EmptyString) cs.
Proof. exact ts_history. Qed.
Print Assumptions C63_history_partial.
Example C63_history_example :
  let cs := [TsOpen "h" "1"; TsSend (bl [1;2]); TsReceive 2; TsClear; TsSend (bl [3]); TsOpen "g" "2"; TsSend (bl [4]); TsReceive 9]%string in
  len (zeros 4096) = 4096 /\ sent_since [] cs = bl [3;4] /\ last_opened false (EmptyString, EmptyString) cs = (true, ("g", "2")%string) /\
  fst (ts_run cs (ts_make (zeros 4096) (bl [7;8;9]))) = [[]; []; bl [7;8]; []; []; []; []; bl [9]].
Proof. split; [reflexivity|]. split; [reflexivity|]. split; [reflexivity|]. vm_compute. reflexivity. Qed.

(** ** C88: A failed UDP open leaves the socket as it was *)
(** What open does: only the name failing to resolve leaves the socket alone. *)
Theorem C88_open_exact_partial : forall e n p i h u, udp_at h i u ->
  match en_resolve e n p with
  | [] => exists s, udp_open e n p i h = (Throw SystemError s, h)
  | r :: _ =>
      (us_fd u = FClosed -> ~ owned e h i (us_local u) ->
         exists h', udp_open e n p i h = (Ret tt, h') /\ only_udp h h' i (mkUdp (FBound (us_local u)) (us_local u) r)) /\
      (us_fd u = FClosed -> owned e h i (us_local u) ->
         exists s h', udp_open e n p i h = (Throw SystemError s, h') /\ only_udp h h' i (mkUdp FOpen (us_local u) r)) /\
      (us_fd u <> FClosed ->
         exists s h', udp_open e n p i h = (Throw SystemError s, h') /\ only_udp h h' i (mkUdp (us_fd u) (us_local u) r))
  end.
Proof. exact open_exact. Qed.
Print Assumptions C88_open_exact_partial.
(** A second open raises, and from then on the open socket sends to the second host. *)
Theorem C88_redirect_refuted : forall e n p i h u r rs bs, udp_at h i u -> us_fd u <> FClosed -> en_resolve e n p = r :: rs -> len bs <= 65507 ->
  exists s h1 h2, udp_open e n p i h = (Throw SystemError s, h1) /\ udp_send i bs h1 = (Ret (len bs), h2) /\ ho_sent h2 = ho_sent h ++ [(i, r, bs)].
Proof. exact open_redirects. Qed.
Print Assumptions C88_redirect_refuted.
(** When the port is taken, the socket stays open: whatever happens to the port, the socket
    cannot be opened before it is closed. *)
Theorem C88_stuck_refuted : forall e n p i h u r rs, udp_at h i u -> us_fd u = FClosed -> en_resolve e n p = r :: rs -> owned e h i (us_local u) ->
  exists s h1, udp_open e n p i h = (Throw SystemError s, h1) /\
    forall cs, Forall (fun x => not_closed i (snd x)) cs -> forall k e' n' p' o, nth_error cs k = Some (e', UOpen i n' p') ->
    nth_error (fst (do_calls cs h1)) k = Some o -> exists s', o = Throw SystemError s'.
Proof. exact bind_failure. Qed.
Print Assumptions C88_stuck_refuted.
(** The port is taken by socket 1; it is closed, and still socket 0 cannot be opened. *)
Example C88_example : let h := mkHost [us_make 0 2222; mkUdp (FBound (mkEnd 0 2222)) (mkEnd 0 2222) (mkEnd 7 1)] [] [] in
  let e := mkEnv (fun _ _ => [mkEnd 9 2222]) [] (fun _ => true) in
  udp_at h 0 (us_make 0 2222) /\ owned e h 0 (mkEnd 0 2222) /\ udp_at h 1 (mkUdp (FBound (mkEnd 0 2222)) (mkEnd 0 2222) (mkEnd 7 1)) /\
  fst (do_calls [(e, UOpen 0 "x" "1"); (e, UClose 1); (e, UOpen 0 "x" "1"); (e, UClose 0); (e, UOpen 0 "x" "1")]%string h) =
    [Throw SystemError "Address already in use"; Ret 0; Throw SystemError "Already open"; Ret 0; Ret 0]%string.
Proof.
  split; [reflexivity|]. split; [|split; reflexivity]. right. exists 1%nat, (mkUdp (FBound (mkEnd 0 2222)) (mkEnd 0 2222) (mkEnd 7 1)), (mkEnd 0 2222).
  split; [discriminate|]. split; [reflexivity|]. split; [reflexivity|]. split; [reflexivity|]. split; [discriminate|left; reflexivity].
Qed.

(** ** C89: A UDP port has one owner *)
(** In every history, of any number of sockets. *)
Theorem C89_one_owner : forall cs h, ports_apart h -> ports_apart (snd (do_calls cs h)).
Proof. exact apart_calls. Qed.
Print Assumptions C89_one_owner.
Theorem C89_fresh : forall h, (forall u, In u (ho_udp h) -> us_fd u = FClosed) -> ports_apart h.
Proof. exact apart_new. Qed.
Print Assumptions C89_fresh.
(** So a second scanner on the I/O port is refused. *)
Theorem C89_refused : forall e n p h i j u v a, udp_at h i u -> udp_at h j v -> i <> j -> us_fd v = FBound a -> same_port (us_local u) a ->
  exists s h', udp_open e n p i h = (Throw SystemError s, h').
Proof. exact port_refused. Qed.
Print Assumptions C89_refused.
Example C89_example : let h := mkHost [us_make 0 2222; us_make 5 2222; us_make 6 2222] [] [] in
  let e := mkEnv (fun _ _ => [mkEnd 9 2222]) [] (fun _ => true) in
  let cs := [(e, UOpen 1 "x" "1"); (e, UOpen 2 "x" "1"); (e, UOpen 0 "x" "1")]%string in
  (forall u, In u (ho_udp h) -> us_fd u = FClosed) /\
  fst (do_calls cs h) = [Ret 0; Ret 0; Throw SystemError "Address already in use"]%string /\
  same_port (mkEnd 0 2222) (mkEnd 5 2222) /\ udp_at (snd (do_calls cs h)) 1 (mkUdp (FBound (mkEnd 5 2222)) (mkEnd 5 2222) (mkEnd 9 2222)).
Proof.
  split; [intros u [<-|[<-|[<-|[]]]]; reflexivity|]. split; [reflexivity|]. split; [|reflexivity]. split; [reflexivity|]. split; [discriminate|right; left; reflexivity].
Qed.

(** ** C90: TCP open connects to the first address that accepts *)
Theorem C90_first_partial : forall e n p i h t, tcp_at h i t ->
  (exists r h', first_accepting e (en_resolve e n p) r /\ tcp_open e n p i h = (Ret tt, h') /\ only_tcp h h' i (TConnected r)) \/
  ((forall x, In x (en_resolve e n p) -> en_accepts e x = false) /\
   exists s h', tcp_open e n p i h = (Throw SystemError s, h') /\
     ((en_resolve e n p = [] /\ h' = h) \/ (en_resolve e n p <> [] /\ only_tcp h h' i TOpen))).
Proof. exact tcp_exact. Qed.
Print Assumptions C90_first_partial.
(** A failed open ends the connection there was. *)
Theorem C90_lost_refuted : forall e n p i h old, tcp_at h i (TConnected old) -> en_resolve e n p <> [] -> (forall x, In x (en_resolve e n p) -> en_accepts e x = false) ->
  exists s h', tcp_open e n p i h = (Throw SystemError s, h') /\ tcp_at h' i TOpen.
Proof. exact tcp_lost. Qed.
Print Assumptions C90_lost_refuted.
Example C90_example : let h := mkHost [] [TConnected (mkEnd 1 44818)] [] in
  let e := mkEnv (fun n _ => if String.eqb n "a" then [mkEnd 2 1; mkEnd 3 1; mkEnd 4 1] else [mkEnd 2 1])%string [] (fun r => 2 <? e_addr r) in
  first_accepting e (en_resolve e "a" "1")%string (mkEnd 3 1) /\
  tcp_open e "a" "1" 0 h = (Ret tt, mkHost [] [TConnected (mkEnd 3 1)] []) /\
  (forall x, In x (en_resolve e "b" "1")%string -> en_accepts e x = false) /\ tcp_at h 0 (TConnected (mkEnd 1 44818)) /\ en_resolve e "b" "1" <> [].
Proof.
  split; [exists [mkEnd 2 1], [mkEnd 4 1]; split; [reflexivity|]; split; [intros x [<-|[]]; reflexivity|reflexivity]|]. split; [reflexivity|].
  split; [intros x [<-|[]]; reflexivity|]. split; [reflexivity|discriminate].
Qed.
