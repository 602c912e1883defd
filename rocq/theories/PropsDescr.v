(** * PropsDescr: C135, descriptors. *)
From Verif Require Import PDescr.
Local Open Scope N_scope.

(** ** C135 *)
(** The number of sockets that are not closed exists and is one number: the statements below, which
    speak of [holding], speak of it. *)
Theorem C135_count_partial : forall h, exists n, holding h n /\ forall n', holding h n' -> n' = n.
Proof. exact (fun h => ex_intro _ (n_held h) (conj (holding_is h) (fun n' H => proj1 (holding_iff h n') H))). Qed.
Print Assumptions C135_count_partial.
Example C135_count_example : holding (mkHost [us_make 0 2222; mkUdp FOpen (mkEnd 0 1) (mkEnd 0 0)] [TOpen; TClosed; TConnected (mkEnd 1 1)] []) 3.
Proof. apply holding_iff. reflexivity. Qed.

(** No call makes the sockets hold more than the limit at its moment, unless they did before; with
    one limit for a whole history it is kept throughout. *)
Theorem C135_limit_partial : forall l e c h o h' n, holding h n -> do_call_l l e c h = (o, h') -> exists n', holding h' n' /\ n' <= N.max n l.
Proof. exact one_limit. Qed.
Print Assumptions C135_limit_partial.
Theorem C135_limits_partial : forall l cs h os h' n, holding h n -> n <= l -> Forall (fun x => fst (fst x) <= l) cs -> do_calls_l cs h = (os, h') ->
  exists n', holding h' n' /\ n' <= l.
Proof. exact all_limit. Qed.
Print Assumptions C135_limits_partial.
Example C135_limits_example :
  let h := mkHost [us_make 0 2222; us_make 0 0] [TClosed] [] in
  let e := mkEnv (fun _ _ => [mkEnd 7 2222]) [] (fun _ => true) in
  let cs := [(2, e, UOpen 0 "x" "1"); (2, e, TOpenC 0 "x" "1"); (2, e, UOpen 1 "x" "1"); (2, e, UClose 0); (2, e, UOpen 1 "x" "1")]%string in
  holding h 0 /\ Forall (fun x => fst (fst x) <= 2) cs /\
  fst (do_calls_l cs h) = [Ret 0; Ret 0; Throw SystemError "Too many open files"; Ret 0; Ret 0]%string /\ holding (snd (do_calls_l cs h)) 2.
Proof. split; [apply holding_iff; reflexivity|]. split; [repeat constructor; discriminate|]. split; [reflexivity|apply holding_iff; reflexivity]. Qed.

(** A socket that holds a descriptor was asked to open, and not to close since: nothing else takes
    one, whatever the calls, their outcomes and the limits. *)
Theorem C135_kept_partial : forall cs h os h', all_closed h -> do_calls_l cs h = (os, h') ->
  (forall i, udp_live h' i -> udp_asked (made cs os) i) /\ (forall i, tcp_live h' i -> tcp_asked (made cs os) i).
Proof. exact runs_kept. Qed.
Print Assumptions C135_kept_partial.
Example C135_kept_example :
  let h := mkHost [us_make 0 2222; us_make 0 0] [TClosed] [] in
  let e := mkEnv (fun _ _ => [mkEnd 7 2222]) [] (fun _ => true) in
  let cs := [(2, e, UOpen 1 "x" "1"); (2, e, TOpenC 0 "x" "1"); (1, e, UClose 1)]%string in
  all_closed h /\ tcp_live (snd (do_calls_l cs h)) 0 /\ tcp_asked (made cs (fst (do_calls_l cs h))) 0 /\ ~ udp_live (snd (do_calls_l cs h)) 1.
Proof.
  split; [split; intros i (x & H & K); [destruct i as [|[|[|i]]]|destruct i as [|[|i]]]; try discriminate H; injection H as <-; apply K; reflexivity|].
  split; [eexists; split; [reflexivity|discriminate]|]. split.
  - exists [UOpen 1 "x" "1"]%string, "x"%string, "1"%string, [UClose 1]. split; [reflexivity|]. intros [Q|[]]. discriminate Q.
  - intros (x & H & K). injection H as <-. apply K. reflexivity.
Qed.

(** Closing a socket gives its descriptor back. *)
Theorem C135_close_partial : forall h i n, holding h n ->
  (udp_live h i -> exists h', udp_close i h = (Ret tt, h') /\ ~ udp_live h' i /\ holding h' (n - 1) /\ n <> 0) /\
  (tcp_live h i -> exists h', tcp_close i h = (Ret tt, h') /\ ~ tcp_live h' i /\ holding h' (n - 1) /\ n <> 0).
Proof. exact closed_back. Qed.
Print Assumptions C135_close_partial.
Example C135_close_example : let h := mkHost [mkUdp FOpen (mkEnd 0 1) (mkEnd 0 0)] [TOpen] [] in holding h 2 /\ udp_live h 0 /\ tcp_live h 0.
Proof. split; [apply holding_iff; reflexivity|]. split; eexists; (split; [reflexivity|discriminate]). Qed.

(** With no descriptor left, an open of a closed socket raises and takes none: a UDP socket keeps
    its state but for the address it sends to, a TCP socket and all the rest are as before. *)
Theorem C135_none_left_partial : forall l e name port i h n, holding h n -> l <= n ->
  (forall u r rs, udp_at h i u -> us_fd u = FClosed -> en_resolve e name port = r :: rs ->
     exists s h', udp_open_l l e name port i h = (Throw SystemError s, h') /\ only_udp h h' i (mkUdp FClosed (us_local u) r) /\ holding h' n) /\
  (tcp_at h i TClosed -> exists s, tcp_open_l l e name port i h = (Throw SystemError s, h)).
Proof. exact none_left. Qed.
Print Assumptions C135_none_left_partial.
Example C135_none_left_example : let h := mkHost [us_make 0 2222; mkUdp FOpen (mkEnd 0 1) (mkEnd 0 0)] [TClosed] [] in
  let e := mkEnv (fun _ _ => [mkEnd 7 2222]) [] (fun _ => true) in
  holding h 1 /\ udp_at h 0 (us_make 0 2222) /\ tcp_at h 0 TClosed /\
  udp_open_l 1 e "x" "1" 0 h = (Throw SystemError "Too many open files", mkHost [mkUdp FClosed (mkEnd 0 2222) (mkEnd 7 2222); mkUdp FOpen (mkEnd 0 1) (mkEnd 0 0)] [TClosed] [])%string /\
  tcp_open_l 1 e "x" "1" 0 h = (Throw SystemError "Too many open files", h)%string.
Proof. split; [apply holding_iff; reflexivity|]. repeat split; reflexivity. Qed.

(** With a descriptor left, and for a socket that has one already, an open is what it is without
    limit, whatever failed before: C88-C90 hold of it. *)
Theorem C135_enough_partial : forall l e name port i h n, holding h n ->
  (forall u, udp_at h i u -> n < l \/ us_fd u <> FClosed -> udp_open_l l e name port i h = udp_open e name port i h) /\
  (forall t, tcp_at h i t -> n < l \/ (t <> TClosed /\ n = l) -> tcp_open_l l e name port i h = tcp_open e name port i h).
Proof. exact enough. Qed.
Print Assumptions C135_enough_partial.
Example C135_enough_example : let h := mkHost [mkUdp FClosed (mkEnd 0 2222) (mkEnd 7 2222)] [TOpen] [] in
  let e := mkEnv (fun _ _ => [mkEnd 8 2222]) [] (fun _ => true) in
  holding h 1 /\ udp_open_l 2 e "x" "1" 0 h = (Ret tt, mkHost [mkUdp (FBound (mkEnd 0 2222)) (mkEnd 0 2222) (mkEnd 8 2222)] [TOpen] [])%string /\
  tcp_open_l 1 e "x" "1" 0 h = (Ret tt, mkHost (ho_udp h) [TConnected (mkEnd 8 2222)] [])%string.
Proof. split; [apply holding_iff; reflexivity|]. split; reflexivity. Qed.

(** Refuted: an open that fails gives back what it took.  The two opens of Session::open
    (session.cpp:83-84), both sockets closed before and the device reachable.  With one descriptor
    left the TCP socket takes it, the UDP socket cannot be opened, the call raises, and the
    connection stays: no socket of the process can be opened any more.  With the port taken, both
    descriptors stay. *)
Theorem C135_give_back_refuted : forall l e name p io i j h u n r r0 rs, holding h n -> tcp_at h i TClosed -> udp_at h j u -> us_fd u = FClosed ->
  first_accepting e (en_resolve e name p) r -> en_resolve e name io = r0 :: rs ->
  (l <= n -> exists s, session_opens l e name p io i j h = (Throw SystemError s, h)) /\
  (n + 1 = l -> exists s h', session_opens l e name p io i j h = (Throw SystemError s, h') /\ tcp_at h' i (TConnected r) /\ holding h' l) /\
  (n + 1 < l -> owned e h j (us_local u) -> exists s h', session_opens l e name p io i j h = (Throw SystemError s, h') /\ tcp_at h' i (TConnected r) /\ udp_live h' j /\ holding h' (n + 2)) /\
  (n + 1 < l -> ~ owned e h j (us_local u) -> exists h', session_opens l e name p io i j h = (Ret tt, h') /\ tcp_at h' i (TConnected r) /\ udp_live h' j /\ holding h' (n + 2)).
Proof. exact session_left. Qed.
Print Assumptions C135_give_back_refuted.
Example C135_give_back_example : let h := mkHost [us_make 0 2222] [TClosed] [] in
  let e := mkEnv (fun _ _ => [mkEnd 7 2222]) [mkEnd 0 2222] (fun _ => true) in
  holding h 0 /\ first_accepting e (en_resolve e "x" "1")%string (mkEnd 7 2222) /\ owned e h 0 (mkEnd 0 2222) /\
  session_opens 1 e "x" "1" "2" 0 0 h = (Throw SystemError "Too many open files", mkHost [mkUdp FClosed (mkEnd 0 2222) (mkEnd 7 2222)] [TConnected (mkEnd 7 2222)] [])%string /\
  session_opens 2 e "x" "1" "2" 0 0 h = (Throw SystemError "Address already in use", mkHost [mkUdp FOpen (mkEnd 0 2222) (mkEnd 7 2222)] [TConnected (mkEnd 7 2222)] [])%string.
Proof.
  split; [apply holding_iff; reflexivity|]. split; [exists [], []; split; [reflexivity|split; [intros x []|reflexivity]]|].
  split; [left; exists (mkEnd 0 2222); split; [left; reflexivity|split; [reflexivity|split; [discriminate|left; reflexivity]]]|]. split; reflexivity.
Qed.

(** Opening again.  After a failure for lack of a descriptor (connected, UDP socket closed) the call
    works as soon as there is one, and takes only that one. *)
Theorem C135_again_partial : forall l e name p io i j h t u n r r0 rs, holding h n -> tcp_at h i t -> t <> TClosed -> udp_at h j u -> us_fd u = FClosed ->
  first_accepting e (en_resolve e name p) r -> en_resolve e name io = r0 :: rs -> n < l -> ~ owned e h j (us_local u) ->
  exists h', session_opens l e name p io i j h = (Ret tt, h') /\ tcp_at h' i (TConnected r) /\ udp_at h' j (mkUdp (FBound (us_local u)) (us_local u) r0) /\ holding h' (n + 1).
Proof. exact session_again. Qed.
Print Assumptions C135_again_partial.
(** After a failure because the port was taken the UDP socket is open, and the call raises for ever,
    whatever the limit, the resolver, the device and the ports of others are by then. *)
Theorem C135_again_refuted : forall l e name p io i j h t u, tcp_at h i t -> udp_at h j u -> us_fd u <> FClosed ->
  exists s h' u', session_opens l e name p io i j h = (Throw SystemError s, h') /\ udp_at h' j u' /\ us_fd u' <> FClosed.
Proof. exact session_stuck. Qed.
Print Assumptions C135_again_refuted.
Example C135_again_example : let h := mkHost [us_make 0 2222] [TClosed] [] in
  let e := mkEnv (fun _ _ => [mkEnd 7 2222]) [] (fun _ => true) in let taken := mkEnv (fun _ _ => [mkEnd 7 2222]) [mkEnd 0 2222] (fun _ => true) in
  let after l e := snd (session_opens l e "x" "1" "2" 0 0 h)%string in
  holding (after 1 e) 1 /\ session_opens 2 e "x" "1" "2" 0 0 (after 1 e) = (Ret tt, mkHost [mkUdp (FBound (mkEnd 0 2222)) (mkEnd 0 2222) (mkEnd 7 2222)] [TConnected (mkEnd 7 2222)] [])%string /\
  fst (session_opens 9 e "x" "1" "2" 0 0 (after 2 taken)) = Throw SystemError "Already open"%string.
Proof. split; [apply holding_iff; reflexivity|]. split; reflexivity. Qed.
