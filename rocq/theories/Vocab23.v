(** * Vocab23: sessions on the sockets of one process, C117.
    Only definitions. *)
From Verif Require Export Vocab11 Vocab22.
Local Open Scope N_scope.

(** A session, the TCP and the UDP socket it was constructed with, and the memory of its
    caller. Sockets are those of Net.v; several sessions may have the same one. *)
Record post := mkPost { po_tcp : nat; po_udp : nat; po_mem : heap; po_world : world }.
Definition with_world (w : world) (k : post) : post := mkPost (po_tcp k) (po_udp k) (po_mem k) w.

(** What an event of the session is on its sockets, and whether it is what happened there. *)
Definition call_of (k : post) (ev : event) : option call :=
  match ev with
  | EOpen Ctl n p _ => Some (TOpenC (po_tcp k) n p)
  | EOpen Io n p _ => Some (UOpen (po_udp k) n p)
  | EClose Ctl _ => Some (TCloseC (po_tcp k))
  | EClose Io _ => Some (UClose (po_udp k))
  | ESend Io bs _ => Some (USend (po_udp k) bs)
  | _ => None
  end.
Definition went (ev : event) (o : outcome N) : Prop :=
  match ev with
  | EOpen _ _ _ b | EClose _ b => if b then exists n, o = Ret n else exists s, o = Throw SystemError s
  | ESend _ _ (Some n) => o = Ret n
  | ESend _ _ None => exists s, o = Throw SystemError s
  | ERecv _ _ => False
  end.
(** The events of a session happen on its sockets. Each call has the outcome Net.v gives it in
    some environment; bytes are sent and received over TCP only while connected, and
    datagrams received only while bound. *)
Inductive plays (k : post) : host -> list event -> host -> Prop :=
| plays_nil h : plays k h [] h
| plays_call h ev c e o h1 es h' : call_of k ev = Some c -> do_call e c h = (o, h1) -> went ev o -> plays k h1 es h' -> plays k h (ev :: es) h'
| plays_send h bs n es h' : (n <> None -> exists r, tcp_at h (po_tcp k) (TConnected r)) -> plays k h es h' -> plays k h (ESend Ctl bs n :: es) h'
| plays_recv h d es h' : (d <> None -> exists r, tcp_at h (po_tcp k) (TConnected r)) -> plays k h es h' -> plays k h (ERecv Ctl d :: es) h'
| plays_datagram h d es h' : (d <> None -> exists u a, udp_at h (po_udp k) u /\ us_fd u = FBound a) -> plays k h es h' -> plays k h (ERecv Io d :: es) h'.

(** A program that makes calls on any of the sessions. *)
Inductive working : host -> list post -> list (nat * op * outcome result) -> host -> list post -> Prop :=
| working_nil h ks : working h ks [] h ks
| working_call h ks i k o r w es h1 l h' ks' : nth_error ks i = Some k -> op_ok (po_mem k) o -> step o (po_world k) = (r, w) -> gained (po_world k) w es ->
    plays k h es h1 -> working h1 (list_set ks i (with_world w k)) l h' ks' -> working h ks ((i, o, r) :: l) h' ks'.
Definition post_ok (h : host) (k : post) : Prop :=
  session_ok (po_world k) /\ user_memory (po_mem k) (po_world k) /\ (exists t, tcp_at h (po_tcp k) t) /\ exists u, udp_at h (po_udp k) u.
(** Call of the close() of a session that has this UDP socket. *)
Definition closes_udp (ks : list post) (u : nat) (c : nat * op * outcome result) : Prop :=
  exists k, nth_error ks (fst (fst c)) = Some k /\ po_udp k = u /\ snd (fst c) = OpClose.

(** A host with only the sockets of one session, which then has them as its first. *)
Definition only_its (k : post) (h : host) (g : host) : Prop :=
  exists t u, tcp_at h (po_tcp k) t /\ udp_at h (po_udp k) u /\ ho_tcp g = [t] /\ ho_udp g = [u].
Definition at_home (k : post) : post := mkPost 0 0 (po_mem k) (po_world k).
(** No socket is shared, no two local UDP endpoints clash, and bound sockets are bound to
    their local endpoint or to a port the system chose. *)
Definition own_ports (h : host) : Prop :=
  (forall i j u v, udp_at h i u -> udp_at h j v -> i <> j -> ~ same_port (us_local u) (us_local v)) /\
  (forall i u a, udp_at h i u -> us_fd u = FBound a -> a = us_local u \/ a = mkEnd 0 0).
Definition own_sockets_of (ks : list post) : Prop := NoDup (map po_tcp ks) /\ NoDup (map po_udp ks).
(** The calls of session [i], as those of the only session. *)
Fixpoint its_calls (i : nat) (l : list (nat * op * outcome result)) : list (nat * op * outcome result) :=
  match l with
  | [] => []
  | (j, o, r) :: l' => if Nat.eqb j i then (0%nat, o, r) :: its_calls i l' else its_calls i l'
  end.
