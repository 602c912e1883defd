(** * Net: UDPSocket and TCPSocket on a small operating system.
    Session.v lets a socket call have any scripted result; here the two concrete classes
    are modelled themselves, for any number of sockets in one process. *)
From Verif Require Export Transport.
Local Open Scope N_scope.

(** An IPv4 endpoint; address 0 is 0.0.0.0, port 0 asks for any free port. *)
Record endpoint := mkEnd { e_addr : N; e_port : N }.

(** What the world outside the process is at the moment of a call: what a name resolves
    to, which local endpoints other processes have bound, which remote endpoints accept a
    TCP connection. *)
Record env := mkEnv { en_resolve : string -> string -> list endpoint; en_taken : list endpoint; en_accepts : endpoint -> bool }.

(** State of the descriptor behind a udp::socket. *)
Inductive fd := FClosed | FOpen | FBound (l : endpoint).

(** UDPSocket, socket/udp_socket.h:45-100: socket_, local_endpoint_, remote_endpoint_. *)
Record udp_socket := mkUdp { us_fd : fd; us_local : endpoint; us_remote : endpoint }.
Definition us_set_fd (f : fd) (u : udp_socket) : udp_socket := mkUdp f (us_local u) (us_remote u).
Definition us_set_remote (r : endpoint) (u : udp_socket) : udp_socket := mkUdp (us_fd u) (us_local u) r.
(** Constructor, udp_socket.h:49-50. *)
Definition us_make (addr port : N) : udp_socket := mkUdp FClosed (mkEnd addr port) (mkEnd 0 0).

(** TCPSocket, socket/tcp_socket.h:45-94: socket_ is closed, open but not connected, or
    connected to a remote endpoint. *)
Inductive tcp_socket := TClosed | TOpen | TConnected (r : endpoint).

(** The process. *)
Record host := mkHost { ho_udp : list udp_socket; ho_tcp : list tcp_socket; ho_sent : list (nat * endpoint * list byte) }.
Definition ho_set_udp (i : nat) (u : udp_socket) (h : host) : host := mkHost (list_set (ho_udp h) i u) (ho_tcp h) (ho_sent h).
Definition ho_set_tcp (i : nat) (t : tcp_socket) (h : host) : host := mkHost (ho_udp h) (list_set (ho_tcp h) i t) (ho_sent h).
Definition ho_log (i : nat) (r : endpoint) (bs : list byte) (h : host) : host := mkHost (ho_udp h) (ho_tcp h) (ho_sent h ++ [(i, r, bs)]).

(** bind(2) without SO_REUSEADDR: two endpoints clash when the ports are the same and
    the addresses are the same or one of them is 0.0.0.0. *)
Definition clash (a b : endpoint) : bool :=
  negb (e_port a =? 0) && (e_port a =? e_port b) && ((e_addr a =? e_addr b) || (e_addr a =? 0) || (e_addr b =? 0)).
Definition bound_of (u : udp_socket) : list endpoint := match us_fd u with FBound l => [l] | _ => [] end.
Definition in_use (e : env) (h : host) : list endpoint := en_taken e ++ flat_map bound_of (ho_udp h).

(** UDPSocket::open, udp_socket.h:57-64: resolve (throws when there is no such host), remember the
    first endpoint, socket_.open (throws when already open), socket_.bind. *)
Definition udp_open (e : env) (name port : string) (i : nat) (h : host) : outcome unit * host :=
  match nth_error (ho_udp h) i with
  | None => (Undef WildAccess, h)
  | Some u =>
      match en_resolve e name port with
      | [] => (Throw SystemError "Host not found", h)
      | r :: _ =>
          let u1 := us_set_remote r u in
          match us_fd u1 with
          | FClosed =>
              if existsb (clash (us_local u1)) (in_use e h)
              then (Throw SystemError "Address already in use", ho_set_udp i (us_set_fd FOpen u1) h)
              else (Ret tt, ho_set_udp i (us_set_fd (FBound (us_local u1)) u1) h)
          | _ => (Throw SystemError "Already open", ho_set_udp i u1 h)
          end
      end
  end.

(** UDPSocket::close, udp_socket.h:69-72: closing a closed socket has no effect. *)
Definition udp_close (i : nat) (h : host) : outcome unit * host :=
  match nth_error (ho_udp h) i with
  | None => (Undef WildAccess, h)
  | Some u => (Ret tt, ho_set_udp i (us_set_fd FClosed u) h)
  end.

(** UDPSocket::send, udp_socket.h:79-82 (send_to): a datagram has at most 65507 bytes; a socket that
    is not bound gets some free port (kept as port 0). *)
Definition udp_send (i : nat) (bs : list byte) (h : host) : outcome N * host :=
  match nth_error (ho_udp h) i with
  | None => (Undef WildAccess, h)
  | Some u =>
      match us_fd u with
      | FClosed => (Throw SystemError "Bad file descriptor", h)
      | f =>
          if 65507 <? len bs then (Throw SystemError "Message too long", h)
          else
            let f' := match f with FOpen => FBound (mkEnd 0 0) | _ => f end in
            (Ret (len bs), ho_log i (us_remote u) bs (ho_set_udp i (us_set_fd f' u) h))
      end
  end.

(** boost::asio::connect (called at tcp_socket.h:61): every endpoint in turn; the socket is
    closed before each attempt, and left open when the last one fails. *)
Fixpoint tcp_connect (e : env) (rs : list endpoint) (t : tcp_socket) : outcome unit * tcp_socket :=
  match rs with
  | [] => (Throw SystemError "Connection refused", t)
  | r :: rs' => if en_accepts e r then (Ret tt, TConnected r) else tcp_connect e rs' TOpen
  end.
(** TCPSocket::open, tcp_socket.h:56-62. *)
Definition tcp_open (e : env) (name port : string) (i : nat) (h : host) : outcome unit * host :=
  match nth_error (ho_tcp h) i with
  | None => (Undef WildAccess, h)
  | Some t =>
      match en_resolve e name port with
      | [] => (Throw SystemError "Host not found", h)
      | rs => let (o, t') := tcp_connect e rs t in (o, ho_set_tcp i t' h)
      end
  end.
(** TCPSocket::close, tcp_socket.h:67-70. *)
Definition tcp_close (i : nat) (h : host) : outcome unit * host :=
  match nth_error (ho_tcp h) i with
  | None => (Undef WildAccess, h)
  | Some _ => (Ret tt, ho_set_tcp i TClosed h)
  end.

(** Any sequence of calls, each in its environment. *)
Inductive call :=
| UOpen (i : nat) (name port : string) | UClose (i : nat) | USend (i : nat) (bs : list byte)
| TOpenC (i : nat) (name port : string) | TCloseC (i : nat).
Definition on_unit (x : outcome unit * host) : outcome N * host :=
  match x with (o, h) => (match o with Ret _ => Ret 0 | Throw c s => Throw c s | Undef u => Undef u | Stuck => Stuck end, h) end.
Definition do_call (e : env) (c : call) (h : host) : outcome N * host :=
  match c with
  | UOpen i n p => on_unit (udp_open e n p i h)
  | UClose i => on_unit (udp_close i h)
  | USend i bs => udp_send i bs h
  | TOpenC i n p => on_unit (tcp_open e n p i h)
  | TCloseC i => on_unit (tcp_close i h)
  end.
Fixpoint do_calls (cs : list (env * call)) (h : host) : list (outcome N) * host :=
  match cs with
  | [] => ([], h)
  | (e, c) :: cs' =>
      let (o, h1) := do_call e c h in
      match o with
      | Undef _ | Stuck => ([o], h1)
      | _ => let (os, h2) := do_calls cs' h1 in (o :: os, h2)
      end
  end.
