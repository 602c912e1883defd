(** * Descr: the sockets of Net.v when descriptors may run out

    A process may hold only so many descriptors (RLIMIT_NOFILE, or what the system has left).
    socket(2) then fails with EMFILE and basic_socket::open raises; the limit is a number that
    belongs to the moment of a call, like the environment of Net.v: the sockets of the process may
    hold [l] descriptors.  What the resolver needs for itself is not counted. *)
From Verif Require Export Net.
Local Open Scope N_scope.

(** Descriptors the sockets of the process hold: one for each that is not closed. *)
Definition u_holds (u : udp_socket) : N := match us_fd u with FClosed => 0 | _ => 1 end.
Definition t_holds (t : tcp_socket) : N := match t with TClosed => 0 | _ => 1 end.
Definition n_held (h : host) : N :=
  fold_right (fun u n => u_holds u + n) 0 (ho_udp h) + fold_right (fun t n => t_holds t + n) 0 (ho_tcp h).

(** UDPSocket::open, udp_socket.h:57-64.  [socket_.open] (:62) looks first whether the socket is
    open already, then asks for a descriptor. *)
Definition udp_open_l (l : N) (e : env) (name port : string) (i : nat) (h : host) : outcome unit * host :=
  match nth_error (ho_udp h) i with
  | None => (Undef WildAccess, h)
  | Some u =>
      match en_resolve e name port with
      | [] => (Throw SystemError "Host not found", h)
      | r :: _ =>
          let u1 := us_set_remote r u in
          match us_fd u1 with
          | FClosed =>
              if l <=? n_held h then (Throw SystemError "Too many open files", ho_set_udp i u1 h)
              else if existsb (clash (us_local u1)) (in_use e h)
              then (Throw SystemError "Address already in use", ho_set_udp i (us_set_fd FOpen u1) h)
              else (Ret tt, ho_set_udp i (us_set_fd (FBound (us_local u1)) u1) h)
          | _ => (Throw SystemError "Already open", ho_set_udp i u1 h)
          end
      end
  end.

(** boost::asio::connect at tcp_socket.h:61.  Before each attempt the socket is closed;
    basic_socket::connect then opens it.  [others]: descriptors of the other sockets.  A socket that
    could not be opened stays closed, and the next endpoint is tried. *)
Fixpoint tcp_connect_l (l others : N) (e : env) (rs : list endpoint) (t : tcp_socket) : outcome unit * tcp_socket :=
  match rs with
  | [] => (Throw SystemError (match t with TClosed => "Too many open files" | _ => "Connection refused" end), t)
  | r :: rs' =>
      if l <=? others then tcp_connect_l l others e rs' TClosed
      else if en_accepts e r then (Ret tt, TConnected r) else tcp_connect_l l others e rs' TOpen
  end.
(** TCPSocket::open, tcp_socket.h:56-62. *)
Definition tcp_open_l (l : N) (e : env) (name port : string) (i : nat) (h : host) : outcome unit * host :=
  match nth_error (ho_tcp h) i with
  | None => (Undef WildAccess, h)
  | Some t =>
      match en_resolve e name port with
      | [] => (Throw SystemError "Host not found", h)
      | rs => let (o, t') := tcp_connect_l l (n_held h - t_holds t) e rs t in (o, ho_set_tcp i t' h)
      end
  end.

(** Any sequence of calls, each in its environment and with its limit; close and send take no
    descriptor. *)
Definition do_call_l (l : N) (e : env) (c : call) (h : host) : outcome N * host :=
  match c with
  | UOpen i n p => on_unit (udp_open_l l e n p i h)
  | TOpenC i n p => on_unit (tcp_open_l l e n p i h)
  | _ => do_call e c h
  end.
Fixpoint do_calls_l (cs : list (N * env * call)) (h : host) : list (outcome N) * host :=
  match cs with
  | [] => ([], h)
  | (l, e, c) :: cs' =>
      let (o, h1) := do_call_l l e c h in
      match o with
      | Undef _ | Stuck => ([o], h1)
      | _ => let (os, h2) := do_calls_l cs' h1 in (o :: os, h2)
      end
  end.

(** The two opens of Session::open, src/session.cpp:83-84, outside any try block: TCP socket [i],
    then UDP socket [j]. *)
Definition session_opens (l : N) (e : env) (host_name port io_port : string) (i j : nat) (h : host) : outcome unit * host :=
  match tcp_open_l l e host_name port i h with
  | (Ret _, h1) => udp_open_l l e host_name io_port j h1
  | z => z
  end.
