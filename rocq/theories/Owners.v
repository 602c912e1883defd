(** * Owners: the shared pointers to sockets, with their counts.

    Objects.v leaves out when a socket is destroyed. Here every boost::shared_ptr<Socket>
    is there: those of the program and the two members of every Session (session.h:209-210).
    The count is the use_count of the control block; the destructor of a socket (virtual,
    socket/socket.h:62) destroys the socket_ of boost::asio, which closes it. *)
From Verif Require Export Net Session.
Local Open Scope N_scope.

(** A socket: TCPSocket (socket/tcp_socket.h:45) or UDPSocket (socket/udp_socket.h:45). *)
Inductive what := STcp (i : nat) | SUdp (i : nat).
(** shared_ptr<Socket>; null when default constructed (test/session_test.cpp:51). *)
Definition ptr := option what.

(** The sockets of the process (Net.v), each with the count of its control block. *)
Record cells := mkCells { ce_host : host; ce_tcp : list N; ce_udp : list N }.
Definition count (t : what) (c : cells) : option N :=
  match t with STcp i => nth_error (ce_tcp c) i | SUdp i => nth_error (ce_udp c) i end.
Definition set_count (t : what) (n : N) (c : cells) : cells :=
  match t with
  | STcp i => mkCells (ce_host c) (list_set (ce_tcp c) i n) (ce_udp c)
  | SUdp i => mkCells (ce_host c) (ce_tcp c) (list_set (ce_udp c) i n)
  end.
(** ~TCPSocket and ~UDPSocket: implicit; the member socket_ (tcp_socket.h:94,
    udp_socket.h:97) closes its descriptor. *)
Definition shut (t : what) (h : host) : host :=
  match t with STcp i => snd (tcp_close i h) | SUdp i => snd (udp_close i h) end.

(** Copy of a shared_ptr: the count goes up. *)
Definition retain (p : ptr) (c : cells) : outcome cells :=
  match p with
  | None => Ret c
  | Some t => match count t c with
              | None => Undef WildAccess
              | Some n => if n =? 0 then Undef UseAfterFree else Ret (set_count t (n + 1) c)
              end
  end.
(** End of a shared_ptr: the count goes down, and at 0 the socket is destroyed. *)
Definition release (p : ptr) (c : cells) : outcome cells :=
  match p with
  | None => Ret c
  | Some t => match count t c with
              | None => Undef WildAccess
              | Some n => if n =? 0 then Undef DoubleFree
                          else if n =? 1 then Ret (set_count t 0 (mkCells (shut t (ce_host c)) (ce_tcp c) (ce_udp c)))
                          else Ret (set_count t (n - 1) c)
              end
  end.
(** shared_ptr::operator=: a copy is made, swapped with the target and destroyed. *)
Definition assign_ptr (old new : ptr) (c : cells) : outcome cells := obind (retain new c) (release old).

(** Session::Session, src/session.cpp:51-55: the parameters are by value, the members are
    copies of them, the parameters end with the call. *)
Definition construct_ptrs (a b : ptr) (c : cells) : outcome cells :=
  obind (retain a c) (fun c => obind (retain b c) (fun c => obind (retain a c) (fun c => obind (retain b c) (fun c =>
  obind (release b c) (release a))))).
(** The implicit copy constructor (session.h:209-210, in the order of the members). *)
Definition copy_ptrs (a b : ptr) (c : cells) : outcome cells := obind (retain a c) (retain b).
(** The implicit assignment, member by member. *)
Definition assign_ptrs (a b a' b' : ptr) (c : cells) : outcome cells := obind (assign_ptr a a' c) (assign_ptr b b').
(** End of the members after ~Session, in reverse order. *)
Definition end_ptrs (a b : ptr) (c : cells) : outcome cells := obind (release b c) (release a).

(** make_shared<TCPSocket>(io), make_shared<UDPSocket>(io, port): tcp_socket.h:49,
    udp_socket.h:49-50. *)
Definition make_tcp (c : cells) : ptr * cells :=
  let h := ce_host c in
  (Some (STcp (List.length (ho_tcp h))), mkCells (mkHost (ho_udp h) (ho_tcp h ++ [TClosed]) (ho_sent h)) (ce_tcp c ++ [1]) (ce_udp c)).
Definition make_udp (addr port : N) (c : cells) : ptr * cells :=
  let h := ce_host c in
  (Some (SUdp (List.length (ho_udp h))), mkCells (mkHost (ho_udp h ++ [us_make addr port]) (ho_tcp h) (ho_sent h)) (ce_tcp c) (ce_udp c ++ [1])).
