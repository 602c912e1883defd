(** * Vocab11: words for the properties of the concrete sockets. *)
From Verif Require Export Vocab10 Net.
Local Open Scope N_scope.

(** Socket [i] of the process is [u]. *)
Definition udp_at (h : host) (i : nat) (u : udp_socket) : Prop := nth_error (ho_udp h) i = Some u.
Definition tcp_at (h : host) (i : nat) (t : tcp_socket) : Prop := nth_error (ho_tcp h) i = Some t.
(** Two local endpoints that cannot both be bound: a port, and an address in common. *)
Definition same_port (a b : endpoint) : Prop :=
  e_port a = e_port b /\ e_port a <> 0 /\ (e_addr a = e_addr b \/ e_addr a = 0 \/ e_addr b = 0).
(** No two sockets of the process own the same port. *)
Definition ports_apart (h : host) : Prop :=
  forall i j u v a b, udp_at h i u -> udp_at h j v -> i <> j -> us_fd u = FBound a -> us_fd v = FBound b -> ~ same_port a b.
(** The port [a] is owned by another process, or by another socket of this one. *)
Definition owned (e : env) (h : host) (i : nat) (a : endpoint) : Prop :=
  (exists b, In b (en_taken e) /\ same_port a b) \/
  exists j v b, j <> i /\ udp_at h j v /\ us_fd v = FBound b /\ same_port a b.
(** A history in which UDP socket [i] is not closed. *)
Definition not_closed (i : nat) (c : call) : Prop := c <> UClose i.
(** The calls designate sockets that exist. *)
Definition call_ok (h : host) (c : call) : Prop :=
  match c with
  | UOpen i _ _ | UClose i | USend i _ => (i < List.length (ho_udp h))%nat
  | TOpenC i _ _ | TCloseC i => (i < List.length (ho_tcp h))%nat
  end.
(** The opens and closes of UDP socket [i] in a history, as events of the I/O socket of a
    session (Session.v). *)
Fixpoint udp_events (i : nat) (cs : list (env * call)) (os : list (outcome N)) : list event :=
  match cs, os with
  | (_, UOpen j n p) :: cs', o :: os' => if Nat.eqb j i then EOpen Io n p (match o with Ret _ => true | _ => false end) :: udp_events i cs' os' else udp_events i cs' os'
  | (_, UClose j) :: cs', o :: os' => if Nat.eqb j i then EClose Io (match o with Ret _ => true | _ => false end) :: udp_events i cs' os' else udp_events i cs' os'
  | _ :: cs', _ :: os' => udp_events i cs' os'
  | _, _ => []
  end.
(** Only UDP socket [i] changed, into [u]. *)
Definition only_udp (h h' : host) (i : nat) (u : udp_socket) : Prop :=
  udp_at h' i u /\ (forall j, j <> i -> nth_error (ho_udp h') j = nth_error (ho_udp h) j) /\
  ho_tcp h' = ho_tcp h /\ ho_sent h' = ho_sent h.
Definition only_tcp (h h' : host) (i : nat) (t : tcp_socket) : Prop :=
  tcp_at h' i t /\ (forall j, j <> i -> nth_error (ho_tcp h') j = nth_error (ho_tcp h) j) /\
  ho_udp h' = ho_udp h /\ ho_sent h' = ho_sent h.
(** [r] is the first of [rs] that accepts a connection. *)
Definition first_accepting (e : env) (rs : list endpoint) (r : endpoint) : Prop :=
  exists a b, rs = a ++ r :: b /\ (forall x, In x a -> en_accepts e x = false) /\ en_accepts e r = true.

(** ** The test socket *)
Inductive ts_call := TsOpen (h p : string) | TsClose | TsSend (bs : list byte) | TsReceive (n : N) | TsClear.
Definition ts_do (c : ts_call) (t : test_socket) : list byte * test_socket :=
  match c with
  | TsOpen h p => ([], ts_do_open h p t)
  | TsClose => ([], ts_do_close t)
  | TsSend bs => ([], snd (ts_send bs t))
  | TsReceive n => ts_receive n t
  | TsClear => ([], ts_clear t)
  end.
Fixpoint ts_run (cs : list ts_call) (t : test_socket) : list (list byte) * test_socket :=
  match cs with
  | [] => ([], t)
  | c :: cs' => let (d, t1) := ts_do c t in let (ds, t2) := ts_run cs' t1 in (d :: ds, t2)
  end.
(** What was sent since the last clear; [s] was sent before. *)
Fixpoint sent_since (s : list byte) (cs : list ts_call) : list byte :=
  match cs with
  | [] => s
  | TsSend bs :: cs' => sent_since (s ++ bs) cs'
  | TsClear :: cs' => sent_since [] cs'
  | _ :: cs' => sent_since s cs'
  end.
(** Whether the last open or close is an open, and where to. *)
Fixpoint last_opened (b : bool) (hp : string * string) (cs : list ts_call) : bool * (string * string) :=
  match cs with
  | [] => (b, hp)
  | TsOpen h p :: cs' => last_opened true (h, p) cs'
  | TsClose :: cs' => last_opened false hp cs'
  | _ :: cs' => last_opened b hp cs'
  end.
Definition asked (c : ts_call) : N := match c with TsReceive n => n | _ => 0 end.
