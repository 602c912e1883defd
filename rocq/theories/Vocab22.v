(** * Vocab22: whole lives of a session: programs that also open and close it, C116.
    Only definitions. *)
From Verif Require Export Vocab19.

(** Calls, and programs in which every call may depend on all that was told before. *)
Inductive errand := Use (a : wish) | Dial (h p q : string) | HangUp.
Inductive story := End | Then (e : errand) (next : outcome told -> story).
Definition carry (e : errand) : M told :=
  match e with
  | Use a => perform a
  | Dial h p q => do* session_open h p q in mret Done
  | HangUp => do* session_close in mret Done
  end.
Definition errand_ok (u : heap) (e : errand) : Prop := match e with Use a => wish_ok u a | _ => True end.
Fixpoint story_ok (u : heap) (c : story) : Prop :=
  match c with End => True | Then e next => errand_ok u e /\ forall o, story_ok u (next o) end.

(** The other side: whether there is a TCP connection, whether the UDP socket is open, and
    the target; its handle is the one given out on this TCP connection, 0 if none was. *)
Record line := mkLine { ln_up : bool; ln_io : bool; ln_tg : target }.
Definition handle (id : N) (t : target) : target := mkTarget id (tg_attr t) (tg_conns t).
Definition dialled (l : line) : line := mkLine true (ln_io l) (handle 0 (ln_tg l)).
Definition hung_up (l : line) : line := mkLine false (ln_io l) (handle 0 (ln_tg l)).
Definition with_io (b : bool) (l : line) : line := mkLine (ln_up l) b (ln_tg l).
Definition with_tg (t : target) (l : line) : line := mkLine (ln_up l) (ln_io l) t.

(** What may happen on the sockets of a session. A new TCP connection knows no session;
    a UDP socket cannot be opened twice; requests that bear the handle given out are served
    as in Vocab7.v, others are answered with an error and no data; registration gives out a
    handle, or is refused with the handle 0; a request may also fail to leave. The target
    keeps the I/O connections when a session ends. *)
Inductive meets : line -> list event -> line -> Prop :=
| meets_nil l : meets l [] l
| meets_dial l h p es l' : meets (dialled l) es l' -> meets l (EOpen Ctl h p true :: es) l'
| meets_no_dial l h p es l' : meets l es l' \/ meets (hung_up l) es l' -> meets l (EOpen Ctl h p false :: es) l'
| meets_io l h q es l' : ln_io l = false -> meets (with_io true l) es l' -> meets l (EOpen Io h q true :: es) l'
| meets_no_io l h q es l' : meets l es l' \/ meets (with_io true l) es l' -> meets l (EOpen Io h q false :: es) l'
| meets_hang_up l es l' : meets (hung_up l) es l' -> meets l (EClose Ctl true :: es) l'
| meets_io_shut l es l' : meets (with_io false l) es l' -> meets l (EClose Io true :: es) l'
| meets_no_shut l s es l' : meets l es l' -> meets l (EClose s false :: es) l'
| meets_served l bs body got t1 es l' : bs = request 0x6F (tg_session (ln_tg l)) body -> ln_up l = true -> tg_session (ln_tg l) <> 0 -> fits 4 (tg_session (ln_tg l)) ->
    serves (ln_tg l) bs got t1 -> meets (with_tg t1 l) es l' ->
    meets l (ESend Ctl bs (Some (len bs)) :: ERecv Ctl (Some got) :: es) l'
| meets_unknown l bs id body got es l' : bs = request 0x6F id body -> ln_up l = true -> fits 4 id -> id <> tg_session (ln_tg l) \/ id = 0 -> reply_frame got 0x6F id [] -> meets l es l' ->
    meets l (ESend Ctl bs (Some (len bs)) :: ERecv Ctl (Some got) :: es) l'
| meets_registered l bs id options got es l' : bs = register_request -> ln_up l = true -> tg_session (ln_tg l) = 0 -> id <> 0 -> reply_frame got 0x65 id (registration 1 options) ->
    meets (with_tg (handle id (ln_tg l)) l) es l' ->
    meets l (ESend Ctl bs (Some (len bs)) :: ERecv Ctl (Some got) :: es) l'
| meets_turned_away l bs payload got es l' : bs = register_request -> ln_up l = true -> reply_frame got 0x65 0 payload -> meets l es l' ->
    meets l (ESend Ctl bs (Some (len bs)) :: ERecv Ctl (Some got) :: es) l'
| meets_bye l bs id es l' : bs = unregister id -> ln_up l = true -> fits 4 id -> meets (with_tg (handle (if id =? tg_session (ln_tg l) then 0 else tg_session (ln_tg l)) (ln_tg l)) l) es l' ->
    meets l (ESend Ctl bs (Some (len bs)) :: es) l'
| meets_unsent l bs es l' : meets l es l' -> meets l (ESend Ctl bs None :: es) l'.

(** A program running in a session, call by call. It goes on after exceptions. *)
Definition next_of (next : outcome told -> story) (o : outcome told) : story :=
  match o with Ret _ | Throw _ _ => next o | _ => End end.
Inductive telling : story -> world -> line -> list (errand * outcome told) -> world -> line -> Prop :=
| telling_stop c w l : telling c w l [] w l
| telling_call e next w l o w1 es l1 r w' l' : carry e w = (o, w1) -> gained w w1 es -> meets l es l1 ->
    telling (next_of next o) w1 l1 r w' l' -> telling (Then e next) w l ((e, o) :: r) w' l'.

(** The machine. [m_id]: what the client takes for its session handle, 0 when closed;
    [m_sn]: its next connection serial number. *)
Record machine := mkMachine { m_line : line; m_id : N; m_sn : N }.
(** Client and target speak of the same session. *)
Definition in_session (m : machine) : Prop := ln_up (m_line m) = true /\ m_id m <> 0 /\ m_id m = tg_session (ln_tg (m_line m)).
Inductive happens (u : heap) (vendor serial : N) : machine -> errand -> outcome told -> machine -> Prop :=
(* in a session: as in Vocab19.v *)
| happens_done l id sn a o t1 sn1 : in_session (mkMachine l id sn) -> does u vendor serial (ln_tg l, sn) a o (t1, sn1) ->
    happens u vendor serial (mkMachine l id sn) (Use a) o (mkMachine (with_tg t1 l) id sn1)
| happens_refused l id sn a s : in_session (mkMachine l id sn) -> requests (ln_tg l) a ->
    happens u vendor serial (mkMachine l id sn) (Use a) (Throw RuntimeError s) (mkMachine l id (tried a sn))
(* whatever the state, the request may fail to leave, or not exist *)
| happens_unsent l id sn a s : requests (ln_tg l) a -> happens u vendor serial (mkMachine l id sn) (Use a) (Throw SystemError s) (mkMachine l id (tried a sn))
| happens_astray l id sn n : ~ requests (ln_tg l) (AskLeave n) ->
    happens u vendor serial (mkMachine l id sn) (Use (AskLeave n)) (Undef VecOutOfBounds) (mkMachine l id sn)
(* not in a session: an error when the client knows, a crash when it does not *)
| happens_early l sn a s : ln_up l = true -> requests (ln_tg l) a ->
    happens u vendor serial (mkMachine l 0 sn) (Use a) (Throw RuntimeError s) (mkMachine l 0 (tried a sn))
| happens_stale l id sn a : ln_up l = true -> id <> 0 -> id <> tg_session (ln_tg l) -> requests (ln_tg l) a ->
    happens u vendor serial (mkMachine l id sn) (Use a) (Undef NullDeref) (mkMachine l id (tried a sn))
(* open: no TCP connection; no UDP socket; nothing leaves *)
| happens_no_dial l id sn h p q s l' : l' = l \/ l' = hung_up l ->
    happens u vendor serial (mkMachine l id sn) (Dial h p q) (Throw SystemError s) (mkMachine l' id sn)
| happens_no_io l id sn h p q s b : (ln_io l = true -> b = true) ->
    happens u vendor serial (mkMachine l id sn) (Dial h p q) (Throw SystemError s) (mkMachine (with_io b (dialled l)) id sn)
| happens_mute l id sn h p q s : ln_io l = false ->
    happens u vendor serial (mkMachine l id sn) (Dial h p q) (Throw SystemError s) (mkMachine (with_io true (dialled l)) id sn)
(* a handle is given out; the client takes it unless it thinks it has another *)
| happens_open l id sn h p q new : ln_io l = false -> new <> 0 -> id = 0 \/ id = new ->
    happens u vendor serial (mkMachine l id sn) (Dial h p q) (Ret Done) (mkMachine (with_tg (handle new (ln_tg l)) (with_io true (dialled l))) new sn)
| happens_rejected l id sn h p q s l' : ln_io l = false -> l' = with_io false (hung_up l) ->
    happens u vendor serial (mkMachine l id sn) (Dial h p q) (Throw RuntimeError s) (mkMachine l' id sn)
(* closing after that raised *)
| happens_unclosed l id sn h p q s t : ln_io l = false -> (exists new, t = handle new (ln_tg l)) ->
    happens u vendor serial (mkMachine l id sn) (Dial h p q) (Throw SystemError s) (mkMachine (with_tg t (with_io true (dialled l))) id sn)
| happens_half_closed l id sn h p q s : ln_io l = false ->
    happens u vendor serial (mkMachine l id sn) (Dial h p q) (Throw SystemError s) (mkMachine (with_io true (hung_up l)) id sn)
(* close *)
| happens_close l id sn : ln_up l = true ->
    happens u vendor serial (mkMachine l id sn) HangUp (Ret Done) (mkMachine (with_io false (hung_up l)) 0 sn)
| happens_no_close l id sn s : happens u vendor serial (mkMachine l id sn) HangUp (Throw SystemError s) (mkMachine l id sn)
| happens_close_unclosed l id sn s : ln_up l = true ->
    happens u vendor serial (mkMachine l id sn) HangUp (Throw SystemError s)
      (mkMachine (with_tg (handle (if id =? tg_session (ln_tg l) then 0 else tg_session (ln_tg l)) (ln_tg l)) l) id sn)
| happens_close_half l id sn s : ln_up l = true ->
    happens u vendor serial (mkMachine l id sn) HangUp (Throw SystemError s) (mkMachine (hung_up l) id sn).
(** After a crash, or a call that never returns, nothing follows. *)
Definition stops (o : outcome told) (r : list (errand * outcome told)) : Prop :=
  match o with Ret _ | Throw _ _ => True | _ => r = [] end.
Inductive happen (u : heap) (vendor serial : N) : machine -> list (errand * outcome told) -> machine -> Prop :=
| happen_nil m : happen u vendor serial m [] m
| happen_call m e o m1 r m' : happens u vendor serial m e o m1 -> stops o r -> happen u vendor serial m1 r m' -> happen u vendor serial m ((e, o) :: r) m'.

(** A program that opens only when it has nothing open, uses the session only between a
    successful open and the next close, and gives up when close raises. *)
Fixpoint orderly (opened : bool) (c : story) : Prop :=
  match c with
  | End => True
  | Then (Use a) next => opened = true /\ forall o, orderly true (next o)
  | Then (Dial _ _ _) next => opened = false /\ forall o, orderly (match o with Ret _ => true | _ => false end) (next o)
  | Then HangUp next => opened = true /\ (forall v, orderly false (next (Ret v))) /\ forall c s, next (Throw c s) = End
  end.
(** The call wrote this attribute. *)
Definition wrote (x y z : N) (c : errand * outcome told) : Prop := exists d v, c = (Use (AskSet x y z d), Ret v).

(** Client and line agree: about the connections, and the numbers are in range. *)
Definition tuned (w : world) (l : line) : Prop := numbers_ok (w_se w) /\ map conn_key (se_conns (w_se w)) = tg_conns (ln_tg l).
(** The state of the machine that goes with a session. *)
Definition at_w (w : world) (l : line) : machine := mkMachine l (se_id (w_se w)) (se_next_sn (w_se w)).
