(** * Threads: two callers of the same session.

    Session has no lock (session.h:206-219).  A thread runs the phases of
    sendCommand (src/session.cpp:166-186) or receiveIOPacket
    (src/session.cpp:335-351); phases are atomic, which only removes behaviours:
    the byte-level races on recv_buffer_ are not modelled. *)
From Verif Require Export Session.

Inductive phase :=
| PCmdSend (req : encap_packet)
| PCmdRecv (req : encap_packet)
| PCmdParse (req : encap_packet) (n : N)
| PIoRecv
| PIoParse (n : N)
| PIoSends (ps : list cpf_packet)  (* sendIOPacket (src/session.cpp:353-357), one packet per step; errors are ignored *)
| PCmdDone (r : outcome encap_packet)
| PIoDone (r : outcome cpf_packet).

(** Lift a result into the next phase. *)
Definition next {A} (o : outcome A) (k : A -> phase) (e : forall B, outcome B -> phase) : phase :=
  match o with
  | Ret a => k a
  | Throw c s => e A (Throw c s)
  | Undef u => e A (Undef u)
  | Stuck => e A Stuck
  end.
Definition cmd_fail (B : Type) (o : outcome B) : phase :=
  PCmdDone (match o with Throw c s => Throw c s | Undef u => Undef u | _ => Stuck end).
Definition io_fail (B : Type) (o : outcome B) : phase :=
  PIoDone (match o with Throw c s => Throw c s | Undef u => Undef u | _ => Stuck end).

(** One atomic phase of one thread. *)
Definition thread_step (p : phase) (w : world) : phase * world :=
  match p with
  | PCmdSend req => let (o, w') := sc_send req w in (next o (fun _ => PCmdRecv req) cmd_fail, w')
  | PCmdRecv req => let (o, w') := sc_recv w in (next o (fun n => PCmdParse req n) cmd_fail, w')
  | PCmdParse req n => let (o, w') := sc_parse req n w in (PCmdDone o, w')
  | PIoRecv => let (o, w') := sock_recv Io (recv_view w) w in (next o PIoParse io_fail, w')
  | PIoParse n =>
      let (o, w') := m_decode cpf_deserialize (view_take (recv_view w) n) [] w in
      (PIoDone (match o with
                | Ret r => Ret (fst r)
                | Throw c s => Throw c s | Undef u => Undef u | Stuck => Stuck
                end), w')
  | PIoSends [] => (PIoSends [], w)
  | PIoSends (p :: ps) => (PIoSends ps, snd (sendIOPacket p w))
  | PCmdDone r => (PCmdDone r, w)
  | PIoDone r => (PIoDone r, w)
  end.

(** A schedule says which of the two threads runs next ([false]: the first). *)
Fixpoint interleave (sched : list bool) (a b : phase) (w : world) : phase * phase * world :=
  match sched with
  | [] => (a, b, w)
  | false :: s => let (a', w') := thread_step a w in interleave s a' b w'
  | true :: s => let (b', w') := thread_step b w in interleave s a b' w'
  end.
