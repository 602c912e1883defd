(** * Vocab38: words for C135, descriptors.  Only definitions. *)
From Verif Require Export Vocab11 Descr.
Local Open Scope N_scope.

(** Sockets of the process that are not closed. *)
Definition udp_live (h : host) (i : nat) : Prop := exists u, udp_at h i u /\ us_fd u <> FClosed.
Definition tcp_live (h : host) (i : nat) : Prop := exists t, tcp_at h i t /\ t <> TClosed.
(** [n] sockets are not closed: those in two lists without repetition. *)
Definition holding (h : host) (n : N) : Prop := exists us ts,
  NoDup us /\ NoDup ts /\ (forall i, In i us <-> udp_live h i) /\ (forall i, In i ts <-> tcp_live h i) /\ len us + len ts = n.
(** Socket [i] was asked to open, and not to close since. *)
Definition udp_asked (cs : list call) (i : nat) : Prop := exists a n p b, cs = a ++ UOpen i n p :: b /\ ~ In (UClose i) b.
Definition tcp_asked (cs : list call) (i : nat) : Prop := exists a n p b, cs = a ++ TOpenC i n p :: b /\ ~ In (TCloseC i) b.
(** All sockets are closed, as constructors leave them. *)
Definition all_closed (h : host) : Prop := (forall i, ~ udp_live h i) /\ (forall i, ~ tcp_live h i).
(** The calls of a history that were made: as many as have an outcome. *)
Definition made (cs : list (N * env * call)) (os : list (outcome N)) : list call := map snd (firstn (List.length os) cs).
