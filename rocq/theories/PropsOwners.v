(** * PropsOwners: who holds a socket, C118 and C119. *)
From Verif Require Import PPlant Vocab24 POwners PTarget PWhole.
Local Open Scope N_scope.

(** C118. In every scene a program reaches from nothing, the count of a socket is the number
    of variables and session members that point to it, every pointer is to a socket that was
    made, and a socket nobody points to is closed. *)
Theorem C118_counts : forall l s t, history nobody l s ->
  (0 < held_by t s -> made t s) /\ (made t s -> count t (sc_cells s) = Some (held_by t s) /\ (held_by t s = 0 -> is_shut t (ce_host (sc_cells s)))).
Proof. intros l s t H. split; [exact (held_made l s t H)|exact (counts l s t H)]. Qed.
Print Assumptions C118_counts.

(** C118. No copy, assignment (also of a session to itself) or end of a pointer or of a
    session, also with null pointers, uses a socket that was destroyed. *)
Theorem C118_safe : forall l s, history nobody l s ->
  (forall v p, var s v p -> (exists c, retain p (sc_cells s) = Ret c) /\ exists c, release p (sc_cells s) = Ret c) /\
  (forall v1 v2 p q, var s v1 p -> var s v2 q -> exists c, construct_ptrs p q (sc_cells s) = Ret c) /\
  (forall i x, obj s i x -> exists c, copy_ptrs (hl_ctl x) (hl_io x) (sc_cells s) = Ret c) /\
  (forall i j x y, obj s i x -> obj s j y -> exists c, assign_ptrs (hl_ctl x) (hl_io x) (hl_ctl y) (hl_io y) (sc_cells s) = Ret c) /\
  (forall i x es h, obj s i x -> on_its x (ce_host (sc_cells s)) es h -> exists c, end_ptrs (hl_ctl x) (hl_io x) (with_host h (sc_cells s)) = Ret c).
Proof. exact POwners.safe. Qed.
Print Assumptions C118_safe.

(** C118. Nothing but the calls and the end of a session that has the socket changes its
    state, as long as somebody still holds it. *)
Theorem C118_undisturbed : forall l s d es s' t, history nobody l s -> does_to s d es s' -> made t s -> 0 < held_by t s' ->
  (forall i x, (d = DEnd i \/ exists o, d = DCall i o) -> obj s i x -> hl_ctl x <> Some t /\ hl_io x <> Some t) ->
  same_socket t (ce_host (sc_cells s)) (ce_host (sc_cells s')).
Proof. exact undisturbed. Qed.
Print Assumptions C118_undisturbed.

Example C118_shared_pair : exists s s' s2 x, history nobody [(DTcp, []); (DUdp 0 2222, []); (DSession 0 1, []); (DCopySession 0, []); (DDrop 0, []); (DNull, []); (DAssign 1 1, [])] s /\
  held_by (STcp 0) s = 2 /\ held_by (SUdp 0) s = 3 /\ var s 2 None /\ obj s 1 x /\ does_to s (DDrop 1) [] s' /\ held_by (SUdp 0) s' = 2 /\ count (SUdp 0) (sc_cells s') = Some 2 /\
  does_to s' (DEnd 0) [] s2 /\ held_by (STcp 0) s2 = 1.
Proof. exact shared_pair. Qed.

(** C118. When all variables and sessions have ended, all sockets are closed. *)
Theorem C118_nothing_left : forall l s t, history nobody l s -> Forall (fun v => v = None) (sc_vars s) -> Forall (fun o => o = None) (sc_objs s) -> made t s ->
  count t (sc_cells s) = Some 0 /\ is_shut t (ce_host (sc_cells s)).
Proof. exact nothing_left. Qed.
Print Assumptions C118_nothing_left.

(** C119, what holds. Unless a session is assigned to, the last pointer to the control socket
    of a session with a handle goes only with the end of that session, which sends
    UnRegisterSession (or tries to) first. *)
Theorem C119_told_partial : forall l s d es s' i x t, history nobody l s -> does_to s d es s' -> (forall j k, d <> DAssign j k) ->
  obj s i x -> hl_ctl x = Some t -> se_id (w_se (hl_world x)) <> 0 -> held_by t s' = 0 ->
  d = DEnd i /\ exists n, In (ESend Ctl (unregister (se_id (w_se (hl_world x)))) n) es.
Proof. exact POwners.told. Qed.
Print Assumptions C119_told_partial.

Example C119_whole_life : exists s s' x, history nobody
  [(DTcp, []); (DUdp 0 2222, []); (DSession 0 1, []); (DDrop 0, []); (DDrop 1, []); (DCall 0 (open_of "a"), PPlant.opened "a" 9)] s /\
  obj s 0 x /\ hl_ctl x = Some (STcp 0) /\ se_id (w_se (hl_world x)) = 9 /\ held_by (STcp 0) s = 1 /\ tcp_at (ce_host (sc_cells s)) 0 (TConnected (mkEnd 1 44818)) /\
  does_to s (DEnd 0) (ending 9) s' /\ held_by (STcp 0) s' = 0 /\ count (STcp 0) (sc_cells s') = Some 0 /\ is_shut (SUdp 0) (ce_host (sc_cells s')).
Proof. exact whole_life. Qed.

(** C119, violated. Assigning to a session that is the last to hold its socket closes the
    socket and sends nothing, whether the session is open or not. *)
Theorem C119_dropped_refuted : forall l s i j x y t es s', history nobody l s -> obj s i x -> obj s j y -> does_to s (DAssign i j) es s' -> hl_ctl x = Some t -> held_by t s' = 0 ->
  es = [] /\ is_shut t (ce_host (sc_cells s')).
Proof. exact POwners.dropped. Qed.
Print Assumptions C119_dropped_refuted.

(** C119, violated. A program registers session 9 and assigns a new session to its variable;
    when everything has ended and every socket is closed, no UnRegisterSession was sent. *)
Theorem C119_forgotten_refuted : exists s s', history nobody replacing s /\ (exists x, obj s 0 x /\ hl_ctl x = Some (STcp 0) /\ se_id (w_se (hl_world x)) = 9) /\
  history s rest s' /\ (forall i x, ~ obj s' i x) /\ (forall t, made t s' -> is_shut t (ce_host (sc_cells s'))) /\
  In (DCall 0 (open_of "a"), PPlant.opened "a" 9) replacing /\ In (DAssign 0 1, []) rest /\ forall d es, In (d, es) rest -> es = [].
Proof. exact forgotten_all. Qed.
Print Assumptions C119_forgotten_refuted.
