(** * Vocab26: clients of one target that come and go, C121.
    Only definitions. *)
From Verif Require Export Vocab20 Vocab22.

(** A client with its memory, its program and its session, and what the target has of it:
    whether its TCP connection is up, whether its UDP socket is open, and the handle given out
    on the TCP connection, 0 if none was. *)
Record guest := mkGuest { gs_mem : heap; gs_story : story; gs_world : world; gs_up : bool; gs_io : bool; gs_handle : N }.
(** The line from a client to the one target, as in Vocab22.v. *)
Definition line_to (s : server) (up io : bool) (h : N) : line := mkLine up io (seen h s).
(** The clients make calls in turns, in any order. A client that crashed makes no more. *)
Inductive gathering : server -> list guest -> list (nat * errand * outcome told) -> server -> list guest -> Prop :=
| gathering_nil s gs : gathering s gs [] s gs
| gathering_call s gs i u e next w up io h o w1 es s1 up1 io1 h1 l s' gs' : nth_error gs i = Some (mkGuest u (Then e next) w up io h) ->
    carry e w = (o, w1) -> gained w w1 es -> meets (line_to s up io h) es (line_to s1 up1 io1 h1) ->
    gathering s1 (list_set gs i (mkGuest u (next_of next o) w1 up1 io1 h1)) l s' gs' ->
    gathering s gs ((i, e, o) :: l) s' gs'.

(** A client and the target agree on the client's connections. *)
Definition guest_ok (s : server) (g : guest) : Prop :=
  let w := gs_world g in
  session_ok w /\ user_memory (gs_mem g) w /\ story_ok (gs_mem g) (gs_story g) /\ numbers_ok (w_se w) /\
  map conn_key (se_conns (w_se w)) = conns_of (w_se w) s.
Definition goes_by (g : guest) : N * N := (se_vendor (w_se (gs_world g)), se_serial (w_se (gs_world g))).

(** The machine: the target and, for every client, the state of its line, what it takes for
    its session handle and its next connection serial number. A client sees the attributes
    and its own connections; its part of the machine is the one of Vocab22.v, and the
    connections of the others stay as they are. *)
Record seat := mkSeat { st_up : bool; st_io : bool; st_handle : N; st_id : N; st_sn : N }.
Definition seat_of (g : guest) : seat := mkSeat (gs_up g) (gs_io g) (gs_handle g) (se_id (w_se (gs_world g))) (se_next_sn (w_se (gs_world g))).
Definition part (vendor serial : N) (s : server) (x : seat) : machine :=
  mkMachine (mkLine (st_up x) (st_io x) (mkTarget (st_handle x) (sv_attr s) (filter (owns vendor serial) (sv_conns s)))) (st_id x) (st_sn x).
Definition of_others (vendor serial : N) (s : server) : list (N * N * N) := filter (fun k => negb (owns vendor serial k)) (sv_conns s).
Definition crash (o : outcome told) : Prop := match o with Ret _ | Throw _ _ => False | _ => True end.
Definition caller (c : nat * errand * outcome told) : nat := fst (fst c).
Inductive takes_turns (us : list heap) (ids : list (N * N)) : server -> list seat -> list (nat * errand * outcome told) -> server -> list seat -> Prop :=
| takes_turns_nil s xs : takes_turns us ids s xs [] s xs
| takes_turns_call s xs i u vendor serial x e o s1 x1 l s' xs' :
    nth_error us i = Some u -> nth_error ids i = Some (vendor, serial) -> nth_error xs i = Some x ->
    happens u vendor serial (part vendor serial s x) e o (part vendor serial s1 x1) -> of_others vendor serial s1 = of_others vendor serial s ->
    (crash o -> Forall (fun c => caller c <> i) l) -> takes_turns us ids s1 (list_set xs i x1) l s' xs' ->
    takes_turns us ids s xs ((i, e, o) :: l) s' xs'.
(** A call of any client that wrote this attribute. *)
Definition put_there (x y z : N) (c : nat * errand * outcome told) : Prop := exists d v, snd (fst c) = Use (AskSet x y z d) /\ snd c = Ret v.
