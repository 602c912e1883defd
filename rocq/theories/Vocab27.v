(** * Vocab27: calls of several clients that overlap in time, C122.
    Only definitions. *)
From Verif Require Export Vocab26.

(** A call in progress: its ticket, what it will return, the client's world after it, and
    the part of its traffic that the network and the target have not seen yet. *)
Record pending := mkPending { pe_ticket : nat; pe_result : outcome told; pe_world : world; pe_rest : list event }.
(** The target, the clients, each with the call it is making if any, and the next ticket. *)
Record hall := mkHall { ha_server : server; ha_guests : list (guest * option pending); ha_next : nat }.
(** What an observer notes: a call begins, a call returns. *)
Inductive mark := Begins (k i : nat) (e : errand) | Ends (k i : nat) (e : errand) (o : outcome told).
(** Clients begin calls, the network and the target see a piece of the traffic of a call, calls
    return, in any order. One request and its reply are one piece: the target answers at a
    moment of its own choice, while other clients may be anywhere in their calls. *)
Inductive moves : hall -> list mark -> hall -> Prop :=
| moves_begin s gs k i u e next w up io h o w1 es :
    nth_error gs i = Some (mkGuest u (Then e next) w up io h, None) -> carry e w = (o, w1) -> gained w w1 es ->
    moves (mkHall s gs k) [Begins k i e] (mkHall s (list_set gs i (mkGuest u (Then e next) w up io h, Some (mkPending k o w1 es))) (S k))
| moves_seen s gs k i u c w up io h n o w1 es rest s1 up1 io1 h1 :
    nth_error gs i = Some (mkGuest u c w up io h, Some (mkPending n o w1 (es ++ rest))) -> meets (line_to s up io h) es (line_to s1 up1 io1 h1) ->
    moves (mkHall s gs k) [] (mkHall s1 (list_set gs i (mkGuest u c w up1 io1 h1, Some (mkPending n o w1 rest))) k)
| moves_end s gs k i u e next w up io h n o w1 :
    nth_error gs i = Some (mkGuest u (Then e next) w up io h, Some (mkPending n o w1 [])) ->
    moves (mkHall s gs k) [Ends n i e o] (mkHall s (list_set gs i (mkGuest u (next_of next o) w1 up io h, None)) k).
Inductive goings_on : hall -> list mark -> hall -> Prop :=
| goings_on_nil a : goings_on a [] a
| goings_on_more a tr b mk c : goings_on a tr b -> moves b mk c -> goings_on a (tr ++ mk) c.
(** Nobody is making a call. *)
Definition resting (s : server) (gs : list guest) (k : nat) : hall := mkHall s (map (fun g => (g, None)) gs) k.
Definition at_rest (s : server) (gs : list guest) : hall := resting s gs 0.
(** Calls one after the other. *)
Fixpoint whole_calls (k : nat) (l : list (nat * errand * outcome told)) : list mark :=
  match l with [] => [] | (i, e, o) :: r => Begins k i e :: Ends k i e o :: whole_calls (S k) r end.

(** An order of calls: tickets, who, what, and the result. *)
Definition order := list (nat * (nat * errand * outcome told)).
Definition comes_before (k k' : nat) (l : order) : Prop := exists l1 l2, map fst l = l1 ++ l2 /\ In k l1 /\ In k' l2.
(** The order is one of calls that were made, each at most once; it has all that returned,
    with their results. *)
Definition accounts_for (tr : list mark) (l : order) : Prop :=
  NoDup (map fst l) /\ (forall k i e o, In (Ends k i e o) tr -> In (k, (i, e, o)) l) /\ (forall k i e o, In (k, (i, e, o)) l -> In (Begins k i e) tr).
(** A call that returned before another began comes before it. *)
Definition in_real_time (tr : list mark) (l : order) : Prop :=
  forall t1 k i e o t2 k' j e', tr = t1 ++ Ends k i e o :: t2 -> In (Begins k' j e') t2 -> In k' (map fst l) -> comes_before k k' l.
