(** * C125 Explicit messages and I/O made one after the other do not disturb each other *)
From Verif Require Import PMixed.

(** The explicit messages of a mixed history have the results and values they have
    without the I/O, and leave the same session, socket and traffic. A history that
    ends early ends there: the explicit messages before it are as without the I/O. *)
Theorem C125_commands : forall u ops w, session_ok w -> user_memory u w -> Forall mixed ops -> Forall (fresh_ok u) ops ->
  (exists rest, record (filter on_control ops) w = filter of_control (record ops w) ++ rest) /\
  (all_made ops w -> record (filter on_control ops) w = filter of_control (record ops w) /\ all_made (filter on_control ops) w /\
     same_control (after_calls ops w) (after_calls (filter on_control ops) w)).
Proof. exact mixed_commands. Qed.
Print Assumptions C125_commands.
(** The same the other way round: packets of I/O, byte for byte as they are received. *)
Theorem C125_io : forall u ops w, session_ok w -> user_memory u w -> Forall mixed ops -> Forall (fresh_ok u) ops ->
  (exists rest, record (filter on_io ops) w = filter of_io (record ops w) ++ rest) /\
  (all_made ops w -> record (filter on_io ops) w = filter of_io (record ops w) /\ all_made (filter on_io ops) w /\
     same_io (after_calls ops w) (after_calls (filter on_io ops) w)).
Proof. exact mixed_io. Qed.
Print Assumptions C125_io.
(** How the two are interleaved does not matter. *)
Theorem C125_order : forall u ops ops' w, session_ok w -> user_memory u w -> Forall mixed ops -> Forall mixed ops' -> Forall (fresh_ok u) ops -> Forall (fresh_ok u) ops' ->
  filter on_control ops' = filter on_control ops -> filter on_io ops' = filter on_io ops -> all_made ops w ->
  all_made ops' w /\ filter of_control (record ops' w) = filter of_control (record ops w) /\ filter of_io (record ops' w) = filter of_io (record ops w) /\
  same_control (after_calls ops' w) (after_calls ops w) /\ same_io (after_calls ops' w) (after_calls ops w).
Proof. exact mixed_order. Qed.
Print Assumptions C125_order.
(** Two attributes and a connection, with a packet, a send and a failed receive in
    between; and the same calls in another order. *)
Example C125_example : session_ok w_mixed /\ user_memory [] w_mixed /\ all_made ops_mixed w_mixed /\
  filter on_control ops_moved = filter on_control ops_mixed /\ filter on_io ops_moved = filter on_io ops_mixed /\
  map (fun x => (snd (fst x), snd x)) (filter of_control (record ops_mixed w_mixed)) = [(Ret RUnit, Value N 513); (Ret (RNumber 0), Nothing); (Ret RUnit, Value N 772)] /\
  map snd (filter of_io (record ops_mixed w_mixed)) = [Items [(0x8002, Some (Ret (seq_address 7 1))); (0x00B1, Some (Ret [x01; x02; x03]))]; Nothing; Nothing].
Proof. exact mixed_example. Qed.
Example C125_proper : Forall mixed ops_mixed /\ Forall mixed ops_moved /\ Forall (fresh_ok []) ops_mixed /\ Forall (fresh_ok []) ops_moved.
Proof. exact ops_mixed_ok. Qed.
