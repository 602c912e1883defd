(** * Property C121: clients of one target that come and go.

    Statements only; every proof is in PGuests.v.  The words used are defined in
    Vocab7.v, Vocab19.v, Vocab20.v, Vocab22.v and Vocab26.v. *)
From Verif Require Import PGuests.
Local Open Scope N_scope.

(** ** C121 Clients that open, use and close sessions with one target *)
(** Whatever the programs and the order of their calls, every client is told what the machine
    says, no call touches a connection of another client, and in the end each client agrees
    with the target on its own connections. *)
Theorem C121_machine : forall s gs l s' gs', gathering s gs l s' gs' -> Forall (guest_ok s) gs -> NoDup (map goes_by gs) ->
  takes_turns (map gs_mem gs) (map goes_by gs) s (map seat_of gs) l s' (map seat_of gs') /\ Forall (guest_ok s') gs' /\ map goes_by gs' = map goes_by gs.
Proof. exact gathering_turns. Qed.
Print Assumptions C121_machine.
(** A client that opens when closed and uses what is open is in a session at each use, whatever
    the others do; it crashes only on a connection it does not have or on an attribute of no
    bytes. *)
Theorem C121_orderly : forall s gs l s' gs' i g l1 a o l2, gathering s gs l s' gs' -> Forall (guest_ok s) gs -> NoDup (map goes_by gs) -> nth_error gs i = Some g ->
  orderly false (gs_story g) -> se_id (w_se (gs_world g)) = 0 -> l = l1 ++ (i, Use a, o) :: l2 ->
  exists s1 xs1 x v sr, goes_by g = (v, sr) /\ takes_turns (map gs_mem gs) (map goes_by gs) s (map seat_of gs) l1 s1 xs1 /\ nth_error xs1 i = Some x /\ in_session (part v sr s1 x) /\
    (crash o -> (exists n, a = AskLeave n /\ nth_error (filter (owns v sr) (sv_conns s1)) (N.to_nat n) = None) \/
       exists k junk p q r, a = AskGet k junk p q r /\ sv_attr s1 (p, q, r) = Some []).
Proof. exact guests_orderly. Qed.
Print Assumptions C121_orderly.
(** What others do, opening and closing sessions included, changes neither a client's session
    nor its connections at the target. *)
Theorem C121_apart : forall s gs l s' gs' i g, gathering s gs l s' gs' -> Forall (guest_ok s) gs -> NoDup (map goes_by gs) -> nth_error gs i = Some g -> Forall (fun c => caller c <> i) l ->
  nth_error gs' i = Some g /\ conns_of (w_se (gs_world g)) s' = conns_of (w_se (gs_world g)) s.
Proof. exact guests_apart. Qed.
Print Assumptions C121_apart.
(** What one client reads is what was last written, whoever wrote it and whatever sessions
    were opened and closed since. *)
Theorem C121_remembers : forall s gs s' gs' l1 i x y z d val l2 j k junk v l3 g data,
  gathering s gs (l1 ++ (i, Use (AskSet x y z d), Ret val) :: l2 ++ (j, Use (AskGet k junk x y z), Ret (Value v)) :: l3) s' gs' ->
  Forall (guest_ok s) gs -> NoDup (map goes_by gs) -> nth_error gs i = Some g -> carries_opt (gs_mem g) d data -> Forall (fun c => ~ put_there x y z c) l2 ->
  fits k v /\ exists rest, data = le k v ++ rest.
Proof. exact guests_remember. Qed.
Print Assumptions C121_remembers.
(** One client opens, writes and closes; another, open all the time, reads what it wrote. *)
Example C121_example : Forall (guest_ok duo_s) visitors /\ NoDup (map goes_by visitors) /\
  Forall (fun g => orderly false (gs_story g) /\ se_id (w_se (gs_world g)) = 0) visitors /\ exists gs', gathering duo_s visitors visits (mkServer duo_attr []) gs'.
Proof. destruct visitors_ok as (A & B & C). exact (conj A (conj B (conj C visiting))). Qed.
Example C121_example_splits : visits = [(1%nat, dial, Ret Done); (0%nat, dial, Ret Done)] ++ (0%nat, Use set3, Ret Done) :: [(0%nat, HangUp, Ret Done)] ++ (1%nat, Use get3, Ret (Value 513)) :: [] /\
  carries_opt [] (Some (prim_ser 2 513)) (le 2 513) /\ Forall (fun c => ~ put_there 1 2 3 c) [(0%nat, HangUp, Ret Done)].
Proof. split; [reflexivity|]. split; [exact (carries_prim _ 2 513)|]. repeat constructor. intros (? & ? & H & _). discriminate H. Qed.
