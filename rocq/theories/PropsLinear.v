(** * Property C122: calls of several clients that overlap in time.

    Statements only; every proof is in PLinear.v.  The words used are defined in
    Vocab7.v, Vocab19.v, Vocab20.v, Vocab22.v, Vocab26.v and Vocab27.v. *)
From Verif Require Import PLinear.
Local Open Scope N_scope.

(** ** C122 Calls that overlap take effect one at a time *)
(** However the calls of the clients overlap, there is an order of them, one after the other,
    that keeps every result, puts a call that returned before another began before it, and
    agrees with the machine of C121: the target ends in the same state, and so does every
    client that is not in a call. *)
Theorem C122_linear : forall s gs tr a, goings_on (at_rest s gs) tr a -> Forall (guest_ok s) gs -> NoDup (map goes_by gs) ->
  exists l gs', accounts_for tr l /\ in_real_time tr l /\ gathering s gs (map snd l) (ha_server a) gs' /\
    takes_turns (map gs_mem gs) (map goes_by gs) s (map seat_of gs) (map snd l) (ha_server a) (map seat_of gs') /\
    forall i g, nth_error (ha_guests a) i = Some (g, None) -> nth_error gs' i = Some g.
Proof. exact linear. Qed.
Print Assumptions C122_linear.
(** A read that begins after a write of the attribute returned gives what was written, if every
    other write of it returned before that one began or begins after the read returned. *)
Theorem C122_remembers : forall s gs a t0 k1 i x y z d val t1 t2 k2 j kk junk v t3 t4 g data,
  goings_on (at_rest s gs) (t0 ++ Begins k1 i (Use (AskSet x y z d)) :: t1 ++ Ends k1 i (Use (AskSet x y z d)) (Ret val) :: t2 ++ Begins k2 j (Use (AskGet kk junk x y z)) :: t3 ++
    Ends k2 j (Use (AskGet kk junk x y z)) (Ret (Value v)) :: t4) a ->
  Forall (guest_ok s) gs -> NoDup (map goes_by gs) -> nth_error gs i = Some g -> carries_opt (gs_mem g) d data ->
  (forall k n d', In (Begins k n (Use (AskSet x y z d'))) (t0 ++ t1 ++ t2 ++ t3) -> exists o, In (Ends k n (Use (AskSet x y z d')) o) t0) ->
  fits kk v /\ exists rest, data = le kk v ++ rest.
Proof. exact linear_remembers. Qed.
Print Assumptions C122_remembers.
(** Calls made one after the other are among these runs. *)
Theorem C122_sequential : forall s gs l s' gs', gathering s gs l s' gs' -> forall k, goings_on (resting s gs k) (whole_calls k l) (resting s' gs' (k + List.length l)).
Proof. exact sequential. Qed.
Print Assumptions C122_sequential.
(** Both clients open at once; a read begins before a write does and returns before the write
    returns, with the value written. *)
Example C122_example : Forall (guest_ok duo_s) visitors /\ NoDup (map goes_by visitors) /\ exists a, goings_on (at_rest duo_s visitors) overlap a.
Proof. destruct visitors_ok as (A & B & _). exact (conj A (conj B overlapping)). Qed.
(** The calls of C121, one after the other, as a run for the theorem on reads. *)
Example C122_example_splits : (exists a, goings_on (at_rest duo_s visitors) (whole_calls 0 visits) a) /\
  whole_calls 0 visits = [Begins 0 1 dial; Ends 0 1 dial (Ret Done); Begins 1 0 dial; Ends 1 0 dial (Ret Done)] ++ Begins 2 0 (Use set3) :: [] ++ Ends 2 0 (Use set3) (Ret Done) ::
    [Begins 3 0 HangUp; Ends 3 0 HangUp (Ret Done)] ++ Begins 4 1 (Use get3) :: [] ++ Ends 4 1 (Use get3) (Ret (Value 513)) :: [] /\
  carries_opt [] (Some (prim_ser 2 513)) (le 2 513).
Proof.
  split; [destruct visiting as [gs' G]; exact (ex_intro _ _ (sequential _ _ _ _ _ G 0))|]. split; [reflexivity|exact (carries_prim _ 2 513)].
Qed.
