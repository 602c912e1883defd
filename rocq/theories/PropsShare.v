(** * Property C113: several clients of one target.

    Statements only; every proof is in PShare.v.  The words used are defined in
    Vocab7.v, Vocab19.v and Vocab20.v. *)
From Verif Require Import PShare.

(** ** C113 Clients that share a target *)
(** Whatever the order of their calls, every client is told what the one state machine says,
    and in the end each agrees with the target on its own connections. *)
Theorem C113_machine : forall s ps l s' ps', joint s ps l s' ps' -> Forall (party_ok s) ps -> strangers ps ->
  in_turn (map pt_mem ps) (map who ps) s (map (fun p => se_next_sn (w_se (pt_world p))) ps) l s' (map (fun p => se_next_sn (w_se (pt_world p))) ps') /\
  Forall (party_ok s') ps' /\ map who ps' = map who ps.
Proof. exact joint_turns. Qed.
Print Assumptions C113_machine.
(** What one client reads is what was last written, whoever wrote it. *)
Theorem C113_last_write : forall s ps s' ps' l1 i x y z d l2 j k junk v l3 p data,
  joint s ps (l1 ++ (i, AskSet x y z d, Ret Done) :: l2 ++ (j, AskGet k junk x y z, Ret (Value v)) :: l3) s' ps' ->
  Forall (party_ok s) ps -> strangers ps -> nth_error ps i = Some p -> carries_opt (pt_mem p) d data -> Forall (fun c => ~ writes_to x y z c) l2 ->
  exists rest, data = le k v ++ rest /\ fits k v.
Proof. exact joint_last_write. Qed.
Print Assumptions C113_last_write.
(** Two clients that use the same connection serial number; the second reads what the first wrote. *)
Example C113_example : Forall (party_ok duo_s) duo /\ strangers duo /\ exists ps', joint duo_s duo duo_calls (mkServer duo_attr [(7, 0x195, 0x5555)]) ps'.
Proof. split; [apply duo_ok|]. split; [apply duo_ok|]. exact duo_joint. Qed.
Example C113_example_write : exists l1 l2 l3, duo_calls = l1 ++ (0%nat, AskSet 1 2 3 (Some (prim_ser 2 513)), Ret Done) :: l2 ++ (1%nat, AskGet 2 0 1 2 3, Ret (Value 513)) :: l3 /\
  Forall (fun c => ~ writes_to 1 2 3 c) l2.
Proof.
  exists [], [(1%nat, AskJoin ci0 ci0, Ret (Number 0)); (0%nat, AskJoin ci0 ci0, Ret (Number 0))], [(0%nat, AskLeave 0, Ret Done)].
  split; [reflexivity|]. repeat constructor; intros (? & ? & ? & H); discriminate H.
Qed.
