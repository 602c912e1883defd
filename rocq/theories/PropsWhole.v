(** * Property C116: whole lives of a session.

    Statements only; every proof is in PWhole.v.  The words used are defined in
    Vocab7.v, Vocab19.v and Vocab22.v. *)
From Verif Require Import PWhole.

(** ** C116 Programs that open, use and close a session *)
(** Whatever the program does, each call tells it what the machine says. *)
Theorem C116_machine : forall u c w l r w' l', session_ok w -> user_memory u w -> story_ok u c -> tuned w l -> telling c w l r w' l' ->
  happen u (se_vendor (w_se w)) (se_serial (w_se w)) (at_w w l) r (at_w w' l') /\ tuned w' l' /\ session_ok w' /\ user_memory u w'.
Proof. exact story_machine. Qed.
Print Assumptions C116_machine.
(** A program that opens when closed and uses what is open is always in a session when it
    uses it, so its calls are answered; it crashes only on a connection it does not have or
    on an attribute of no bytes. *)
Theorem C116_orderly : forall u c w l r w' l' r1 a o r2, session_ok w -> user_memory u w -> story_ok u c -> tuned w l -> orderly false c -> se_id (w_se w) = 0 ->
  telling c w l r w' l' -> r = r1 ++ (Use a, o) :: r2 ->
  exists m1 m2, happen u (se_vendor (w_se w)) (se_serial (w_se w)) (at_w w l) r1 m1 /\ in_session m1 /\
    happens u (se_vendor (w_se w)) (se_serial (w_se w)) m1 (Use a) o m2 /\ in_session m2 /\ happen u (se_vendor (w_se w)) (se_serial (w_se w)) m2 r2 (at_w w' l') /\
    (forall ub, o = Undef ub -> (exists n, a = AskLeave n /\ ~ requests (ln_tg (m_line m1)) a) \/
       exists k junk x y z, a = AskGet k junk x y z /\ tg_attr (ln_tg (m_line m1)) (x, y, z) = Some []).
Proof. exact story_orderly. Qed.
Print Assumptions C116_orderly.
(** What was written is what is read, also when the session was closed and opened in between. *)
Theorem C116_remembers : forall u c w l w' l' r1 x y z d val r2 k junk v r3 data, session_ok w -> user_memory u w -> story_ok u c -> tuned w l ->
  telling c w l (r1 ++ (Use (AskSet x y z d), Ret val) :: r2 ++ (Use (AskGet k junk x y z), Ret (Value v)) :: r3) w' l' ->
  carries_opt u d data -> Forall (fun c => ~ wrote x y z c) r2 -> fits k v /\ exists rest, data = le k v ++ rest.
Proof. exact story_remembers. Qed.
Print Assumptions C116_remembers.
(** Two sessions in a row, with different handles. *)
Example C116_example : session_ok twice_world /\ user_memory [] twice_world /\ story_ok [] twice /\ orderly false twice /\ tuned twice_world idle /\ se_id (w_se twice_world) = 0 /\
  exists w' l', telling twice twice_world idle told_twice w' l'.
Proof.
  split; [apply session_ok_w0|]. split; [apply user_memory_w0|]. split; [apply twice_ok|]. split; [apply twice_ok|].
  split; [apply tuned_w0; reflexivity|]. split; [reflexivity|]. exact twice_telling.
Qed.
Example C116_example_splits : told_twice = [(dial, Ret Done)] ++ (Use set3, Ret Done) :: [(HangUp, Ret Done); (dial, Ret Done)] ++ (Use get3, Ret (Value 513)) :: [] /\
  carries_opt [] (Some (prim_ser 2 513)) (le 2 513) /\ Forall (fun c => ~ wrote 1 2 3 c) [(HangUp, Ret Done); (dial, Ret Done)].
Proof. split; [reflexivity|]. split; [exact (carries_prim _ 2 513)|]. repeat constructor; intros (? & ? & H); discriminate H. Qed.

(** Opening a session that is open always fails; unless nothing changed on the line, no call
    succeeds any more until the session is closed. *)
Theorem C116_reopen_partial : forall u v s m h p q o m1, in_session m -> ln_io (m_line m) = true -> happens u v s m (Dial h p q) o m1 ->
  (exists x, o = Throw SystemError x) /\
  (m1 = m \/ forall r m2, happen u v s m1 r m2 -> Forall (fun c => exists a, fst c = Use a) r -> Forall (fun c => (exists x, snd c = Throw SystemError x) \/ exists ub, snd c = Undef ub) r).
Proof. exact story_reopen. Qed.
Print Assumptions C116_reopen_partial.
Example C116_example_reopen : exists m1, let m := mkMachine (mkLine true true tg9) 9 7 in in_session m /\ ln_io (m_line m) = true /\ m1 <> m /\
  happens [] 0x195 0x4321 m dial (Throw SystemError "open") m1.
Proof.
  exists (mkMachine (mkLine true true (handle 0 tg9)) 9 7). split; [repeat split; discriminate|]. split; [reflexivity|]. split; [discriminate|].
  exact (happens_no_io [] 0x195 0x4321 (mkLine true true tg9) 9 7 _ _ _ _ true (fun _ => eq_refl)).
Qed.
(** Opening twice and reading an attribute crashes, though the target answers as it should
    and has the attribute. *)
Theorem C116_crash_refuted : exists w s w' l', session_ok w /\ user_memory [] w /\ tuned w has3 /\ se_id (w_se w) = 0 /\
  telling again w has3 [(dial, Ret Done); (dial, Throw SystemError s); (Use get3, Undef NullDeref)] w' l' /\
  tg_attr (ln_tg l') (1, 2, 3) = Some (le 2 513).
Proof. exact again_crashes. Qed.
Print Assumptions C116_crash_refuted.
Example C116_example_again : story_ok [] again /\ wish_ok [] get3.
Proof. split; [exact again_ok|exact get3_ok]. Qed.
