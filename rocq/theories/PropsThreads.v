(** * Properties C80 - C84: any number of threads, any schedule.
    Only statements, each closed by a lemma proved elsewhere. *)
From Coq Require Import Arith.PeanoNat.
From Verif Require Import PWitness7.

(** ** C80 Threads that use different sessions do not disturb each other *)
Theorem C80_sessions_apart : forall u s jobs sched ts s' k i ops ob l, pool_ok u s -> Forall (job_ok u s) jobs -> nth_error jobs k = Some (i, ops) ->
  (forall k' job, k' <> k -> nth_error jobs k' = Some job -> fst job <> i) -> alive s i ob -> linked s ob l -> own_sockets s i ob ->
  rounds sched (map start jobs) s = (ts, s') ->
  exists q, nth_error ts k = Some (mkTh i q) /\ (ended q <-> (steps (exec_p ops) (world_of s ob l) <= turns_of k sched)%nat) /\
    forall o, q = PEnd o -> exists rs w', exec ops (world_of s ob l) = (rs, w') /\ o = Ret rs /\ object_is s' i ob w'.
Proof. exact threads_apart. Qed.
Print Assumptions C80_sessions_apart.
(** The classes of the library may be used for the attributes that are read. *)
Theorem C80_classes :
  local_cls hdr_cls /\ local_cls ep_cls /\ local_cls it_cls /\ local_cls cpf_cls /\ local_cls mq_cls /\ local_cls ms_cls /\
  local_cls rr_base_cls /\ local_cls rrq_cls /\ local_cls rrs_cls /\ local_cls rg_cls /\ local_cls sa_cls /\ local_cls id_cls /\
  local_cls fo_cls /\ local_cls fc_cls /\ local_cls fs_cls /\ local_cls cs_cls /\ forall k, local_cls (prim_cls k).
Proof. exact local_all. Qed.
Print Assumptions C80_classes.
(** The atomic steps of a call, run without interruption, are the call. *)
Theorem C80_steps : forall ops w, run (exec_p ops) w = let (rs, w') := exec ops w in (Ret rs, w').
Proof. exact run_exec. Qed.
Print Assumptions C80_steps.
Example C80_example : pool_ok [] p9_80 /\ Forall (job_ok [] p9_80) jobs80 /\ (exists ob l, alive p9_80 0 ob /\ linked p9_80 ob l /\ own_sockets p9_80 0 ob) /\
  exists ts s' d e m, rounds (alternate 30) (map start jobs80) p9_80 = (ts, s') /\
    nth_error ts 0 = Some (mkTh 0 (PEnd (Ret [Ret RUnit; Ret RUnit]))) /\ nth_error ts 1 = Some (mkTh 1 (PEnd (Ret [Ret (RItems [mkItem 0x8002 (Some d)]); Throw e m]))).
Proof.
  split; [apply pool_ok_p9|]. split.
  { apply Forall_cons; [|apply Forall_cons; [|constructor]].
    - split; [|eexists; reflexivity]. apply Forall_cons; [split; exact Logic.I|]. apply Forall_cons; [apply call_get; reflexivity|constructor].
    - split; [|eexists; reflexivity]. apply Forall_cons; [split; exact Logic.I|]. apply Forall_cons; [split; exact Logic.I|constructor]. }
  split; [apply own_p9|]. do 5 eexists. split; [vm_compute; reflexivity|]. split; reflexivity.
Qed.

(** ** C81 Sending I/O beside any explicit calls is harmless *)
Theorem C81_commands : forall u s jobs sched ts s' k i ops ob l, pool_ok u s -> Forall (job_ok u s) jobs -> nth_error jobs k = Some (i, ops) -> Forall explicit ops ->
  (forall k' job, k' <> k -> nth_error jobs k' = Some job -> fst job <> i \/ Forall io_send (snd job)) -> alive s i ob -> linked s ob l -> own_sockets s i ob ->
  rounds sched (map start jobs) s = (ts, s') ->
  exists q, nth_error ts k = Some (mkTh i q) /\ (ended q <-> (steps (exec_p ops) (world_of s ob l) <= turns_of k sched)%nat) /\
    forall o, q = PEnd o -> exists rs w', exec ops (world_of s ob l) = (rs, w') /\ o = Ret rs /\ commands_are s' i ob w'.
Proof. exact commands_with_sends. Qed.
Print Assumptions C81_commands.
(** The value read is the same too. *)
Theorem C81_value : forall T u s (c : cls T) t x y z jobs sched ts s' i ob l, pool_ok u s -> Forall (job_ok u s) jobs -> x < 256 -> y < 256 -> z < 256 ->
  (c_sb c <> None \/ local_cls c) -> (forall job, In job jobs -> fst job <> i \/ Forall io_send (snd job)) -> alive s i ob -> linked s ob l -> own_sockets s i ob ->
  rounds sched (reading i c t x y z :: map beside jobs) s = (ts, s') ->
  exists q, nth_error ts 0 = Some (mkTh i q) /\ (ended q <-> (steps (get_p c t x y z) (world_of s ob l) <= turns_of 0 sched)%nat) /\
    forall o, q = PEnd o -> exists o1 t1 w', getSingleAttributeSerializable c x y z t (world_of s ob l) = (o1, t1, w') /\ commands_are s' i ob w' /\
      (forall v, o = Ret v -> o1 = Ret tt /\ v = Some t1) /\ (forall e m, o = Throw e m -> o1 = Throw e m) /\ (forall ub, o = Undef ub -> o1 = Undef ub).
Proof. exact (@read_with_sends). Qed.
Print Assumptions C81_value.
Example C81_example : pool_ok [] p9_81 /\ Forall (job_ok [] p9_81) jobs81 /\
  (exists ops, nth_error jobs81 0 = Some (0%nat, ops) /\ Forall explicit ops) /\ (exists ops, nth_error jobs81 1 = Some (0%nat, ops) /\ Forall io_send ops) /\
  (exists ob l, alive p9_81 0 ob /\ linked p9_81 ob l /\ own_sockets p9_81 0 ob) /\
  exists ts s', rounds (alternate 30) (map start jobs81) p9_81 = (ts, s') /\
    nth_error ts 0 = Some (mkTh 0 (PEnd (Ret [Ret (RNumber 0); Ret RUnit]))) /\ nth_error ts 1 = Some (mkTh 0 (PEnd (Ret [Ret RUnit; Ret RUnit]))).
Proof.
  split; [apply pool_w9|]. split.
  { apply Forall_cons; [|apply Forall_cons; [|constructor]].
    - split; [|eexists; reflexivity]. apply Forall_cons; [split; [split; reflexivity|exact Logic.I]|]. apply Forall_cons; [apply call_get; reflexivity|constructor].
    - split; [|eexists; reflexivity]. repeat (apply Forall_cons; [apply call_send|]). constructor. }
  split; [eexists; split; [reflexivity|repeat constructor]|]. split; [eexists; split; [reflexivity|repeat constructor]|].
  split; [do 2 eexists; split; [reflexivity|split; [reflexivity|apply own_alone]]|].
  do 2 eexists. split; [vm_compute; reflexivity|]. split; reflexivity.
Qed.
Example C81_example_value : exists ts s', rounds (alternate 30) (reading 0 (prim_cls 2) 0 1 1 1 :: map beside [(0%nat, [OpSendIO [io_item]])])
    (pool_of (w9 [RxData (explicit_reply 9 0x8E 0 (le 2 77))] [])) = (ts, s') /\
  nth_error ts 0 = Some (mkTh 0 (PEnd (Ret (Some 77)))) /\ nth_error ts 1 = Some (mkTh 0 (PEnd (Ret None))).
Proof. do 2 eexists. split; [vm_compute; reflexivity|]. split; reflexivity. Qed.

(** ** C82 Connections made by concurrent calls have distinct serial numbers: violated *)
(** Two threads that make a connection each, on one session, both succeed with the same
    serial number and the same connection ids proposed. *)
Theorem C82_concurrent_refuted : exists s jobs sched ts s' ob c1 c2, pool_ok [] s /\ Forall (job_ok [] s) jobs /\ rounds sched (map start jobs) s = (ts, s') /\
  nth_error ts 0 = Some (mkTh 0 (PEnd (Ret [Ret (RNumber 0)]))) /\ nth_error ts 1 = Some (mkTh 0 (PEnd (Ret [Ret (RNumber 1)]))) /\
  alive s' 0 ob /\ se_conns (ob_se ob) = [c1; c2] /\ cn_sn c1 = cn_sn c2.
Proof.
  exists p9_82, jobs82, sched82. do 5 eexists. split; [apply pool_w9|]. split.
  { repeat (apply Forall_cons; [split; [apply Forall_cons; [split; [split; reflexivity|exact Logic.I]|constructor]|eexists; reflexivity]|]). constructor. }
  split; [vm_compute; reflexivity|]. split; [reflexivity|]. split; [reflexivity|]. split; [reflexivity|]. split; reflexivity.
Qed.
Print Assumptions C82_concurrent_refuted.
(** With a lock around each call they are distinct. *)
Theorem C82_locked_partial : forall u s i jobs sched ts s' ob l rs w', pool_ok u s -> alive s i ob -> linked s ob l -> Forall (Forall (op_ok u)) jobs ->
  fits 2 (se_next_sn (ob_se ob)) -> fits 4 (se_next_id (ob_se ob)) -> se_conns (ob_se ob) = [] ->
  rounds sched (map (fun ops => mkTh i (locked ops)) jobs) s = (ts, s') ->
  exec (map snd (merge sched jobs)) (world_of s ob l) = (rs, w') -> Forall no_ub rs -> len (attempts (map snd (merge sched jobs)) (world_of s ob l)) <= 65536 ->
  exists ob', alive s' i ob' /\ NoDup (map cn_sn (se_conns (ob_se ob'))).
Proof. exact locked_serials. Qed.
Print Assumptions C82_locked_partial.
Example C82_example : let s := pool_of (w9 [RxData (fo_reply 7); RxData (fo_reply 8)] []) in let jobs := [[OpCreate ci0 ci0]; [OpCreate ci0 ci0]] in
  Forall (Forall (op_ok [])) jobs /\ exists ts s' rs w' ob l, alive s 0 ob /\ linked s ob l /\ rounds [1; 0]%nat (map (fun ops => mkTh 0 (locked ops)) jobs) s = (ts, s') /\
  exec (map snd (merge [1; 0]%nat jobs)) (world_of s ob l) = (rs, w') /\ rs = [Ret (RNumber 0); Ret (RNumber 1)] /\ map cn_sn (se_conns (w_se w')) = [7; 8].
Proof.
  cbv zeta. split; [repeat (apply Forall_cons; [apply Forall_cons; [split; reflexivity|constructor]|]); constructor|].
  do 6 eexists. split; [reflexivity|]. split; [reflexivity|]. split; [vm_compute; reflexivity|]. split; [vm_compute; reflexivity|]. split; reflexivity.
Qed.

(** ** C83 With a lock around each call a session can be shared *)
(** Whatever the schedule, the calls have the results and the effect they have when one
    caller makes them in the order in which the lock was taken. *)
Theorem C83_lock : forall u s i jobs sched ts s' ob l rs w', pool_ok u s -> alive s i ob -> linked s ob l -> Forall (Forall (op_ok u)) jobs ->
  rounds sched (map (fun ops => mkTh i (locked ops)) jobs) s = (ts, s') ->
  exec (map snd (merge sched jobs)) (world_of s ob l) = (rs, w') -> Forall no_ub rs ->
  object_is s' i ob w' /\ forall k q o, nth_error ts k = Some (mkTh i q) -> q = PEnd o ->
    nth_error jobs k = Some (calls_of k (merge sched jobs)) /\ o = Ret (results_of k (merge sched jobs) rs).
Proof. exact under_lock. Qed.
Print Assumptions C83_lock.
Example C83_example : let s := pool_of (w9 [RxData (explicit_reply 9 0x8E 0 (le 2 77))] [RxData (cpf [(0x8002, [x01; x02])])]) in
  let jobs := [[OpReceiveIO; OpSendIO [io_item]]; [OpGet N (prim_cls 2) 0 1 1 1]] in
  exists ts s' d, rounds [0; 1; 0]%nat (map (fun ops => mkTh 0 (locked ops)) jobs) s = (ts, s') /\
  nth_error ts 0 = Some (mkTh 0 (PEnd (Ret [Ret (RItems [mkItem 0x8002 (Some d)]); Ret RUnit]))) /\ nth_error ts 1 = Some (mkTh 0 (PEnd (Ret [Ret RUnit]))).
Proof. cbv zeta. do 3 eexists. split; [vm_compute; reflexivity|]. split; reflexivity. Qed.

(** ** C84 Receiving I/O beside explicit calls is harmless: violated *)
(** A complete packet arrives, and the receiver raises: its bytes were overwritten by the
    reply to the other thread's request between the reception and the decoding. *)
Theorem C84_receive_refuted : exists s sched ts s' ob l p w' m, pool_ok [] s /\ Forall (job_ok [] s) jobs84 /\ rounds sched (map start jobs84) s = (ts, s') /\
  alive s 0 ob /\ linked s ob l /\ exec [OpReceiveIO] (world_of s ob l) = ([Ret (RItems p)], w') /\
  nth_error ts 0 = Some (mkTh 0 (PEnd (Ret [Throw LengthError m]))) /\ nth_error ts 1 = Some (mkTh 0 (PEnd (Ret [Ret RUnit]))).
Proof.
  exists p9_84, sched84. do 7 eexists. split; [apply pool_w9|]. split.
  { apply Forall_cons; [|apply Forall_cons; [|constructor]].
    - split; [|eexists; reflexivity]. apply Forall_cons; [split; exact Logic.I|constructor].
    - split; [|eexists; reflexivity]. apply Forall_cons; [apply call_get; reflexivity|constructor]. }
  split; [vm_compute; reflexivity|]. split; [reflexivity|]. split; [reflexivity|]. split; [vm_compute; reflexivity|]. split; reflexivity.
Qed.
Print Assumptions C84_receive_refuted.
