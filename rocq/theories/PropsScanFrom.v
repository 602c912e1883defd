(** * PropsScanFrom: C138, what a scanner reports. *)
From Verif Require Import PScanFrom PWitness5.
Local Open Scope N_scope.

(** ** C138 *)
(** Over any history, an identity is reported for a scanner only if a datagram with that identity
    reached it during some run. *)
Theorem C138_sound_partial : forall cs k i, In (k, Ret (ScanIdentity i)) (sv_reports (snd (sdo_all cs sv_new))) ->
  exists k' e arr bs, In (SRun k' e arr) cs /\ In (k, inr bs) arr /\ identifies (take 4096 bs) i.
Proof. exact found_sound. Qed.
Print Assumptions C138_sound_partial.
(** Without broadcast addresses, anything is reported only after the scanner sent a request ([cs] may be any prefix). *)
Theorem C138_asked_partial : forall cs k o, Forall one_host cs -> In (k, o) (sv_reports (snd (sdo_all cs sv_new))) ->
  exists r, In (k, r, request 0x63 0 []) (sv_sent (snd (sdo_all cs sv_new))).
Proof. exact found_asked. Qed.
Print Assumptions C138_asked_partial.
Example C138_sound_example : In (1%nat, Ret (ScanIdentity (device 6))) (sv_reports (snd (sdo_all [SNew "plc1" true; SNew "plc2" true; SRequest 1 test_lan;
  SRun 0 test_lan [(1%nat, inr (device_reply 6))]] sv_new))).
Proof. vm_compute. left. reflexivity. Qed.

Example C138_asked_example : let e := mkSnet (sn_resolve test_lan) (fun _ => false) in
  Forall one_host [SNew "plc1" true; SRun 0 e [(0%nat, inr (device_reply 6))]] /\
  In (0%nat, Ret (ScanIdentity (device 6))) (sv_reports (snd (sdo_all [SNew "plc1" true; SRun 0 e [(0%nat, inr (device_reply 6))]] sv_new))).
Proof. cbv zeta. split; [repeat constructor|]. vm_compute. left. reflexivity. Qed.
(** With them, the refused request leaves the socket with a port, and what comes there is reported. *)
Theorem C138_unasked_refuted : exists cs i, In (0%nat, Ret (ScanIdentity i)) (sv_reports (snd (sdo_all cs sv_new))) /\
  sv_sent (snd (sdo_all cs sv_new)) = [(1%nat, mkEnd 1 44818, request 0x63 0 [])].
Proof. exact unasked. Qed.
Print Assumptions C138_unasked_refuted.

(** Not: that it is the identity of the device that was asked.  Whoever sends first is reported,
    and what the device itself answers is not looked at. *)
Theorem C138_stranger_refuted : forall s name e r rs k from bs i rest, usable s -> (forall j, ~ listens s j) -> k = List.length (sv_all s) ->
  sn_resolve e name "44818" = r :: rs -> sn_bcast e r = false -> from <> r -> identifies (take 4096 bs) i ->
  no_crash (map (fun x => (fst x, inr (snd (snd x)))) rest) ->
  exists s', sc_run_from k e ((k, (from, bs)) :: rest) (snd (sc_new name true s)) = (Ret tt, s') /\
    sv_reports s' = sv_reports s ++ [(k, Ret (ScanIdentity i))] /\ sv_sent s' = sv_sent s ++ [(k, r, request 0x63 0 [])].
Proof. exact stranger. Qed.
Print Assumptions C138_stranger_refuted.
Example C138_stranger_example : usable sv_new /\ (forall j, ~ listens sv_new j) /\ sn_resolve test_lan "plc1" "44818" = [mkEnd 1 44818] /\
  sn_bcast test_lan (mkEnd 1 44818) = false /\ mkEnd 9 7 <> mkEnd 1 44818 /\ identifies (device_reply 666) (device 666) /\ take 4096 (device_reply 666) = device_reply 666 /\
  no_crash (map (fun x => (fst x, inr (snd (snd x)))) [(0%nat, (mkEnd 1 44818, device_reply 5))]) /\
  sv_reports (snd (sc_run_from 0 test_lan [(0%nat, (mkEnd 9 7, device_reply 666)); (0%nat, (mkEnd 1 44818, device_reply 5))] (snd (sc_new "plc1" true sv_new)))) =
    [(0%nat, Ret (ScanIdentity (device 666)))].
Proof.
  split; [split; reflexivity|]. split; [intros j (c & E & _); destruct j; discriminate E|]. split; [reflexivity|]. split; [reflexivity|]. split; [discriminate|].
  split; [apply device_identifies; reflexivity|]. split; [vm_compute; reflexivity|].
  split. { intros k bs [X|[]]. inversion X; subst. eapply ret_no_crash. vm_compute. reflexivity. }
  vm_compute. reflexivity.
Qed.
