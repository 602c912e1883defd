(** * PropsScanNet: C137, scanners on an io_service. *)
From Verif Require Import PScanNet PWitness5.
Local Open Scope N_scope.

(** ** C137 *)
(** What holds: a scanner that is alone on a service that was not run to its end, or was reset, asks
    the first address of its name once, with a well-formed request; the first datagram that reaches
    it is handled as in C57, and run returns. *)
Theorem C137_alone_partial : forall s name e r rs arr x k, usable s -> (forall j, ~ listens s j) -> k = List.length (sv_all s) ->
  sn_resolve e name "44818" = r :: rs -> sn_bcast e r = false -> no_crash arr -> first_for k arr x ->
  exists o s', scan_run [] [x] = [o] /\ sdo_all [SNew name true; SRun k e arr] s = ([Ret tt; Ret tt], s') /\
    sv_sent s' = sv_sent s ++ [(k, r, request 0x63 0 [])] /\ sv_reports s' = sv_reports s ++ [(k, o)].
Proof. exact scan_alone. Qed.
Print Assumptions C137_alone_partial.
Theorem C137_reset_partial : forall s name e r rs arr x k, sv_due s = [] -> (forall j, ~ listens s j) -> k = List.length (sv_all s) ->
  sn_resolve e name "44818" = r :: rs -> sn_bcast e r = false -> no_crash arr -> first_for k arr x ->
  exists o s', scan_run [] [x] = [o] /\ sdo_all [SReset; SNew name true; SRun k e arr] s = ([Ret tt; Ret tt; Ret tt], s') /\
    sv_sent s' = sv_sent s ++ [(k, r, request 0x63 0 [])] /\ sv_reports s' = sv_reports s ++ [(k, o)].
Proof. exact scan_again. Qed.
Print Assumptions C137_reset_partial.
Example C137_alone_example : usable sv_new /\ (forall j, ~ listens sv_new j) /\ first_for 0 [(7%nat, inl tt); (0%nat, inr (device_reply 5))] (inr (device_reply 5)) /\
  no_crash [(7%nat, inl tt); (0%nat, inr (device_reply 5))] /\ sn_resolve test_lan "plc1" "44818" = [mkEnd 1 44818] /\ sn_bcast test_lan (mkEnd 1 44818) = false /\
  sv_reports (snd (sdo_all [SNew "plc1" true; SRun 0 test_lan [(7%nat, inl tt); (0%nat, inr (device_reply 5))]; SReset;
    SNew "plc2" true; SRun 1 test_lan [(1%nat, inr (device_reply 6))]] sv_new)) = [(0%nat, Ret (ScanIdentity (device 5))); (1%nat, Ret (ScanIdentity (device 6)))].
Proof.
  split; [split; reflexivity|]. split; [intros j (c & E & _); destruct j; discriminate E|]. split.
  { exists [(7%nat, inl tt)], []. split; [reflexivity|]. intros y [<-|[]]. discriminate. }
  split. { intros k bs [X|[X|[]]]; inversion X. eapply ret_no_crash. vm_compute. reflexivity. }
  repeat split; vm_compute; reflexivity.
Qed.

(** Any number of scanners side by side, any of which runs the service: it returns exactly when
    every scanner that listens has asked and gets a datagram, and else waits for ever; it never
    raises after the request was sent. *)
Theorem C137_returns_partial : forall k e arr s r, targets s k e r -> sn_bcast e r = false -> usable s -> no_crash arr ->
  let (o, s') := sc_run k e arr s in
  sv_sent s' = sv_sent s ++ [(k, r, request 0x63 0 [])] /\
  ((o = Ret tt /\ sv_stopped s' = true /\ sv_due s' = [] /\ (forall j, ~ listens s' j)) \/ o = Stuck) /\
  (o = Ret tt <-> forall j, listens s j -> (j = k \/ has_asked s j) /\ exists x, In (j, x) arr).
Proof. exact scan_returns. Qed.
Print Assumptions C137_returns_partial.
(** Returned or not, each that listens and has asked is told its first datagram and nothing else; the
    others are told nothing. *)
Theorem C137_told_partial : forall k e arr s r, targets s k e r -> sn_bcast e r = false -> usable s -> no_crash arr ->
  forall j, (forall x, listens s j -> j = k \/ has_asked s j -> first_for j arr x ->
      exists o, scan_run [] [x] = [o] /\ reports_of j (sv_reports (snd (sc_run k e arr s))) = reports_of j (sv_reports s) ++ [o]) /\
    (~ (listens s j /\ (j = k \/ has_asked s j)) -> reports_of j (sv_reports (snd (sc_run k e arr s))) = reports_of j (sv_reports s)).
Proof. exact scan_told. Qed.
Print Assumptions C137_told_partial.
(** Two scanners, both asked, answers in the other order: both reported, run returns. *)
Example C137_beside_example : let s := snd (sdo_all [SNew "plc1" true; SNew "plc2" true; SRequest 0 test_lan] sv_new) in
  targets s 1 test_lan (mkEnd 2 44818) /\ usable s /\ listens s 0 /\ listens s 1 /\ has_asked s 0 /\ ~ has_asked s 1 /\
  exists s', sc_run 1 test_lan [(1%nat, inr (device_reply 6)); (0%nat, inr (device_reply 5))] s = (Ret tt, s') /\
    sv_reports s' = [(1%nat, Ret (ScanIdentity (device 6))); (0%nat, Ret (ScanIdentity (device 5)))] /\
    sv_sent s' = [(0%nat, mkEnd 1 44818, request 0x63 0 []); (1%nat, mkEnd 2 44818, request 0x63 0 [])].
Proof.
  cbv zeta. split; [exists (mkScan "plc2" true true false), []; repeat split; vm_compute; reflexivity|].
  split; [split; vm_compute; reflexivity|]. split; [exists (mkScan "plc1" true true true); split; vm_compute; reflexivity|].
  split; [exists (mkScan "plc2" true true false); split; vm_compute; reflexivity|]. split; [exists (mkScan "plc1" true true true); split; vm_compute; reflexivity|].
  split. { intros (c & E & A). vm_compute in E. inversion E; subst. discriminate A. }
  eexists. split; [vm_compute; reflexivity|]. split; vm_compute; reflexivity.
Qed.

(** Over any history, no scanner is told two things. *)
Theorem C137_once_partial : forall cs k, (List.length (reports_of k (sv_reports (snd (sdo_all cs sv_new)))) <= 1)%nat.
Proof. exact once. Qed.
Print Assumptions C137_once_partial.
Example C137_once_example : reports_of 0 (sv_reports (snd (sdo_all [SNew "plc1" true; SRun 0 test_lan [(0%nat, inr (device_reply 5)); (0%nat, inr (device_reply 6))];
  SReset; SRun 0 test_lan [(0%nat, inr (device_reply 7))]] sv_new))) = [Ret (ScanIdentity (device 5))].
Proof. vm_compute. reflexivity. Qed.

(** Undefined behaviour only if a call names a scanner that does not exist, one that listens was
    destroyed, or a datagram is of the crashing forms of C57. *)
Theorem C137_safe_partial : forall s c u, names_existing s c -> sv_due s = [] -> fst (sdo c s) = Undef u ->
  u = NullDeref /\ exists k e arr j bs, c = SRun k e arr /\ In (j, inr bs) arr /\ scan_crashes (take 4096 bs).
Proof. exact step_safe. Qed.
Print Assumptions C137_safe_partial.
Theorem C137_due_partial : forall c s, sv_due (snd (sdo c s)) = sv_due s \/ exists k, c = SDestroy k /\ listens s k.
Proof. exact step_due. Qed.
Print Assumptions C137_due_partial.
Theorem C137_history_partial : forall cs s u, sv_due s = [] -> careful cs s -> ~ In (Undef u) (fst (sdo_all cs s)).
Proof. exact careful_safe. Qed.
Print Assumptions C137_history_partial.
Example C137_history_example : careful [SNew "plc1" true; SRun 0 test_lan [(0%nat, inr (device_reply 5))]; SDestroy 0; SReset; SNew "plc2" true; SRun 1 test_lan []] sv_new.
Proof.
  cbn [careful names_existing]. repeat (match goal with |- _ /\ _ => split | |- True => exact I | |- forall k, SNew _ _ = _ -> _ => discriminate | |- forall k, SRun _ _ _ = _ -> _ => discriminate
    | |- forall k, SReset = _ -> _ => discriminate | |- forall k e arr, SNew _ _ = _ -> _ => discriminate | |- forall k e arr, SDestroy _ = _ -> _ => discriminate
    | |- forall k e arr, SReset = _ -> _ => discriminate end).
  - exists (mkScan "plc1" true true false). split; reflexivity.
  - intros k e arr E. inversion E; subst. intros j bs [X|[]]. inversion X; subst. eapply ret_no_crash. vm_compute. reflexivity.
  - exists (mkScan "plc1" true false true). split; vm_compute; reflexivity.
  - intros k E. inversion E; subst. intros (c & X & A). vm_compute in X. inversion X; subst. discriminate A.
  - exists (mkScan "plc2" true true false). split; vm_compute; reflexivity.
  - intros k e arr E. inversion E; subst. intros j bs [].
Qed.
Example C137_safe_example : let s := snd (sdo (SNew "plc1" true) sv_new) in names_existing s (SRun 0 test_lan []) /\ sv_due s = [] /\
  fst (sdo (SRun 0 test_lan []) s) = Stuck /\ fst (sdo (SRun 0 test_lan [(0%nat, inr (request 0x63 0 []))]) s) = Undef NullDeref.
Proof. cbv zeta. split; [eexists; split; reflexivity|]. repeat split; vm_compute; reflexivity. Qed.

(** What does not: "scan a network".  A broadcast address is refused; nothing is sent. *)
Theorem C137_network_refuted : forall s k e r arr, targets s k e r -> sn_bcast e r = true ->
  exists t s', sc_run k e arr s = (Throw SystemError t, s') /\ sv_sent s' = sv_sent s /\ sv_reports s' = sv_reports s.
Proof. exact scan_network. Qed.
Print Assumptions C137_network_refuted.
Example C137_network_example : let s := snd (sdo (SNew "lan" true) sv_new) in targets s 0 test_lan (mkEnd 255 44818) /\ sn_bcast test_lan (mkEnd 255 44818) = true.
Proof. cbv zeta. split; [|reflexivity]. exists (mkScan "lan" true true false), []. repeat split. Qed.

(** Once run has returned, no scanner on that service, new or old, reports anything, whatever is
    called, until the program itself calls reset(); run does not wait either. *)
Theorem C137_twice_refuted : forall cs s, sv_stopped s = true -> ~ In SReset cs ->
  sv_reports (snd (sdo_all cs s)) = sv_reports s /\ ~ In Stuck (fst (sdo_all cs s)).
Proof. exact stopped_silent. Qed.
Print Assumptions C137_twice_refuted.
Example C137_twice_example : let s := snd (sdo_all [SNew "plc1" true; SRun 0 test_lan [(0%nat, inr (device_reply 5))]] sv_new) in sv_stopped s = true /\
  exists s', sdo_all [SNew "plc2" true; SRun 1 test_lan [(1%nat, inr (device_reply 6))]] s = ([Ret tt; Ret tt], s') /\
    sv_reports s' = [(0%nat, Ret (ScanIdentity (device 5)))] /\ List.length (sv_sent s') = 2%nat.
Proof. cbv zeta. split; [vm_compute; reflexivity|]. eexists. split; [vm_compute; reflexivity|]. split; vm_compute; reflexivity. Qed.

(** Nor does reset() make an old scanner of use: no call makes one listen again, and with none that
    listens run sends the request and returns without looking at anything. *)
Theorem C137_same_refuted : forall s k e r arr, targets s k e r -> sn_bcast e r = false -> usable s -> (forall j, ~ listens s j) ->
  exists s', sc_run k e arr s = (Ret tt, s') /\ sv_reports s' = sv_reports s /\ sv_sent s' = sv_sent s ++ [(k, r, request 0x63 0 [])].
Proof. exact same_again. Qed.
Print Assumptions C137_same_refuted.
Theorem C137_deaf_partial : forall c s k, listens (snd (sdo c s)) k -> (k < List.length (sv_all s))%nat -> listens s k.
Proof. exact step_listens. Qed.
Print Assumptions C137_deaf_partial.
Example C137_same_example : let s := snd (sdo_all [SNew "plc1" true; SRun 0 test_lan [(0%nat, inr (device_reply 5))]; SReset] sv_new) in
  targets s 0 test_lan (mkEnd 1 44818) /\ usable s /\ (forall j, ~ listens s j) /\
  sv_reports (snd (sc_run 0 test_lan [(0%nat, inr (device_reply 6))] s)) = [(0%nat, Ret (ScanIdentity (device 5)))].
Proof.
  cbv zeta. split; [exists (mkScan "plc1" true false true), []; repeat split; vm_compute; reflexivity|]. split; [split; vm_compute; reflexivity|].
  split; [|vm_compute; reflexivity]. intros j (c & E & A). vm_compute in E. destruct j as [|[|j]]; inversion E; subst; discriminate A.
Qed.

(** A scanner that was made but never asked keeps the run of every other from returning. *)
Theorem C137_idle_refuted : forall k e arr s j, listens s j -> ~ has_asked s j -> j <> k -> sv_stopped s = false -> fst (sc_run k e arr s) <> Ret tt.
Proof. exact never_asked. Qed.
Print Assumptions C137_idle_refuted.
Example C137_idle_example : let s := snd (sdo_all [SNew "plc1" true; SNew "plc2" true] sv_new) in listens s 1 /\ ~ has_asked s 1 /\ sv_stopped s = false /\
  fst (sc_run 0 test_lan [(0%nat, inr (device_reply 5)); (1%nat, inr (device_reply 6))] s) = Stuck.
Proof.
  cbv zeta. split; [eexists; split; reflexivity|]. split; [intros (c & E & A); inversion E; subst; discriminate A|]. split; [reflexivity|]. vm_compute. reflexivity.
Qed.

(** A scanner destroyed while it listens leaves a handler bound to it that the next run calls. *)
Theorem C137_gone_refuted : forall s j k e r arr, listens s j -> exists_scanner s j -> j <> k -> targets s k e r -> sn_bcast e r = false -> sv_stopped s = false ->
  fst (sdo_all [SDestroy j; SRun k e arr] s) = [Ret tt; Undef UseAfterFree].
Proof. exact gone. Qed.
Print Assumptions C137_gone_refuted.
Example C137_gone_example : let s := snd (sdo_all [SNew "plc1" true; SNew "plc2" true] sv_new) in listens s 0 /\ exists_scanner s 0 /\
  targets s 1 test_lan (mkEnd 2 44818) /\ sv_stopped s = false.
Proof.
  cbv zeta. split; [eexists; split; reflexivity|]. split; [eexists; split; reflexivity|]. split; [|reflexivity].
  exists (mkScan "plc2" true true false), []. repeat split.
Qed.
