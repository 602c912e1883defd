(** * PropsLog: what the library logs: C91-C97. *)
From Verif Require Import PLog4 PWitness3.
Local Open Scope N_scope.

(** The calls of Log.v are those of Session.v and Scanner.v. *)
Theorem C91_same_calls : (forall o w, quietly (l_step o) w = step o w) /\
  (forall ec n b m, (let '(o, m', _) := l_scan_handle ec n b m in (o, m')) = scan_handle ec n b m).
Proof. exact (conj q_step q_scan). Qed.
Print Assumptions C91_same_calls.

(** ** C91: Log calls pass arguments of the types their formats name *)
(** A call is undefined exactly when its format is in one of two lists. *)
Theorem C91_exact_partial :
  (forall o w r w' l x, l_step o w = (r, w', l) -> In x l -> (well_typed x <-> ~ In (lg_fmt x) mistyped)) /\
  (forall ec n b m o m' l x, l_scan_handle ec n b m = (o, m', l) -> In x l -> (well_typed x <-> ~ In (lg_fmt x) mistyped_scan)).
Proof. exact (conj typed_step typed_scan). Qed.
Print Assumptions C91_exact_partial.
Example C91_example : exists r w' l x y,
  l_step (OpSet 1 2 3 None) (w9 [RxData (frame 0x6F 9 5 0 0 0 (rr 0 0 [(0, []); (0xB2, router_reply 0x90 0 0 [] [])]))] []) = (r, w', l) /\
  In x l /\ lg_fmt x = "Received response of %zu bytes"%string /\ In y l /\ lg_fmt y = "Non-zero status received: %zu"%string.
Proof.
  eexists. eexists. eexists. eexists. eexists. split; [vm_compute; reflexivity|]. split; [right; right; right; left; reflexivity|]. split; [reflexivity|].
  split; [right; right; right; right; left; reflexivity|reflexivity].
Qed.
(** The constructor, every open that succeeds and every identity that is listed make
    an undefined call. *)
Theorem C91_construct_refuted : forall id sn, exists x, session_make_log id sn = [x] /\ ~ well_typed x.
Proof. exact construct_mistyped. Qed.
Print Assumptions C91_construct_refuted.
Theorem C91_open_refuted : forall h p q w w' l, l_step (OpOpen h p q) w = (Ret RUnit, w', l) -> exists x, In x l /\ ~ well_typed x.
Proof. exact open_mistyped. Qed.
Print Assumptions C91_open_refuted.
Example C91_open_example : exists w' l, l_step (OpOpen "h" "p" "q") (w0 [RxData (registered 9)]) = (Ret RUnit, w', l).
Proof. eexists. eexists. vm_compute. reflexivity. Qed.
Theorem C91_scan_refuted : forall ec n b m i m' l, l_scan_handle ec n b m = (Ret (ScanIdentity i), m', l) -> exists x, In x l /\ ~ well_typed x.
Proof. exact scan_mistyped. Qed.
Print Assumptions C91_scan_refuted.
Example C91_scan_example : let got := bl [0x63;0;46;0] ++ zeros 20 ++ bl [1;0;0x0C;0;40;0] ++ test_id_bytes in
  exists m' l, l_scan_handle false (len got) 0 [Some (got ++ zeros (4096 - len got))] = (Ret (ScanIdentity test_id), m', l).
Proof. eexists. eexists. vm_compute. reflexivity. Qed.

(** ** C92: A call that raises because of what it received has logged an error *)
Theorem C92_speaks_partial : forall o w c t w' l, session_ok w -> op_ok (w_mem w) o -> op_quiet o ->
  l_step o w = (Throw c t, w', l) -> c = RuntimeError \/ c = LogicError -> logged Error l.
Proof. exact step_speaks. Qed.
Print Assumptions C92_speaks_partial.
Example C92_example :
  let w := w9 [RxData (explicit_reply 9 0x90 8 [])] [] in let o := OpSet 1 2 3 None in
  session_ok w /\ op_ok (w_mem w) o /\ op_quiet o /\ exists w' l, l_step o w = (Throw RuntimeError "RR Data Command Failed", w', l).
Proof.
  split; [apply session_ok_w9|]. split; [cbn; repeat split; exists []; split; reflexivity|]. split; [exact Logic.I|]. eexists. eexists. vm_compute. reflexivity.
Qed.
Example C92_logic_example :
  let w := w9 [RxData (fo_reply 8)] [] in let o := OpCreate ci0 ci0 in
  session_ok w /\ op_ok (w_mem w) o /\ op_quiet o /\ exists w' l, l_step o w = (Throw LogicError "Forward Open Response Invalid", w', l).
Proof.
  split; [apply session_ok_w9|]. split; [split; reflexivity|]. split; [exact Logic.I|]. eexists. eexists. vm_compute. reflexivity.
Qed.
(** Data that are too short are never logged. *)
Theorem C92_silent_refuted : (forall o w c t w' l, l_step o w = (Throw c t, w', l) -> c = LengthError \/ c = OutOfRange -> ~ logged Error l) /\
  (exists w t w' l, session_ok w /\ l_step (OpGet unit (mkCls (DLVirtual no_check) (rd_skip 2) None) tt 1 2 3) w = (Throw LengthError t, w', l)) /\
  (exists w t w' l, session_ok w /\ l_step (OpCreate ci0 ci0) w = (Throw LengthError t, w', l)) /\
  (exists w t w' l, session_ok w /\ l_step OpReceiveIO w = (Throw LengthError t, w', l)).
Proof. exact silent_refuted. Qed.
Print Assumptions C92_silent_refuted.

(** ** C93: An error is logged only by a call that raises *)
Theorem C93_error_raises : forall o w r w' l, l_step o w = (r, w', l) -> logged Error l -> exists c t, r = Throw c t.
Proof. exact error_raises. Qed.
Print Assumptions C93_error_raises.
Example C93_example : exists r w' l, l_step (OpSet 1 2 3 None) (w9 [RxData (explicit_reply 9 0x90 8 [])] []) = (r, w', l) /\ logged Error l.
Proof. eexists. eexists. eexists. split; [vm_compute; reflexivity|]. eexists. split; [right; right; right; right; left; reflexivity|reflexivity]. Qed.

(** ** C94: An explicit reply that is accepted is warned about exactly when something about it is odd *)
Theorem C94_warned : forall o service w r w' l, session_ok w -> op_ok (w_mem w) o -> asks o service -> l_step o w = (Ret r, w', l) ->
  exists got rs, so_recv (w_ctl w) = RxData got :: rs /\
    (exists st c0 c1 op after xs sv, reply_parts (take 4096 got) st c0 c1 op after xs sv) /\
    (forall st c0 c1 op after xs sv, reply_parts (take 4096 got) st c0 c1 op after xs sv -> (logged Warn l <-> odd_reply service st c0 c1 op after xs sv)).
Proof. exact warned. Qed.
Print Assumptions C94_warned.
Example C94_example :
  let w := w9 [RxData (frame 0x6F 9 5 0 0 0 (rr 0 0 [(0, []); (0xB2, router_reply 0x90 0 0 [] [])]))] [] in let o := OpSet 1 2 3 None in
  session_ok w /\ op_ok (w_mem w) o /\ asks o 0x10 /\ exists w' l, l_step o w = (Ret RUnit, w', l) /\ logged Warn l.
Proof.
  split; [apply session_ok_w9|]. split; [cbn; repeat split; exists []; split; reflexivity|]. split; [reflexivity|]. eexists. eexists. split; [vm_compute; reflexivity|].
  eexists. split; [right; right; right; right; left; reflexivity|reflexivity].
Qed.
Example C94_plain_example :
  let w := w9 [RxData (explicit_reply 9 0x90 0 [])] [] in let o := OpSet 1 2 3 None in
  session_ok w /\ op_ok (w_mem w) o /\ asks o 0x10 /\ exists w' l, l_step o w = (Ret RUnit, w', l) /\ List.length l = 4%nat.
Proof.
  split; [apply session_ok_w9|]. split; [cbn; repeat split; exists []; split; reflexivity|]. split; [reflexivity|]. eexists. eexists. split; [vm_compute; reflexivity|reflexivity].
Qed.

(** ** C95: The library writes nothing to standard output *)
Theorem C95_others_partial : forall o w r w' l, (forall n, o <> OpCloseConnection n) -> l_step o w = (r, w', l) -> ~ logged Out l.
Proof. exact others_print_nothing. Qed.
Print Assumptions C95_others_partial.
Example C95_example : exists w' l, l_step (OpOpen "h" "p" "q") (w0 [RxData (registered 9)]) = (Ret RUnit, w', l) /\ List.length l = 6%nat.
Proof. eexists. eexists. split; [vm_compute; reflexivity|reflexivity]. Qed.
(** Every connection that is closed and every datagram that is too short prints. *)
Theorem C95_close_refuted : forall n w w' l, l_step (OpCloseConnection n) w = (Ret RUnit, w', l) -> logged Out l.
Proof. exact close_prints. Qed.
Print Assumptions C95_close_refuted.
Example C95_close_example : exists w1 l1 w2 l2, l_step (OpCreate ci0 ci0) (w9 [RxData (fo_reply 7); RxData (fc_reply 7)] []) = (Ret (RNumber 0), w1, l1) /\
  l_step (OpCloseConnection 0) w1 = (Ret RUnit, w2, l2).
Proof. eexists. eexists. eexists. eexists. split; [vm_compute; reflexivity|vm_compute; reflexivity]. Qed.
Theorem C95_scan_refuted : forall n b m m' l, l_scan_handle false n b m = (Ret ScanTooShort, m', l) -> logged Out l.
Proof. exact scan_prints. Qed.
Print Assumptions C95_scan_refuted.
Example C95_scan_example : exists m' l, l_scan_handle false 1 0 [Some (zeros 4096)] = (Ret ScanTooShort, m', l).
Proof. eexists. eexists. vm_compute. reflexivity. Qed.

(** ** C96: The warning about a wrong service code names the code that was expected *)
(** It names the code of the request instead, in every call. *)
Theorem C96_expected_refuted :
  (forall o service w r w' l got rs st c0 c1 op after xs sv, session_ok w -> op_ok (w_mem w) o -> asks o service -> l_step o w = (Ret r, w', l) ->
     so_recv (w_ctl w) = RxData got :: rs -> reply_parts (take 4096 got) st c0 c1 op after xs sv -> sv <> service + 0x80 ->
     In ("Wrong service code returned for RR Data command. Expected: " ++ dec service ++ " but received " ++ dec sv)%string (map line l)) /\
  (exists w w' l, session_ok w /\ l_step (OpSet 1 2 3 None) w = (Ret RUnit, w', l) /\
     In "Wrong service code returned for RR Data command. Expected: 16 but received 16"%string (map line l)).
Proof. exact expected_refuted. Qed.
Print Assumptions C96_expected_refuted.
Example C96_example :
  let got := explicit_reply 9 0x10 0 [] in
  asks (OpSet 1 2 3 None) 0x10 /\ reply_parts (take 4096 got) 0 0 0 0 [] [(0, []); (0xB2, router_reply 0x10 0 0 [] [])] 0x10 /\ 0x10 <> 0x10 + 0x80.
Proof. exact echo_parts. Qed.

(** ** C97: The lines printed for an identity show the decoded values *)
Theorem C97_lines_partial : forall m b bl got tail i m' l, nth_error m b = Some (Some bl) -> len bl = 4096 -> bl = got ++ tail ->
  l_scan_handle false (len got) b m = (Ret (ScanIdentity i), m', l) ->
  Forall (fun s => In s (map line l)) (field_lines i) /\
  (id_serial i < 2 ^ 31 -> In (serial_line i) (map line l)) /\
  (Forall (fun b => b <> x00) (id_name i) -> In (name_line i) (map line l)).
Proof. exact lines_shown. Qed.
Print Assumptions C97_lines_partial.
Example C97_example :
  let got := bl [0x63;0;46;0] ++ zeros 20 ++ bl [1;0;0x0C;0;40;0] ++ test_id_bytes in let bl := got ++ zeros (4096 - len got) in
  len bl = 4096 /\ Forall (fun b => b <> x00) (id_name test_id) /\ exists m' l, l_scan_handle false (len got) 0 [Some bl] = (Ret (ScanIdentity test_id), m', l) /\
  In "Revision: 107.199"%string (map line l).
Proof. exact test_id_lines. Qed.
(** A serial number from 2^31 on is shown as a negative number; a name is cut at a NUL. *)
Theorem C97_serial_refuted : forall m b bl got tail i m' l, nth_error m b = Some (Some bl) -> len bl = 4096 -> bl = got ++ tail ->
  l_scan_handle false (len got) b m = (Ret (ScanIdentity i), m', l) -> 2 ^ 31 <= id_serial i ->
  In ("Serial Number: -" ++ dec (2 ^ 32 - id_serial i))%string (map line l).
Proof. exact serial_negative. Qed.
Print Assumptions C97_serial_refuted.
Theorem C97_name_refuted : forall m b bl got tail i m' l n1 n2, nth_error m b = Some (Some bl) -> len bl = 4096 -> bl = got ++ tail ->
  l_scan_handle false (len got) b m = (Ret (ScanIdentity i), m', l) -> id_name i = n1 ++ x00 :: n2 ->
  Forall (fun b => b <> x00) n1 -> In ("Product Name: " ++ string_of_list_byte n1)%string (map line l).
Proof. exact name_cut. Qed.
Print Assumptions C97_name_refuted.
Example C97_refuted_example :
  let got := bl [0x63;0;42;0] ++ zeros 20 ++ bl [1;0;0x0C;0;36;0] ++ bl [1;0] ++ zeros 16 ++ bl [1;0;2;0;3;0;4;2;0;0;0xEF;0xBE;0xAD;0xDE;2;0x41;0;7] in
  let bl := got ++ zeros (4096 - len got) in
  len bl = 4096 /\ exists i m' l, l_scan_handle false (len got) 0 [Some bl] = (Ret (ScanIdentity i), m', l) /\
  2 ^ 31 <= id_serial i /\ id_name i = [x41] ++ x00 :: [].
Proof. exact high_serial. Qed.
