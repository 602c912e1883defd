(** * PLog4: the statements of PropsLog. *)
From Verif Require Export PLog3 PWitness3.
Local Open Scope N_scope.

Lemma typed_step o w r w' l x : l_step o w = (r, w', l) -> In x l -> (well_typed x <-> ~ In (lg_fmt x) mistyped).
Proof. intros H K. pose proof (ty_step o w r w' l H) as F. rewrite Forall_forall in F. exact (F x K). Qed.
Lemma typed_scan ec n b m o m' l x : l_scan_handle ec n b m = (o, m', l) -> In x l -> (well_typed x <-> ~ In (lg_fmt x) mistyped_scan).
Proof. intros H K. pose proof (ty_scan ec n b m o m' l H) as F. rewrite Forall_forall in F. exact (F x K). Qed.

Lemma construct_mistyped id sn : exists x, session_make_log id sn = [x] /\ ~ well_typed x.
Proof. eexists. split; [reflexivity|]. intros H. inversion H as [|? ? ? ? K]. exact K. Qed.

(** The last thing a successful open logs. *)
Lemma open_says h p q w w' l : l_step (OpOpen h p q) w = (Ret RUnit, w', l) ->
  In (mkLog Inform "Successfully opened session ID %zu" [AU32 (se_id (w_se w'))]) l.
Proof.
  intros H. cbn [l_step] in H. apply l_bind_ret in H as (u & w1 & l1 & l2 & H & E & ->).
  injection E as <- <-. rewrite app_nil_r. unfold l_open in H.
  do 5 (apply l_bind_ret in H as (? & ? & ? & ? & _ & H & ->); apply in_or_app; right).
  apply l_bind_ret in H as (resp & ? & ? & ? & _ & H & ->); apply in_or_app; right.
  do 3 (apply l_bind_ret in H as (? & ? & ? & ? & _ & H & ->); apply in_or_app; right).
  apply l_bind_ret in H as (? & w2 & ? & ? & U & H & ->); apply in_or_app; right.
  unfold lift, mupd_se in U. injection U as <- <- <-. injection H as <- <- <-. left. reflexivity.
Qed.
Lemma open_mistyped h p q w w' l : l_step (OpOpen h p q) w = (Ret RUnit, w', l) -> exists x, In x l /\ ~ well_typed x.
Proof.
  intros H. eexists. split; [exact (open_says h p q w w' l H)|]. intros K. inversion K as [|? ? ? ? B]. exact B.
Qed.
Lemma scan_mistyped ec n b m i m' l : l_scan_handle ec n b m = (Ret (ScanIdentity i), m', l) -> exists x, In x l /\ ~ well_typed x.
Proof.
  intros H. apply scan_identity_logs in H as (l1 & ->). eexists. split; [apply in_or_app; right; right; right; left; reflexivity|].
  intros K. inversion K as [|? ? ? ? B]. exact B.
Qed.

Lemma warned o service w r w' l : session_ok w -> op_ok (w_mem w) o -> asks o service -> l_step o w = (Ret r, w', l) ->
  exists got rs, so_recv (w_ctl w) = RxData got :: rs /\
    (exists st c0 c1 op after xs sv, reply_parts (take 4096 got) st c0 c1 op after xs sv) /\
    (forall st c0 c1 op after xs sv, reply_parts (take 4096 got) st c0 c1 op after xs sv -> (logged Warn l <-> odd_reply service st c0 c1 op after xs sv)).
Proof.
  intros S O A H. destruct (warns_exact o service w r w' l S O A H) as (got & rs & st & c0 & c1 & op & after & xs & sv & E & P & X & _).
  exists got, rs. split; [exact E|]. split; [exists st, c0, c1, op, after, xs, sv; exact P|].
  intros st' c0' c1' op' after' xs' sv' P'. pose proof (parts_inj _ _ _ _ _ _ _ _ _ _ _ _ _ _ _ P P') as J.
  repeat (apply pair_equal_spec in J as [J ?]). subst. exact X.
Qed.
Lemma wrong_expected o service w r w' l got rs st c0 c1 op after xs sv : session_ok w -> op_ok (w_mem w) o -> asks o service -> l_step o w = (Ret r, w', l) ->
  so_recv (w_ctl w) = RxData got :: rs -> reply_parts (take 4096 got) st c0 c1 op after xs sv -> sv <> service + 0x80 ->
  In ("Wrong service code returned for RR Data command. Expected: " ++ dec service ++ " but received " ++ dec sv)%string (map line l).
Proof.
  intros S O A H E P N. destruct (warns_exact o service w r w' l S O A H) as (got1 & rs1 & st1 & c01 & c11 & op1 & after1 & xs1 & sv1 & E1 & P1 & _ & X).
  rewrite E in E1. injection E1 as <- <-. pose proof (parts_inj _ _ _ _ _ _ _ _ _ _ _ _ _ _ _ P P1) as J.
  repeat (apply pair_equal_spec in J as [J ?]). subst.
  apply in_map_iff. eexists. split; [|exact (X N)]. unfold line, wrong_service. cbn [lg_fmt lg_args fill Ascii.eqb Bool.eqb append].
  rewrite !shown_small; [rewrite append_nil; reflexivity| |].
  - destruct P as (? & ? & ? & ? & ? & ? & ? & ? & ? & ? & ? & ? & ? & ? & R). destruct R as (R & _). unfold fits in R. cbn in R. lia.
  - destruct o; cbn [asks] in A; try contradiction; subst service; reflexivity.
Qed.
Lemma scan_prints n b m m' l : l_scan_handle false n b m = (Ret ScanTooShort, m', l) -> logged Out l.
Proof.
  unfold l_scan_handle. intros H. destruct (l_scan_body n (m, _)) as [[o s'] l0] eqn:E. destruct o as [v|c s|u|].
  - exfalso. injection H as -> <- <-. revert E. unfold l_scan_body. clear. intros H.
    apply l_bind_ret in H as (pkt & ? & ? & ? & _ & H & ->). cbv zeta in H.
    apply l_bind_ret in H as (? & ? & ? & ? & _ & H & ->).
    destruct (negb (h_command (ep_header pkt) =? EIP_CMD_LIST_IDENTITY)).
    { apply l_bind_ret in H as (? & ? & ? & ? & _ & H & ->). discriminate. }
    do 4 apply l_bind_ret in H as (? & ? & ? & ? & _ & H & ->).
    apply l_bind_ret in H as (pl & ? & ? & ? & _ & H & ->).
    destruct (cpf_getItemCount pl <? 1). { apply l_bind_ret in H as (? & ? & ? & ? & _ & H & ->). discriminate. }
    apply l_bind_ret in H as (? & ? & ? & ? & _ & H & ->).
    apply l_bind_ret in H as (i0 & ? & ? & ? & _ & H & ->).
    destruct (negb (it_type i0 =? EIP_ITEM_LIST_IDENTITY_RESPONSE)). { apply l_bind_ret in H as (? & ? & ? & ? & _ & H & ->). discriminate. }
    apply l_bind_ret in H as (i & ? & ? & ? & _ & H & ->).
    apply l_bind_ret in H as (? & ? & ? & ? & _ & H & ->). discriminate.
  - destruct (is_a c LengthError).
    + injection H as _ <-. eexists. split; [apply in_or_app; right; left; reflexivity|reflexivity].
    + discriminate.
  - discriminate.
  - discriminate.
Qed.

(** logic_error *)
Lemma l_bind_throw {S A B} (x : L S A) (f : A -> L S B) s c t s' l : lbind x f s = (Throw c t, s', l) ->
  x s = (Throw c t, s', l) \/ exists a s1 l1 l2, x s = (Ret a, s1, l1) /\ f a s1 = (Throw c t, s', l2) /\ l = l1 ++ l2.
Proof.
  unfold lbind. destruct (x s) as [[o s1] l1] eqn:E. destruct o as [a|c1 t1|u|]; intros H; try discriminate.
  - right. exists a, s1, l1. destruct (f a s1) as [[o2 s2] l2]. injection H as -> -> <-. exists l2. split; [reflexivity|]. split; reflexivity.
  - left. injection H as -> -> -> ->. reflexivity.
Qed.
Lemma lift_throw {S A} (x : S -> outcome A * S) s c t s' l : lift x s = (Throw c t, s', l) -> x s = (Throw c t, s').
Proof. unfold lift. destruct (x s) as [o s1]. intros H. injection H as -> -> _. reflexivity. Qed.
Lemma rr_no_logic sv p d w t w' l : (match d with Some s => exists n, s_length s = Ret n | None => True end) -> l_sendRRDataCommand sv p d w <> (Throw LogicError t, w', l).
Proof.
  intros D H. pose proof (q_rr sv p d w) as E. unfold quietly in E. rewrite H in E. symmetry in E. apply (m_rr sv p d D) in E. discriminate.
Qed.
Lemma logic_step o w t w' l : session_ok w -> op_ok (w_mem w) o -> op_quiet o -> l_step o w = (Throw LogicError t, w', l) -> logged Error l.
Proof.
  intros (B & _ & T) O Q H. pose proof (q_step o w) as E. unfold quietly in E. rewrite H in E. symmetry in E.
  destruct o as [h p i| |X c x0 x y z|x y z d|a b|n| |p]; cbn [l_step op_ok op_quiet] in *.
  - apply step_raises in E; [discriminate|exact Logic.I].
  - apply step_raises in E; [discriminate|exact Logic.I].
  - apply step_raises in E; [|exact Logic.I]. destruct E as [E|[_ E]]; [discriminate|]. destruct (proj2 Q E).
  - apply step_raises in E; [discriminate|]. destruct O as (_ & _ & _ & bs & C & _). destruct d as [s|]; [|exact Logic.I]. destruct C as (C & _). eexists; exact C.
  - clear E. apply l_bind_throw in H as [H|(? & ? & ? & ? & _ & H & _)]; [|discriminate]. unfold l_createConnection in H.
    apply l_bind_throw in H as [H|(w0 & w1 & ? & ? & E & H & ->)]; [discriminate|]. injection E as <- <- <-.
    apply l_bind_throw in H as [H|(? & w1 & ? & ? & E & H & ->)]; [discriminate|]. clear E.
    set (conn := cn_make _ _ _ _ _ _ _) in H.
    apply l_bind_throw in H as [H|(r & w2 & l1 & ? & E & H & ->)].
    { exfalso. revert H. apply rr_no_logic. eexists; reflexivity. }
    pose proof (q_rr 0x5B (path_ci 0x06 1) (Some (fo_ser (cn_open_request conn))) w1) as Er. unfold quietly in Er. rewrite E in Er. symmetry in Er.
    apply l_bind_throw in H as [H|(res & w3 & l3 & ? & _ & H & ->)].
    { apply lift_throw in H. apply m_copy_short in H; [discriminate|eapply (tidy_yields _ _ (PLeak.t_rr 0x5B _ (Some (fo_ser (cn_open_request conn))) (bal_fo _))); exact Er|pose proof raises_all; tauto]. }
    apply l_bind_throw in H as [H|(? & ? & l4 & ? & _ & H & ->)]; [discriminate|].
    destruct (cn_verify_open conn res).
    + apply l_bind_throw in H as [H|(? & ? & ? & ? & _ & H & ->)]; [discriminate|]. apply l_bind_throw in H as [H|(? & ? & ? & ? & _ & H & ->)]; discriminate.
    + injection H as _ _ <-. eexists. split; [cbn [app]; apply in_or_app; right; apply in_or_app; right; apply in_or_app; right; apply in_or_app; right; left; reflexivity|reflexivity].
  - clear E. apply l_bind_throw in H as [H|(? & ? & ? & ? & _ & H & _)]; [|discriminate]. unfold l_closeConnection in H.
    assert (G : forall w c t w' l, lift (getConnection n) w <> (Throw c t, w', l)).
    { intros w0 c s w1 l0 K. apply lift_throw in K. unfold getConnection in K. destruct (nth_error _ _); discriminate. }
    apply l_bind_throw in H as [H|(c & w1 & l1 & ? & _ & H & ->)]; [destruct (G _ _ _ _ _ H)|].
    apply l_bind_throw in H as [H|(r & w2 & l2 & ? & E & H & ->)].
    { exfalso. revert H. apply rr_no_logic. eexists; reflexivity. }
    pose proof (q_rr 0x4E (path_ci 0x06 1) (Some (fc_ser (cn_close_request c))) w1) as Er. unfold quietly in Er. rewrite E in Er. symmetry in Er.
    apply l_bind_throw in H as [H|(res & w3 & l3 & ? & _ & H & ->)].
    { apply lift_throw in H. apply m_copy_short in H; [discriminate|eapply (tidy_yields _ _ (PLeak.t_rr 0x4E _ (Some (fc_ser (cn_close_request c))) (bal_fc _))); exact Er|pose proof raises_all; tauto]. }
    apply l_bind_throw in H as [H|(c' & w4 & l4 & ? & _ & H & ->)]; [destruct (G _ _ _ _ _ H)|].
    apply l_bind_throw in H as [H|(? & ? & l5 & ? & _ & H & ->)]; [discriminate|].
    destruct (negb (cn_verify_close c' res)).
    + injection H as _ _ <-. eexists. split; [apply in_or_app; right; apply in_or_app; right; apply in_or_app; right; apply in_or_app; right; apply in_or_app; right; left; reflexivity|reflexivity].
    + discriminate.
  - apply step_raises in E; [|exact Logic.I]. destruct E as [E|E]; discriminate.
  - destruct O as (xs & C). apply step_raises in E; [discriminate|]. eexists; exact C.
Qed.
Lemma step_speaks o w c t w' l : session_ok w -> op_ok (w_mem w) o -> op_quiet o -> l_step o w = (Throw c t, w', l) -> c = RuntimeError \/ c = LogicError -> logged Error l.
Proof. intros S O Q H [->| ->]; [eapply step_tells|eapply logic_step]; eassumption. Qed.

Lemma others_print_nothing o w r w' l : (forall n, o <> OpCloseConnection n) -> l_step o w = (r, w', l) -> ~ logged Out l.
Proof. intros N H. exact (none_logged _ _ (o_step o N) _ _ _ _ H). Qed.
Lemma echo_parts : let got := explicit_reply 9 0x10 0 [] in
  asks (OpSet 1 2 3 None) 0x10 /\ reply_parts (take 4096 got) 0 0 0 0 [] [(0, []); (0xB2, router_reply 0x10 0 0 [] [])] 0x10 /\ 0x10 <> 0x10 + 0x80.
Proof.
  split; [reflexivity|]. split; [|discriminate].
  exists 9, (rr 0 0 [(0, []); (0xB2, router_reply 0x10 0 0 [] [])]), 0, 0, [], 0, 0, [], [].
  split; [frames|]. split; [reflexivity|]. split; [split; [reflexivity|]; split; [reflexivity|]; split; [repeat constructor|reflexivity]|].
  split; [reflexivity|]. split; [exists []; reflexivity|repeat split].
Qed.
Lemma expected_refuted :
  (forall o service w r w' l got rs st c0 c1 op after xs sv, session_ok w -> op_ok (w_mem w) o -> asks o service -> l_step o w = (Ret r, w', l) ->
     so_recv (w_ctl w) = RxData got :: rs -> reply_parts (take 4096 got) st c0 c1 op after xs sv -> sv <> service + 0x80 ->
     In ("Wrong service code returned for RR Data command. Expected: " ++ dec service ++ " but received " ++ dec sv)%string (map line l)) /\
  (exists w w' l, session_ok w /\ l_step (OpSet 1 2 3 None) w = (Ret RUnit, w', l) /\
     In "Wrong service code returned for RR Data command. Expected: 16 but received 16"%string (map line l)).
Proof.
  split; [exact wrong_expected|]. exists (w9 [RxData (explicit_reply 9 0x10 0 [])] []). eexists. eexists. split; [apply session_ok_w9|].
  split; [vm_compute; reflexivity|]. right; right; right; right; left. vm_compute. reflexivity.
Qed.
Lemma lines_shown m b bl got tail i m' l : nth_error m b = Some (Some bl) -> len bl = 4096 -> bl = got ++ tail ->
  l_scan_handle false (len got) b m = (Ret (ScanIdentity i), m', l) ->
  Forall (fun s => In s (map line l)) (field_lines i) /\
  (id_serial i < 2 ^ 31 -> In (serial_line i) (map line l)) /\
  (Forall (fun b => b <> x00) (id_name i) -> In (name_line i) (map line l)).
Proof.
  intros A B C H. destruct (scan_shows m b bl got tail i m' l A B C H) as (F & S & P). split; [exact F|]. split.
  - intros Lt. pose proof (shown_small _ Lt) as Q. cbn [shown] in Q. rewrite Q in S. exact S.
  - intros Z. rewrite (nul_free _ Z) in P. exact P.
Qed.
Lemma serial_negative m b bl got tail i m' l : nth_error m b = Some (Some bl) -> len bl = 4096 -> bl = got ++ tail ->
  l_scan_handle false (len got) b m = (Ret (ScanIdentity i), m', l) -> 2 ^ 31 <= id_serial i ->
  In ("Serial Number: -" ++ dec (2 ^ 32 - id_serial i))%string (map line l).
Proof.
  intros A B C H Ge. destruct (scan_shows m b bl got tail i m' l A B C H) as (_ & S & _).
  pose proof (shown_big _ Ge) as Q. cbn [shown] in Q. rewrite Q in S. exact S.
Qed.
Lemma before_cut n1 n2 : Forall (fun b => b <> x00) n1 -> before_nul (n1 ++ x00 :: n2) = n1.
Proof.
  induction 1 as [|b r Hb _ IH]; [reflexivity|]. cbn [app before_nul]. destruct (Byte.to_N b =? 0) eqn:E.
  - apply N.eqb_eq in E. destruct b; try discriminate. destruct (Hb eq_refl).
  - rewrite IH. reflexivity.
Qed.
Lemma name_cut m b bl got tail i m' l n1 n2 : nth_error m b = Some (Some bl) -> len bl = 4096 -> bl = got ++ tail ->
  l_scan_handle false (len got) b m = (Ret (ScanIdentity i), m', l) -> id_name i = n1 ++ x00 :: n2 ->
  Forall (fun b => b <> x00) n1 -> In ("Product Name: " ++ string_of_list_byte n1)%string (map line l).
Proof.
  intros A B C H E F. destruct (scan_shows m b bl got tail i m' l A B C H) as (_ & _ & P). rewrite E, (before_cut _ _ F) in P. exact P.
Qed.
Lemma test_id_lines :
  let got := bl [0x63;0;46;0] ++ zeros 20 ++ bl [1;0;0x0C;0;40;0] ++ test_id_bytes in let bl := got ++ zeros (4096 - len got) in
  len bl = 4096 /\ Forall (fun b => b <> x00) (id_name test_id) /\ exists m' l, l_scan_handle false (len got) 0 [Some bl] = (Ret (ScanIdentity test_id), m', l) /\
  In "Revision: 107.199"%string (map line l).
Proof.
  cbv zeta. split; [vm_compute; reflexivity|]. split; [repeat (apply Forall_cons; [discriminate|]); constructor|]. eexists. eexists. split; [vm_compute; reflexivity|].
  do 6 right. left. vm_compute. reflexivity.
Qed.
Lemma high_serial :
  let got := bl [0x63;0;42;0] ++ zeros 20 ++ bl [1;0;0x0C;0;36;0] ++ bl [1;0] ++ zeros 16 ++ bl [1;0;2;0;3;0;4;2;0;0;0xEF;0xBE;0xAD;0xDE;2;0x41;0;7] in
  let bl := got ++ zeros (4096 - len got) in
  len bl = 4096 /\ exists i m' l, l_scan_handle false (len got) 0 [Some bl] = (Ret (ScanIdentity i), m', l) /\
  2 ^ 31 <= id_serial i /\ id_name i = [x41] ++ x00 :: [].
Proof.
  cbv zeta. split; [vm_compute; reflexivity|]. eexists. eexists. eexists. split; [vm_compute; reflexivity|]. split; [discriminate|reflexivity].
Qed.

Lemma silent_refuted : (forall o w c t w' l, l_step o w = (Throw c t, w', l) -> c = LengthError \/ c = OutOfRange -> ~ logged Error l) /\
  (exists w t w' l, session_ok w /\ l_step (OpGet unit (mkCls (DLVirtual no_check) (rd_skip 2) None) tt 1 2 3) w = (Throw LengthError t, w', l)) /\
  (exists w t w' l, session_ok w /\ l_step (OpCreate ci0 ci0) w = (Throw LengthError t, w', l)) /\
  (exists w t w' l, session_ok w /\ l_step OpReceiveIO w = (Throw LengthError t, w', l)).
Proof.
  split; [exact short_unlogged|]. split; [|split].
  - exists (w9 [RxData (explicit_reply 9 0x8E 0 [x01])] []). eexists. eexists. eexists. split; [apply session_ok_w9|vm_compute; reflexivity].
  - exists (w9 [RxData (explicit_reply 9 0xDB 0 [x01])] []). eexists. eexists. eexists. split; [apply session_ok_w9|vm_compute; reflexivity].
  - exists (w9 [] [RxData [x01]]). eexists. eexists. eexists. split; [apply session_ok_w9|vm_compute; reflexivity].
Qed.
