(** * PLog3: the log calls, the operations (C92, C94). *)
From Verif Require Export PLog2.
From Coq Require Import Ascii.
Local Open Scope N_scope.

Lemma parts_inj got st c0 c1 o af xs sv st' c0' c1' o' af' xs' sv' :
  reply_parts got st c0 c1 o af xs sv -> reply_parts got st' c0' c1' o' af' xs' sv' -> (st, c0, c1, o, af, xs, sv) = (st', c0', c1', o', af', xs', sv').
Proof.
  intros (ses & pl & i & to & rest & rs & gs & a & q & F & -> & O & -> & U & R) (ses' & pl' & i' & to' & rest' & rs' & gs' & a' & q' & F' & E & O' & -> & U' & R').
  apply frame_inj in E; [|assumption..]. destruct E as (E & Ep & <-). injection E as <- <- <- <- <-. apply rr_inj in Ep; [|assumption..]. destruct Ep as [Ep _]. injection Ep as <- <- <-.
  destruct U as (tl & ->), U' as (tl' & U'). assert (Ur : router_reply sv rs gs a q = router_reply sv' rs' gs' a' q') by congruence. apply router_reply_inj in Ur; [|assumption..]. injection Ur as <- <- <- <- <-. reflexivity.
Qed.
Lemma tells_rr sv pad ss d bs w : rbuf_ok w -> len ss < 256 -> carries_opt (w_mem w) d bs -> tells (l_sendRRDataCommand sv (path_of pad ss) d) w.
Proof.
  intros B Ls C. unfold l_sendRRDataCommand. apply t_bind; [apply t_say|]. intros [] w0 Z1 E0. injection E0 as <- <-.
  apply t_bind; [apply t_lift; discriminate|]. intros w0 w1 Z2 E1. injection E1 as <- <- <-.
  destruct (ep_make_carries (w_mem w) EIP_CMD_SEND_RR_DATA (se_id (w_se w)) (Some (rrq_ser (rrq_make sv (path_of pad ss) d)))
    (rr_request (u8 sv) (epath pad ss) bs)) as (q & Eq & _ & Hh & Cq); [apply rrq_carries; assumption|].
  apply t_bind; [apply t_lift; unfold mout; rewrite Eq; discriminate|]. unfold mout. intros q' w1 Z3 E1. apply lift_ret in E1. rewrite Eq in E1. destruct E1 as [E1 _]. injection E1 as <- <-.
  apply t_bind; [apply t_catch; [apply never_tells, (t_command _ _ _ B Cq)|intros; apply t_error..]|].
  intros p w1 Z4 S. apply l_catch_ret in S; [|intros; al..].
  destruct (l_command _ _ _ _ _ _ B Cq S) as (got & rs & ses & st & c0 & c1 & o & pl & after & Rv & F & Eg & Hp & Hl & B1 & W). clear S.
  apply t_bind; [apply t_says|]. intros [] w2 Z5 S. unfold says in S. apply pair_equal_spec in S. destruct S as [S _]. injection S as <-.
  apply t_bind.
  - apply t_catch; [|intros; apply t_error..]. apply t_lift. intros c t w' S. unfold m_copy_local in S. destruct pl as [|b pl0].
    { destruct (ep_payload p) as [x|]; [destruct Hl as [Hl _]; congruence|]. discriminate. }
    set (pl := b :: pl0) in *. destruct (copy_local_holds rrs_cls (ep_payload p) pl w1 rrs_make Hl) as (v & R & E); [discriminate|reflexivity|]. rewrite E in S. clear E.
    unfold run_reader in S. change (deserialize_len rrs_cls (len pl)) with rrs_deserialize in S.
    destruct (rr_reply_decode (w_mem w1) v 0 rrs_make pl R)
      as [(i & to & xs & rest & dd & s & rs0 & gs & a & qq & t' & Ok & Ep & U & Or & Ed & D & I)|[N [(Ne & e1 & s & r1 & t' & Ie & D)|(i & to & xs & rest & r1 & t' & Ok & Ep & U & D)]]]; rewrite D in S; try discriminate.
    injection S as <- _ _. intros ->. discriminate.
  - intros resp w2 Z6 _. apply t_bind; [apply t_says|]. intros [] w3 Z7 _. destruct (negb _); [apply t_error|apply t_ret].
Qed.
Lemma never_bind {A B} (x : L world A) (f : A -> L world B) w : never x w -> (forall a w' l, x w = (Ret a, w', l) -> never (f a) w') -> never (lbind x f) w.
Proof.
  intros X F t w' l. unfold lbind. destruct (x w) as [[[a|c t1|u|] s1] l1] eqn:E; try discriminate.
  - destruct (f a s1) as [[o2 s2] l2] eqn:E2. intros H. injection H as -> -> <-. exact (F _ _ _ eq_refl _ _ _ E2).
  - intros H. injection H as -> -> -> <-. exact (X _ _ _ E).
Qed.
Lemma tells_open h p i w : rbuf_ok w -> tells (l_open h p i) w.
Proof.
  intros B. unfold l_open. apply t_bind; [apply t_say|]. intros [] w0 Z8 E. injection E as <- <-.
  assert (K : forall id a b w w', sock_open id a b w = (Ret tt, w') -> rbuf_ok w -> rbuf_ok w').
  { intros id a b w0 w' E (bl & Hb). unfold sock_open in E. exists bl. destruct (so_open _) as [|[] rs]; try discriminate; injection E as <-; destruct id; exact Hb. }
  apply t_bind; [eapply t_raises; [apply m_sopen|discriminate]|]. intros [] w1 Z9 E. apply lift_ret in E. destruct E as [E _]. pose proof (K _ _ _ _ _ E B) as B1.
  apply t_bind; [eapply t_raises; [apply m_sopen|discriminate]|]. intros [] w2 Z10 E2. apply lift_ret in E2. destruct E2 as [E2 _]. pose proof (K _ _ _ _ _ E2 B1) as B2.
  apply t_bind; [apply t_say|]. intros [] w3 Z11 E3. injection E3 as <- <-.
  destruct (ep_make_carries (w_mem w2) EIP_CMD_REGISTER_SESSION 0 (Some (rg_ser rg_make)) (registration 1 0)) as (q & Eq & _ & Hh & Cq).
  { apply (rg_carries (w_mem w2) rg_make). }
  apply t_bind; [apply t_lift; unfold mout; rewrite Eq; discriminate|]. intros q' w3 Z12 E3. apply lift_ret in E3. unfold mout in E3. rewrite Eq in E3. destruct E3 as [E3 _]. injection E3 as <- <-.
  apply t_bind; [apply t_catch; [apply never_tells, (t_command _ _ _ B2 Cq)|intros; apply t_close_say..]|].
  intros resp w3 Z13 S. apply l_catch_ret in S; [|intros; al..].
  destruct (l_command _ _ _ _ _ _ B2 Cq S) as (got & rs & ses & st & c0 & c1 & o & pl & after & Rv & F & Eg & Hp & Hl & B3 & W).
  apply t_bind; [apply t_says|]. intros [] w4 Z14 S2. unfold say_if, says in S2. apply pair_equal_spec in S2. destruct S2 as [S2 _]. injection S2 as <-.
  apply t_bind.
  - apply t_catch; [|intros; (apply t_bind; [apply t_say|intros; apply t_ret])..]. apply t_bind; [|intros; apply t_ret].
    apply t_lift. intros c t w' H. unfold m_copy_local in H. destruct (m_copy rg_cls _ _ w3) as [[o1 t1] w4] eqn:E4. destruct o1; try discriminate. injection H as <- _ _.
    destruct pl as [|b pl0].
    { destruct (ep_payload resp) as [x|]; [destruct Hl as [Hl _]; congruence|]. discriminate. }
    destruct (copy_local_holds rg_cls (ep_payload resp) _ w3 rg_make Hl) as (v & R & E5); [discriminate|reflexivity|]. rewrite E5 in E4.
    destruct (run_reader _ _ _ _) as [[o2 m2] t2] eqn:E6. injection E4 as -> _ _. unfold run_reader in E6.
    destruct (deserialize_len rg_cls _ _ _ _) as [[[o3 m3] r3] t3] eqn:E7. injection E6 as -> _ _.
    assert (RS : raises_short rg_cls) by (pose proof raises_all; tauto). apply (RS _) in E7. unfold short in E7. congruence.
  - intros reg w5 Z15 _. apply t_bind; [|intros; apply t_bind; [apply t_lift; discriminate|intros; apply t_say]].
    destruct reg as [g|]; [|apply t_ret]. destruct (negb _); [apply t_error|apply t_says].
Qed.
Lemma step_tells o w t w' l : session_ok w -> op_ok (w_mem w) o -> op_quiet o -> l_step o w = (Throw RuntimeError t, w', l) -> logged Error l.
Proof.
  intros (B & _ & T) O Q. revert t w' l. change (tells (l_step o) w).
  destruct o as [h p i| |X c x0 x y z|x y z d|a b|n| |p]; cbn [l_step op_ok op_quiet] in *.
  - apply t_bind; [apply tells_open; exact B|intros; apply t_ret].
  - apply never_tells. intros t w' l H. pose proof (q_step OpClose w) as E. unfold quietly in E. cbn [l_step] in E. rewrite H in E. symmetry in E. apply step_raises in E; [discriminate|exact Logic.I].
  - destruct O as (Hx & Hy & Hz & _). rewrite path_cia_of by assumption. apply t_bind; [apply (tells_rr _ _ _ _ [] _ B); reflexivity|].
    intros r w1 Z1 E. apply t_bind; [|intros; apply t_ret]. apply t_lift. intros e s w2 H ->. unfold m_copy_local in H.
    destruct (m_copy c _ x0 w1) as [[o2 t2] w3] eqn:E2. destruct o2 as [u|e1 s1|u|]; try discriminate. injection H as -> _ _.
    pose proof (q_rr 0x0E (path_of false [SClass x; SInstance y; SAttribute z]) None w) as Er. unfold quietly in Er. rewrite E in Er. symmetry in Er.
    apply (proj1 Q). eapply copy_raises; [|exact E2|reflexivity]. eapply (tidy_yields _ _ (PLeak.t_rr 0x0E _ None Logic.I)); exact Er.
  - destruct O as (Hx & Hy & Hz & bs & C & _). rewrite path_cia_of by assumption. apply t_bind; [apply (tells_rr _ _ _ _ bs _ B); [reflexivity|exact C]|intros; apply t_ret].
  - destruct O as (Ha & Hb). apply t_bind; [|intros; apply t_ret]. unfold l_createConnection. apply t_bind; [apply t_lift; discriminate|]. intros w0 w1 Z1 E. injection E as <- <- <-.
    set (conn := cn_make _ _ _ _ _ _ _). apply t_bind; [apply t_lift; discriminate|]. intros [] w1 Z1 E. injection E as <- <-. set (w1 := set_se _ w).
    rewrite path_ci_of by lia. pose proof (forward_open_bytes (w_mem w1) (se_vendor (w_se w)) (se_serial (w_se w)) (se_next_sn (w_se w)) (se_next_id (w_se w)) (u32 (se_next_id (w_se w) + 1)) a b Ha Hb) as C. fold conn in C.
    apply t_bind; [apply (tells_rr 0x5B false [SClass 6; SInstance 1] (Some (fo_ser (cn_open_request conn))) _ w1 B eq_refl C)|].
    intros r w2 Z2 E. pose proof (q_rr 0x5B (path_of false [SClass 6; SInstance 1]) (Some (fo_ser (cn_open_request conn))) w1) as Er. unfold quietly in Er. rewrite E in Er. symmetry in Er.
    apply t_bind.
    { eapply t_raises; [apply m_copy_short|discriminate]; [eapply (tidy_yields _ _ (PLeak.t_rr 0x5B _ (Some (fo_ser (cn_open_request conn))) (bal_fo _))); exact Er|pose proof raises_all; tauto]. }
    intros res w3 Z3 _. apply t_bind; [apply t_says|]. intros [] w4 Z4 _. destruct (cn_verify_open _ _); [|apply t_error].
    apply t_bind; [apply t_lift; discriminate|]. intros [] w5 Z5 _. apply t_bind; [apply t_lift; discriminate|]. intros; apply t_ret.
  - apply t_bind; [|intros; apply t_ret]. unfold l_closeConnection.
    assert (G : forall w, tells (lift (getConnection n)) w) by (intros w0; apply t_lift; intros c s w1 K; unfold getConnection in K; destruct (nth_error _ _); discriminate).
    apply t_bind; [apply G|]. intros c w1 Z1 E. apply lift_ret in E. destruct E as [E ->]. unfold getConnection in E. destruct (nth_error (se_conns (w_se w)) (N.to_nat n)) as [c1|] eqn:Ec; [|discriminate].
    injection E as -> <-. rewrite Forall_forall in T. destruct (T c (nth_error_In _ _ Ec)) as [T1 T2].
    rewrite path_ci_of by lia. pose proof (forward_close_bytes (w_mem w) c T1 T2) as C.
    apply t_bind; [apply (tells_rr 0x4E false [SClass 6; SInstance 1] (Some (fc_ser (cn_close_request c))) _ w B eq_refl C)|].
    intros r w2 Z2 E. pose proof (q_rr 0x4E (path_of false [SClass 6; SInstance 1]) (Some (fc_ser (cn_close_request c))) w) as Er. unfold quietly in Er. rewrite E in Er. symmetry in Er.
    apply t_bind.
    { eapply t_raises; [apply m_copy_short|discriminate]; [eapply (tidy_yields _ _ (PLeak.t_rr 0x4E _ (Some (fc_ser (cn_close_request c))) (bal_fc _))); exact Er|pose proof raises_all; tauto]. }
    intros res w3 Z3 _. apply t_bind; [apply G|]. intros c' w4 Z4 _. apply t_bind; [apply t_say|]. intros [] w5 Z5 _. destruct (negb _); [apply t_error|apply t_lift; discriminate].
  - apply never_tells. intros t w' l H. pose proof (q_step OpReceiveIO w) as E. unfold quietly in E. cbn [l_step] in E. rewrite H in E. symmetry in E. apply step_raises in E; [|exact Logic.I].
    destruct E as [E|E]; discriminate.
  - destruct O as (xs & C). apply never_tells. intros t w' l H. pose proof (q_step (OpSendIO p) w) as E. unfold quietly in E. cbn [l_step] in E. rewrite H in E. symmetry in E. apply step_raises in E; [discriminate|]. eexists; exact C.
Qed.

(** An error is never logged by a call that raises length_error or out_of_range. *)
Definition spoken (c : exn_class) : Prop := c <> LengthError /\ c <> OutOfRange.
Definition loud {S A} (x : L S A) : Prop := forall s c t s' l, x s = (Throw c t, s', l) -> logged Error l -> spoken c.
Definition only {S A} (x : L S A) : Prop := forall s c t s' l, x s = (Throw c t, s', l) -> spoken c.
Lemma ld_only {S A} (x : L S A) : only x -> loud x. Proof. intros X s c t s' l H _. exact (X _ _ _ _ _ H). Qed.
Lemma ld_each {S A} (x : L S A) : each (fun c => lg_level c <> Error) x -> loud x.
Proof. intros X s c t s' l H K. destruct (none_logged _ _ X _ _ _ _ H K). Qed.
Lemma ld_bind {S A B} (x : L S A) (f : A -> L S B) : calm x -> loud x -> (forall a, loud (f a)) -> loud (lbind x f).
Proof.
  intros K X F s c t s' l. unfold lbind. destruct (x s) as [[[a|c1 t1|u|] s1] l1] eqn:E; try discriminate.
  - destruct (f a s1) as [[o2 s2] l2] eqn:E2. intros H Hl. injection H as -> -> <-. apply logged_app in Hl. destruct Hl as [Hl|Hl]; [|exact (F _ _ _ _ _ _ E2 Hl)].
    destruct (K _ _ _ _ E Hl) as (? & ? & ?). discriminate.
  - intros H Hl. injection H as -> -> -> <-. exact (X _ _ _ _ _ E Hl).
Qed.
Lemma ld_catch {S A} (x : L S A) h1 h2 : loud x -> (forall t, only (h1 t)) -> (forall t, only (h2 t)) -> loud (lcatch x h1 h2).
Proof.
  intros X H1 H2 s c t s' l. unfold lcatch. destruct (x s) as [[[a|c1 t1|u|] s1] l1] eqn:E; try discriminate.
  destruct (is_a c1 LengthError); [destruct (h1 t1 s1) as [[o2 s2] l2] eqn:E2; intros H _; injection H as -> -> _; exact (H1 _ _ _ _ _ _ E2)|].
  destruct (is_a c1 LogicError); [destruct (h2 t1 s1) as [[o2 s2] l2] eqn:E2; intros H _; injection H as -> -> _; exact (H2 _ _ _ _ _ _ E2)|].
  intros H Hl. injection H as -> -> -> <-. exact (X _ _ _ _ _ E Hl).
Qed.
Lemma on_bind {S A B} (x : L S A) (f : A -> L S B) : only x -> (forall a, only (f a)) -> only (lbind x f).
Proof.
  intros X F s c t s' l. unfold lbind. destruct (x s) as [[[a|c1 t1|u|] s1] l1] eqn:E; try discriminate.
  - destruct (f a s1) as [[o2 s2] l2] eqn:E2. intros H. injection H as -> -> _. exact (F _ _ _ _ _ _ E2).
  - intros H. injection H as -> -> -> _. exact (X _ _ _ _ _ E).
Qed.
Lemma on_throw {S A} c t : spoken c -> only (@lthrow S A c t). Proof. intros K s c1 t1 s' l H. injection H as <- _ _ _. exact K. Qed.
Lemma on_say {S} v f a : only (@say S v f a). Proof. intros s c t s' l H. discriminate. Qed.
Lemma on_ret {S A} (a : A) : only (@lret S A a). Proof. intros s c t s' l H. discriminate. Qed.
Lemma on_close : only (lift close_both).
Proof. intros w c t w' l H. apply lift_ret in H. destruct H as [H _]. apply m_close_both in H. unfold sys in H. subst c. split; discriminate. Qed.
Ltac on := repeat lazymatch goal with
  | |- forall _, only _ => intros; cbv beta
  | |- only (lbind _ _) => apply on_bind
  | |- only (lthrow _ _) => apply on_throw; split; discriminate
  | |- only (say _ _ _) => apply on_say
  | |- only (lret _) => apply on_ret
  | |- only (lift close_both) => apply on_close
  end.
Ltac ld := repeat lazymatch goal with
  | |- forall _, only _ => on
  | |- forall _, loud _ => intros; cbv beta
  | |- loud (lbind (say Error _ _) _) => apply ld_only; on
  | |- loud (lbind _ _) => apply ld_bind
  | |- loud (lcatch _ _ _) => apply ld_catch
  | |- loud (if ?b then _ else _) => destruct b
  | |- loud (match ?b with Some _ => _ | None => _ end) => destruct b
  | |- loud (lift _) => apply ld_each; e
  | |- loud (lret _) => apply ld_each; e
  | |- loud (say _ _ _) => apply ld_each; e; discriminate
  | |- loud (say_if _ _ _ _) => apply ld_each; e; discriminate
  end.
Lemma ld_check p cmd : loud (l_check_packet p cmd).
Proof.
  intros s c t s' l H. unfold l_check_packet in H. cbv zeta in H.
  destruct (negb _); [refine (ld_only _ _ _ _ _ _ _ H); on|]. destruct (_ && _); [refine (ld_only _ _ _ _ _ _ _ H); on|]. destruct (_ && _); [refine (ld_only _ _ _ _ _ _ _ H); on|].
  refine (ld_each _ _ _ _ _ _ _ H). e; discriminate.
Qed.
Lemma ld_command req : loud (l_sendCommand req).
Proof. unfold l_sendCommand. ld; ca; try apply c_check; apply ld_check. Qed.
Lemma e_rrlog p : each (fun c => lg_level c <> Error) (says (rr_log p)).
Proof. e. unfold rr_log. destruct (m_copy _ _ _ _) as [[[u|c t|u|] pk] w1]; try constructor. destruct (_ <? _); repeat constructor; discriminate. Qed.
Lemma e_verify c r : each (fun c => lg_level c <> Error) (@says world (fun _ => verify_log c r)).
Proof. e. unfold verify_log. destruct (_ || _); [constructor|]. apply Forall_app. split; destruct (negb _); repeat constructor; discriminate. Qed.
Lemma ld_rr sv p d : loud (l_sendRRDataCommand sv p d).
Proof. unfold l_sendRRDataCommand. ld; ca; try apply c_command; try apply ld_command; try (apply c_each, e_rrlog); try (apply ld_each, e_rrlog). Qed.
Lemma ld_step o : loud (l_step o).
Proof.
  destruct o as [h p i| |T c t x y z|x y z d|a b|n| |p]; cbn [l_step]; unfold l_open, l_close, l_createConnection, l_closeConnection, l_receiveIOPacket, l_sendIOPacket; ld; ca;
    try apply c_command; try apply c_rr; try apply ld_rr; try apply ld_command; try (apply c_each, e_verify); try (apply ld_each, e_verify); try (apply c_each; e; discriminate); try (apply ld_each; e; discriminate).
Qed.
Lemma short_unlogged o w c t w' l : l_step o w = (Throw c t, w', l) -> c = LengthError \/ c = OutOfRange -> ~ logged Error l.
Proof. intros H K Hl. destruct (ld_step _ _ _ _ _ _ H Hl). destruct K; contradiction. Qed.

(** ** Warnings of the operations *)
Lemma w_lift {A B} (x : M A) (f : A -> L world B) w v w' l : lbind (lift x) f w = (Ret v, w', l) -> exists a w1, x w = (Ret a, w1) /\ f a w1 = (Ret v, w', l).
Proof. intros H. apply l_bind_ret in H. destruct H as (a & w1 & l1 & l2 & E & F & ->). apply lift_ret in E. destruct E as [E ->]. eauto. Qed.
Lemma quiet_tail {A} (x : L world A) w v w' l : each (fun c => lg_level c <> Warn) x -> x w = (Ret v, w', l) -> ~ logged Warn l.
Proof. intros X H. exact (none_logged _ _ X _ _ _ _ H). Qed.
Lemma warns_exact o service w r w' l : session_ok w -> op_ok (w_mem w) o -> asks o service -> l_step o w = (Ret r, w', l) ->
  exists got rs st c0 c1 op after xs sv, so_recv (w_ctl w) = RxData got :: rs /\ reply_parts (take 4096 got) st c0 c1 op after xs sv /\
    (logged Warn l <-> odd_reply service st c0 c1 op after xs sv) /\ (sv <> service + 0x80 -> In (mkLog Warn wrong_service [AInt service; AInt sv]) l).
Proof.
  intros (B & _ & T) O A H.
  assert (K : forall sv pad ss d bs wi resp w1 l1 l2, rbuf_ok wi -> len ss < 256 -> carries_opt (w_mem wi) d bs -> N.lor (u8 sv) 0x80 = sv + 0x80 -> u8 sv = sv -> w_ctl wi = w_ctl w ->
    l_sendRRDataCommand sv (path_of pad ss) d wi = (Ret resp, w1, l1) -> ~ logged Warn l2 ->
    exists got rs st c0 c1 op after xs s, so_recv (w_ctl w) = RxData got :: rs /\ reply_parts (take 4096 got) st c0 c1 op after xs s /\ (logged Warn (l1 ++ l2) <-> odd_reply sv st c0 c1 op after xs s) /\ (s <> sv + 0x80 -> In (mkLog Warn wrong_service [AInt sv; AInt s]) (l1 ++ l2))).
  { intros sv pad ss d bs wi resp w1 l1 l2 Bi Ls C Lo Lu Ec E N.
    destruct (rr_warns _ _ _ _ _ _ _ _ _ Bi Ls C Lo E) as (got & rs & st & c0 & c1 & op & after & xs & s & Rv & P & W & Wi).
    exists got, rs, st, c0, c1, op, after, xs, s. rewrite <- Ec. split; [exact Rv|]. split; [exact P|]. rewrite Lu in Wi. split; [rewrite logged_app, W; tauto|]. intros Z. apply in_or_app. auto. }
  destruct o as [h p i| |X c x0 x y z|x y z d|a b|n| |p]; cbn [l_step op_ok asks] in *; try contradiction; subst service.
  - destruct O as (Hx & Hy & Hz & _). rewrite path_cia_of in H by assumption. apply l_bind_ret in H. destruct H as (resp & w1 & l1 & l2 & E & H & ->).
    refine (K _ _ _ _ [] _ _ _ _ _ B _ _ _ _ eq_refl E _); try reflexivity. refine (quiet_tail _ _ _ _ _ _ H). e.
  - destruct O as (Hx & Hy & Hz & bs & C & _). rewrite path_cia_of in H by assumption. apply l_bind_ret in H. destruct H as (resp & w1 & l1 & l2 & E & H & ->).
    refine (K _ _ _ _ bs _ _ _ _ _ B _ C _ _ eq_refl E _); try reflexivity. refine (quiet_tail _ _ _ _ _ _ H). e.
  - destruct O as (Ha & Hb). unfold l_createConnection in H. apply l_bind_ret in H. destruct H as (k & w1 & l1 & l2 & H & H2 & ->). injection H2 as _ _ <-. rewrite app_nil_r in *.
    apply w_lift in H. destruct H as (w0 & w2 & E & H). injection E as <- <-. set (conn := cn_make _ _ _ _ _ _ _) in H. apply w_lift in H. destruct H as ([] & w2 & E & H). injection E as <-. set (w2 := set_se _ w) in H.
    rewrite path_ci_of in H by lia.
    pose proof (forward_open_bytes (w_mem w2) (se_vendor (w_se w)) (se_serial (w_se w)) (se_next_sn (w_se w)) (se_next_id (w_se w)) (u32 (se_next_id (w_se w) + 1)) a b Ha Hb) as C. fold conn in C.
    apply l_bind_ret in H. destruct H as (resp & w3 & l3 & l4 & E & H & ->).
    refine (K _ _ _ (Some (fo_ser (cn_open_request conn))) _ w2 _ _ _ _ B _ C _ _ eq_refl E _); try reflexivity. refine (quiet_tail _ _ _ _ _ _ H).
    e; try discriminate. unfold verify_log. destruct (_ || _); [constructor|]. apply Forall_app. split; destruct (negb _); repeat constructor; discriminate.
  - unfold l_closeConnection in H. apply l_bind_ret in H. destruct H as (k & w1 & l1 & l2 & H & H2 & ->). injection H2 as _ _ <-. rewrite app_nil_r in *.
    apply w_lift in H. destruct H as (c & w2 & E & H). unfold getConnection in E. destruct (nth_error (se_conns (w_se w)) (N.to_nat n)) as [c1|] eqn:Ec; [|discriminate]. injection E as -> <-.
    rewrite Forall_forall in T. destruct (T c (nth_error_In _ _ Ec)) as [T1 T2]. rewrite path_ci_of in H by lia. pose proof (forward_close_bytes (w_mem w) c T1 T2) as C.
    apply l_bind_ret in H. destruct H as (resp & w3 & l3 & l4 & E & H & ->).
    refine (K _ _ _ (Some (fc_ser (cn_close_request c))) _ w _ _ _ _ B _ C _ _ eq_refl E _); try reflexivity. refine (quiet_tail _ _ _ _ _ _ H). e; discriminate.
Qed.

(** ** What the scanner shows *)
Lemma append_nil s : (s ++ "")%string = s.
Proof. induction s; cbn; [reflexivity|rewrite IHs; reflexivity]. Qed.
Lemma shown_small n : n < 2 ^ 31 -> shown VInt (AInt n) = dec n.
Proof. intros H. unfold shown, signed. destruct (N.ltb_spec n (2 ^ 31)); [reflexivity|lia]. Qed.
Lemma shown_big n : 2 ^ 31 <= n -> shown VInt (AInt n) = String "-"%char (dec (2 ^ 32 - n)).
Proof. intros H. unfold shown, signed. destruct (N.ltb_spec n (2 ^ 31)); [lia|reflexivity]. Qed.
Lemma nul_free bs : Forall (fun b => b <> x00) bs -> before_nul bs = bs.
Proof.
  induction 1 as [|b r H _ IH]; [reflexivity|]. cbn [before_nul]. destruct (N.eqb_spec (Byte.to_N b) 0) as [E|E]; [|rewrite IH; reflexivity].
  exfalso. apply H. destruct b; try discriminate; reflexivity.
Qed.
Lemma rev_octet i k : rev_of i k = octet_at (id_revision i) k.
Proof. unfold rev_of, octet_at. revert k. induction (id_revision i) as [|b l IH]; intros [|k]; try reflexivity. apply IH. Qed.
Lemma rev_small i k : rev_of i k < 2 ^ 31.
Proof. unfold rev_of. destruct (nth_error _ _) as [b|]; [|reflexivity]. pose proof (to_N_bounded b). lia. Qed.
Lemma scan_shows m b bl got tail i m' l : nth_error m b = Some (Some bl) -> len bl = 4096 -> bl = got ++ tail ->
  l_scan_handle false (len got) b m = (Ret (ScanIdentity i), m', l) ->
  Forall (fun s => In s (map line l)) (field_lines i) /\
  In ("Serial Number: " ++ signed (id_serial i))%string (map line l) /\
  In ("Product Name: " ++ string_of_list_byte (before_nul (id_name i)))%string (map line l).
Proof.
  intros Hm Lb Eb H. destruct (scan_one m b bl got tail Hm Lb Eb) as (o & E & O).
  pose proof (q_scan false (len got) b m) as Q. rewrite H, E in Q. injection Q as <- <-.
  assert (F : identity_fits i).
  { destruct O as [(i' & (d & xs & rest & _ & F & _) & E1)|[[_ E1]|(r & R & E1)]]; [|discriminate|].
    - injection E1 as <-. exact F.
    - injection E1 as <-. destruct R. }
  destruct F as (F1 & _ & F2 & F3 & F4 & _ & F5 & F6 & _ & F7).
  apply scan_identity_logs in H. destruct H as (l1 & ->). rewrite map_app.
  assert (T : forall n, fits 2 n -> n < 2 ^ 31) by (intros n Hn; apply fits2_lt in Hn; lia).
  assert (K : forall s, In s (map line (identity_log i)) -> In s (map line l1 ++ map line (identity_log i))) by (intros s Hs; apply in_or_app; auto).
  split; [|split].
  - unfold field_lines. repeat (apply Forall_cons; [apply K; unfold identity_log; cbn [map In]|]); [..|apply Forall_nil].
    + right; left. unfold line. cbn -[shown dec]. rewrite shown_small, append_nil by (apply T; exact F1). reflexivity.
    + do 3 right; left. unfold line. cbn -[shown dec]. rewrite shown_small, append_nil by (apply T; exact F2). reflexivity.
    + do 4 right; left. unfold line. cbn -[shown dec]. rewrite shown_small, append_nil by (apply T; exact F3). reflexivity.
    + do 5 right; left. unfold line. cbn -[shown dec]. rewrite shown_small, append_nil by (apply T; exact F4). reflexivity.
    + do 6 right; left. unfold line. cbn -[shown dec rev_of]. rewrite !shown_small, append_nil by apply rev_small. rewrite !rev_octet. reflexivity.
    + do 7 right; left. unfold line. cbn -[shown dec]. rewrite shown_small, append_nil by (apply T; exact F5). reflexivity.
    + do 10 right; left. unfold line. cbn -[shown dec]. rewrite shown_small, append_nil by lia. reflexivity.
  - apply K. unfold identity_log. cbn [map In]. do 8 right; left. unfold line. cbn -[signed]. rewrite append_nil. reflexivity.
  - apply K. unfold identity_log. cbn [map In]. do 9 right; left. unfold line. cbn -[string_of_list_byte before_nul]. rewrite append_nil. reflexivity.
Qed.
