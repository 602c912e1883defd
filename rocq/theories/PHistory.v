(** Histories: session state, serial numbers, connection numbers (C48, C50, C51). *)
From Verif Require Export Vocab4 PSession3 PSend2 PKeeps.

(** ** Actions that do not touch the session's members *)
Definition calm {A} (x : M A) : Prop := forall w, w_se (snd (x w)) = w_se w.
Lemma calm_ret {A} (a : A) : calm (mret a). Proof. intros w. reflexivity. Qed.
Lemma calm_throw {A} c s : calm (A := A) (mthrow c s). Proof. intros w. reflexivity. Qed.
Lemma calm_get : calm mget. Proof. intros w. reflexivity. Qed.
Lemma calm_out {A} (x : outcome A) : calm (mout x). Proof. intros w. reflexivity. Qed.
Lemma calm_bind {A B} (x : M A) (f : A -> M B) : calm x -> (forall a, calm (f a)) -> calm (mbind x f).
Proof.
  intros X F w. unfold mbind. specialize (X w). destruct (x w) as [o w1]. cbn [snd] in X.
  destruct o; cbn [snd]; try assumption. rewrite F. assumption.
Qed.
Lemma calm_finally {A} (x : M A) f : calm x -> calm f -> calm (mfinally x f).
Proof.
  intros X F w. unfold mfinally. specialize (X w). destruct (x w) as [o w1]. cbn [snd] in X.
  destruct o; try assumption; (rewrite calm_bind; [assumption|assumption|intros; first [apply calm_ret|apply calm_throw]]).
Qed.
Lemma calm_catch {A} (x h1 h2 : M A) : calm x -> calm h1 -> calm h2 -> calm (mcatch x h1 h2).
Proof.
  intros X H1 H2 w. unfold mcatch. specialize (X w). destruct (x w) as [o w1]. cbn [snd] in X.
  destruct o; try assumption. destruct (is_a c LengthError); [rewrite H1; assumption|].
  destruct (is_a c LogicError); [rewrite H2; assumption|assumption].
Qed.
Lemma calm_heap {A} (f : heap -> outcome A * heap) : calm (mheap f).
Proof. intros w. unfold mheap. destruct (f (w_mem w)). reflexivity. Qed.
Lemma calm_open i h p : calm (sock_open i h p).
Proof. intros w. unfold sock_open. destruct i; destruct (match so_open _ with b :: _ => b | [] => false end); reflexivity. Qed.
Lemma calm_close i : calm (sock_close i).
Proof. intros w. unfold sock_close. destruct i; destruct (match so_close _ with b :: _ => b | [] => false end); reflexivity. Qed.
Lemma calm_send i bs : calm (sock_send i bs).
Proof. intros w. unfold sock_send. destruct i; destruct (match so_send _ with b :: _ => b | [] => TxAll end); reflexivity. Qed.
Lemma calm_recv i v : calm (sock_recv i v).
Proof.
  intros w. unfold sock_recv. destruct (so_recv (get_sock i w)) as [|[bs|] rs]; [reflexivity| |destruct i; reflexivity].
  destruct (store _ _ _ _); destruct i; reflexivity.
Qed.
Lemma calm_send_ser i s : calm (sock_send_ser i s).
Proof.
  unfold sock_send_ser. apply calm_bind; [apply calm_out|intros n]. apply calm_bind; [apply calm_heap|intros b].
  apply calm_finally; [|apply calm_heap]. apply calm_bind; [apply calm_heap|intros _]. apply calm_bind; [apply calm_heap|intros bs]. apply calm_send.
Qed.
Lemma calm_decode {T} (x : D T unit) v t : calm (m_decode x v t).
Proof. intros w. unfold m_decode. destruct (x (w_mem w) (RBuf v 0) t) as [[[[|c s|u|] m] [? ?|? ? ?]] t']; reflexivity. Qed.
Lemma calm_check p c : calm (check_packet p c).
Proof. intros w. unfold check_packet. destruct (negb _); [reflexivity|]. destruct (_ && _); [reflexivity|]. destruct (_ && _); reflexivity. Qed.
Lemma calm_command req : calm (sendCommand req).
Proof.
  unfold sendCommand. apply calm_bind; [apply calm_send_ser|intros _]. apply calm_bind; [intros w; apply calm_recv|intros n].
  intros w. unfold sc_parse. apply calm_bind; [apply calm_decode|intros r]. apply calm_bind; [apply calm_check|intros _]. apply calm_ret.
Qed.
Lemma calm_copy {U} (c : cls U) p t w : w_se (snd (m_copy c p t w)) = w_se w.
Proof. unfold m_copy. destruct p as [s|]; [|reflexivity]. destruct (copy_serializable c s (w_mem w) t) as [[o m] t']. reflexivity. Qed.
Lemma calm_copy_local {U} (c : cls U) p t : calm (m_copy_local c p t).
Proof.
  intros w. unfold m_copy_local. pose proof (calm_copy c p t w) as H. destruct (m_copy c p t w) as [[[|e s|u|] t'] w']; exact H.
Qed.
Lemma calm_close_both : calm close_both.
Proof. apply calm_bind; [apply calm_close|intros _; apply calm_close]. Qed.
Lemma calm_rr service p d : calm (sendRRDataCommand service p d).
Proof.
  unfold sendRRDataCommand. apply calm_bind; [apply calm_get|intros w]. apply calm_bind; [apply calm_out|intros pkt].
  apply calm_bind; [apply calm_catch; [apply calm_command|apply calm_throw|apply calm_throw]|intros response].
  apply calm_bind; [apply calm_catch; [apply calm_copy_local|apply calm_throw|apply calm_throw]|intros resp].
  destruct (negb _); [apply calm_throw|apply calm_ret].
Qed.

(** ** Each operation on the members *)
Lemma open_se h p q w o w' : session_open h p q w = (o, w') ->
  (o = Ret tt /\ exists id, w_se w' = set_id id (w_se w)) \/ (~ returned o /\ w_se w' = w_se w).
Proof.
  unfold session_open. set (y := fun response : encap_packet => mupd_se (set_id (h_session (ep_header response)))).
  assert (G : forall (A : Type) (x : M A) (f : A -> M unit), calm x ->
    (forall a w o w', f a w = (o, w') -> (o = Ret tt /\ exists id, w_se w' = set_id id (w_se w)) \/ (~ returned o /\ w_se w' = w_se w)) ->
    forall w o w', mbind x f w = (o, w') -> (o = Ret tt /\ exists id, w_se w' = set_id id (w_se w)) \/ (~ returned o /\ w_se w' = w_se w)).
  { intros A x f X F w1 o1 w2. unfold mbind. specialize (X w1). destruct (x w1) as [r w3]. cbn [snd] in X. rewrite <- X.
    destruct r; [apply F|intros E; injection E as <- <-; right..].
    - split; [intros [a E]; discriminate|reflexivity].
    - split; [intros [a E]; discriminate|reflexivity].
    - split; [intros [a E]; discriminate|reflexivity]. }
  revert w o w'. apply G; [apply calm_open|intros _]. apply G; [apply calm_open|intros _]. apply G; [apply calm_out|intros reg].
  apply G.
  { apply calm_catch; [apply calm_command| |]; (apply calm_bind; [apply calm_close_both|intros _; apply calm_throw]). }
  intros response. apply G.
  { apply calm_catch; [|apply calm_ret|apply calm_ret]. apply calm_bind; [apply calm_copy_local|intros g; apply calm_ret]. }
  intros g. apply G.
  { destruct g as [g|]; [|apply calm_ret]. destruct (negb _); [|apply calm_ret].
    apply calm_bind; [apply calm_close_both|intros _; apply calm_throw]. }
  intros _ w o w' E. unfold mupd_se, mupd in E. injection E as <- <-. left. split; [reflexivity|]. eexists. reflexivity.
Qed.
Lemma close_se w o w' : session_close w = (o, w') ->
  (o = Ret tt /\ w_se w' = set_id 0 (w_se w)) \/ (~ returned o /\ w_se w' = w_se w).
Proof.
  unfold session_close, mget, mbind. 
  pose proof (calm_send_ser Ctl (ep_ser (ep_make0 EIP_CMD_UNREGISTER_SESSION (se_id (w_se w)))) w) as S.
  destruct (sock_send_ser Ctl _ w) as [r w1]. cbn [snd] in S.
  destruct r; try (intros E; injection E as <- <-; right; split; [intros [x X]; discriminate|assumption]).
  pose proof (calm_close_both w1) as C. destruct (close_both w1) as [r2 w2]. cbn [snd] in C.
  destruct r2; try (intros E; injection E as <- <-; right; split; [intros [x X]; discriminate|congruence]).
  unfold mupd_se, mupd. intros E. injection E as <- <-. left. split; [reflexivity|]. cbn [w_se set_se]. congruence.
Qed.
Lemma create_se a b w o w' : createConnection a b w = (o, w') ->
  se_next_sn (w_se w') = (se_next_sn (w_se w) + 1) mod 65536 /\ se_next_id (w_se w') = (se_next_id (w_se w) + 2) mod 4294967296 /\
  se_id (w_se w') = se_id (w_se w) /\ se_vendor (w_se w') = se_vendor (w_se w) /\ se_serial (w_se w') = se_serial (w_se w) /\
  ((exists c, o = Ret (len (se_conns (w_se w))) /\ se_conns (w_se w') = se_conns (w_se w) ++ [c] /\ cn_sn c = se_next_sn (w_se w) /\
      cn_tick_size c = 6 /\ cn_ticks c = 80) \/
   (~ returned o /\ se_conns (w_se w') = se_conns (w_se w))).
Proof.
  unfold createConnection, mget. unfold mbind at 1. cbv beta zeta. unfold mbind at 1. unfold mupd_se at 1, mupd at 1.
  set (w1 := set_se _ w). set (conn := cn_make _ _ _ _ _ a b).
  assert (W : w_se w1 = set_counters (u16 (se_next_sn (w_se w) + 1)) (u32 (se_next_id (w_se w) + 2)) (w_se w)) by reflexivity.
  unfold mbind at 1. pose proof (calm_rr 0x5B (path_ci 6 1) (Some (fo_ser (cn_open_request conn))) w1) as C.
  destruct (sendRRDataCommand _ _ _ w1) as [r w2]. cbn [snd] in C.
  assert (K : forall w3, w_se w3 = w_se w1 -> se_next_sn (w_se w3) = (se_next_sn (w_se w) + 1) mod 65536 /\
     se_next_id (w_se w3) = (se_next_id (w_se w) + 2) mod 4294967296 /\
     se_id (w_se w3) = se_id (w_se w) /\ se_vendor (w_se w3) = se_vendor (w_se w) /\ se_serial (w_se w3) = se_serial (w_se w) /\
     se_conns (w_se w3) = se_conns (w_se w)).
  { intros w3 ->. rewrite W. repeat split. }
  destruct r; try (intros E; injection E as <- <-; destruct (K _ C) as (K1 & K2 & K3 & K4 & K5 & K6);
    repeat (split; [assumption|]); right; split; [intros [x X]; discriminate|assumption]).
  unfold mbind at 1. pose proof (calm_copy_local fs_cls (ms_data (rr_ext a0)) fs_make w2) as C2.
  destruct (m_copy_local fs_cls _ _ w2) as [r3 w3]. cbn [snd] in C2. rewrite C in C2.
  destruct r3; try (intros E; injection E as <- <-; destruct (K _ C2) as (K1 & K2 & K3 & K4 & K5 & K6);
    repeat (split; [assumption|]); right; split; [intros [x X]; discriminate|assumption]).
  destruct (K _ C2) as (K1 & K2 & K3 & K4 & K5 & K6).
  destruct (cn_verify_open conn a1) as [c|] eqn:V.
  - unfold mupd_se, mupd, mbind. intros E. injection E as <- <-. cbn [w_se set_se set_conns se_next_sn se_next_id se_id se_vendor se_serial se_conns].
    repeat (split; [assumption|]). left. exists c. rewrite K6. split; [|split; [reflexivity|]].
    + f_equal. rewrite len_app, len_cons, len_nil. lia.
    + revert V. unfold cn_verify_open. destruct (_ || _); [discriminate|]. intros E. injection E as <-. repeat split.
  - intros E. injection E as <- <-. repeat (split; [assumption|]). right; split; [intros [x X]; discriminate|assumption].
Qed.
Lemma drop_se n w o w' : closeConnection n w = (o, w') ->
  (o = Ret tt /\ nth_error (se_conns (w_se w)) (N.to_nat n) <> None /\
   w_se w' = set_conns (list_remove (N.to_nat n) (se_conns (w_se w))) (w_se w)) \/ (~ returned o /\ w_se w' = w_se w).
Proof.
  unfold closeConnection. unfold mbind at 1, getConnection at 1. destruct (nth_error (se_conns (w_se w)) (N.to_nat n)) as [c|] eqn:E0.
  2:{ intros E. injection E as <- <-. right. split; [intros [x X]; discriminate|reflexivity]. }
  unfold mbind at 1. pose proof (calm_rr 0x4E (path_ci 6 1) (Some (fc_ser (cn_close_request c))) w) as C.
  destruct (sendRRDataCommand _ _ _ w) as [r w2]. cbn [snd] in C.
  destruct r; try (intros E; injection E as <- <-; right; split; [intros [x X]; discriminate|assumption]).
  unfold mbind at 1. pose proof (calm_copy_local cs_cls (ms_data (rr_ext a)) cs_make w2) as C2.
  destruct (m_copy_local cs_cls _ _ w2) as [r3 w3]. cbn [snd] in C2. rewrite C in C2.
  destruct r3; try (intros E; injection E as <- <-; right; split; [intros [x X]; discriminate|assumption]).
  unfold mbind, getConnection. rewrite C2, E0. destruct (negb _).
  - intros E; injection E as <- <-; right; split; [intros [x X]; discriminate|assumption].
  - unfold mupd_se, mupd. intros E; injection E as <- <-. left. split; [reflexivity|]. split; [discriminate|]. cbn [w_se set_se]. rewrite C2. reflexivity.
Qed.
Lemma get_se {T} (c : cls T) x y z t w : w_se (snd (getSingleAttributeSerializable c x y z t w)) = w_se w.
Proof.
  unfold getSingleAttributeSerializable. pose proof (calm_rr 0x0E (path_cia x y z false) None w) as C.
  destruct (sendRRDataCommand _ _ _ w) as [[r| | |] w']; cbn [snd] in *; try assumption. rewrite calm_copy. assumption.
Qed.
Lemma recv_io_se : calm receiveIOPacket.
Proof.
  intros w. unfold receiveIOPacket. apply calm_bind; [apply calm_recv|intros n]. apply calm_bind; [apply calm_decode|intros r]. apply calm_ret.
Qed.

(** One step: what can happen to the members. *)
Definition moved (o : op) (w : world) (r : outcome result) (w' : world) : Prop :=
  let s := w_se w in let s' := w_se w' in
  se_vendor s' = se_vendor s /\ se_serial s' = se_serial s /\
  match o with
  | OpOpen _ _ _ => (returned r /\ exists id, s' = set_id id s) \/ (~ returned r /\ s' = s)
  | OpClose => (returned r /\ s' = set_id 0 s) \/ (~ returned r /\ s' = s)
  | OpCreate _ _ =>
      se_id s' = se_id s /\ se_next_sn s' = (se_next_sn s + 1) mod 65536 /\ se_next_id s' = (se_next_id s + 2) mod 4294967296 /\
      ((exists c, r = Ret (RNumber (len (se_conns s))) /\ se_conns s' = se_conns s ++ [c] /\ cn_sn c = se_next_sn s /\
          cn_tick_size c = 6 /\ cn_ticks c = 80) \/
       (~ returned r /\ se_conns s' = se_conns s))
  | OpCloseConnection n =>
      (returned r /\ nth_error (se_conns s) (N.to_nat n) <> None /\ s' = set_conns (list_remove (N.to_nat n) (se_conns s)) s) \/
      (~ returned r /\ s' = s)
  | _ => s' = s
  end.
Lemma step_moved o w r w' : step o w = (r, w') -> moved o w r w'.
Proof.
  unfold moved. destruct o as [h p q| |T c t x y z|x y z d|a b|n| |p]; cbn [step].
  - unfold mbind. destruct (session_open h p q w) as [o w1] eqn:E. apply open_se in E.
    destruct E as [[-> [id E]]|[N1 E]].
    + unfold mret. intros H. injection H as <- <-. rewrite E. split; [reflexivity|]. split; [reflexivity|]. left. split; [eexists; reflexivity|]. eexists. reflexivity.
    + destruct o as [u| | |]; [exfalso; apply N1; eexists; reflexivity| | |]; intros H; injection H as <- <-; rewrite E;
      (split; [reflexivity|]; split; [reflexivity|]; right; split; [intros [k K]; discriminate|reflexivity]).
  - unfold mbind. destruct (session_close w) as [o w1] eqn:E. apply close_se in E.
    destruct E as [[-> E]|[N1 E]].
    + unfold mret. intros H. injection H as <- <-. rewrite E. split; [reflexivity|]. split; [reflexivity|]. left. split; [eexists; reflexivity|]. reflexivity.
    + destruct o as [u| | |]; [exfalso; apply N1; eexists; reflexivity| | |]; intros H; injection H as <- <-; rewrite E;
      (split; [reflexivity|]; split; [reflexivity|]; right; split; [intros [k K]; discriminate|reflexivity]).
  - pose proof (get_se c x y z t w) as S. destruct (getSingleAttributeSerializable c x y z t w) as [[o t'] w1]. cbn [snd] in S.
    destruct o; intros H; injection H as <- <-; rewrite S; repeat split.
  - unfold mbind. assert (S : calm (setSingleAttributeSerializable x y z d)).
    { unfold setSingleAttributeSerializable. apply calm_bind; [apply calm_rr|intros _; apply calm_ret]. }
    specialize (S w). destruct (setSingleAttributeSerializable x y z d w) as [o w1]. cbn [snd] in S.
    destruct o; intros H; injection H as <- <-; rewrite S; repeat split.
  - unfold mbind. destruct (createConnection a b w) as [o w1] eqn:E. apply create_se in E.
    destruct E as (E1 & E2 & E3 & E4 & E5 & E6).
    destruct E6 as [(c & -> & E6)|[N1 E6]].
    + unfold mret. intros H. injection H as <- <-. repeat (split; [assumption|]). left. exists c. split; [reflexivity|assumption].
    + destruct o as [u| | |]; [exfalso; apply N1; eexists; reflexivity| | |]; intros H; injection H as <- <-;
      (repeat (split; [assumption|]); right; split; [intros [k K]; discriminate|assumption]).
  - unfold mbind. destruct (closeConnection n w) as [o w1] eqn:E. apply drop_se in E.
    destruct E as [(-> & NE & E)|[N1 E]].
    + unfold mret. intros H. injection H as <- <-. rewrite E. split; [reflexivity|]. split; [reflexivity|]. left. split; [eexists; reflexivity|]. split; [assumption|reflexivity].
    + destruct o as [u| | |]; [exfalso; apply N1; eexists; reflexivity| | |]; intros H; injection H as <- <-; rewrite E;
      (split; [reflexivity|]; split; [reflexivity|]; right; split; [intros [k K]; discriminate|reflexivity]).
  - unfold mbind. pose proof (recv_io_se w) as S. destruct (receiveIOPacket w) as [o w1]. cbn [snd] in S.
    destruct o; intros H; injection H as <- <-; rewrite S; repeat split.
  - unfold mbind. assert (S : calm (sendIOPacket p)) by (unfold sendIOPacket; apply calm_bind; [apply calm_send_ser|intros _; apply calm_ret]).
    specialize (S w). destruct (sendIOPacket p w) as [o w1]. cbn [snd] in S.
    destruct o; intros H; injection H as <- <-; rewrite S; repeat split.
Qed.

(** ** C51 *)
Lemma failed_op o w r w' : step o w = (r, w') ->
  (~ returned r -> se_id (w_se w') = se_id (w_se w) /\ se_conns (w_se w') = se_conns (w_se w)) /\
  (~ is_open_close o -> se_id (w_se w') = se_id (w_se w)) /\
  (~ is_connection_op o -> se_conns (w_se w') = se_conns (w_se w)) /\
  se_vendor (w_se w') = se_vendor (w_se w) /\ se_serial (w_se w') = se_serial (w_se w).
Proof.
  intros H. apply step_moved in H. destruct H as (V & S & H).
  split; [|split; [|split; [|split; assumption]]]; intros N1.
  - destruct o; try (rewrite H; split; reflexivity).
    + destruct H as [[R _]|[_ ->]]; [contradiction|split; reflexivity].
    + destruct H as [[R _]|[_ ->]]; [contradiction|split; reflexivity].
    + destruct H as (H1 & H2 & H3 & [(c & -> & _)|[_ H4]]); [exfalso; apply N1; eexists; reflexivity|split; assumption].
    + destruct H as [[R _]|[_ ->]]; [contradiction|split; reflexivity].
  - destruct o; try (rewrite H; reflexivity); try (exfalso; apply N1; exact Logic.I).
    + apply H.
    + destruct H as [(_ & _ & ->)|[_ ->]]; reflexivity.
  - destruct o; try (rewrite H; reflexivity); try (exfalso; apply N1; exact Logic.I).
    + destruct H as [(_ & id & ->)|[_ ->]]; reflexivity.
    + destruct H as [(_ & ->)|[_ ->]]; reflexivity.
Qed.
Lemma exec_cons o ops w : exec (o :: ops) w =
  match step o w with
  | (Ret r, w') => let (rs, w'') := exec ops w' in (Ret r :: rs, w'')
  | (Throw c s, w') => let (rs, w'') := exec ops w' in (Throw c s :: rs, w'')
  | (x, w') => ([x], w')
  end.
Proof. reflexivity. Qed.
(** Induction over histories. *)
Lemma exec_ind (P : world -> Prop) : forall ops, (forall o w r w', In o ops -> P w -> step o w = (r, w') -> P w') ->
  forall w rs w', P w -> exec ops w = (rs, w') -> P w'.
Proof.
  induction ops as [|o ops IH]; intros S w rs w' Pw E.
  - injection E as <- <-. assumption.
  - rewrite exec_cons in E. destruct (step o w) as [r w1] eqn:E1.
    assert (P1 : P w1) by (eapply S; [left; reflexivity|eassumption|eassumption]).
    assert (S' : forall o w r w', In o ops -> P w -> step o w = (r, w') -> P w') by (intros; eapply S; [right; eassumption|eassumption|eassumption]).
    destruct r.
    + destruct (exec ops w1) as [rs1 w2] eqn:E2. injection E as <- <-. eapply IH; eassumption.
    + destruct (exec ops w1) as [rs1 w2] eqn:E2. injection E as <- <-. eapply IH; eassumption.
    + injection E as <- <-. assumption.
    + injection E as <- <-. assumption.
Qed.
Lemma failed_history ops : forall w rs w', exec ops w = (rs, w') ->
  (Forall (fun r => ~ returned r) rs -> se_id (w_se w') = se_id (w_se w) /\ se_conns (w_se w') = se_conns (w_se w)) /\
  (Forall (fun o => ~ is_open_close o) ops -> se_id (w_se w') = se_id (w_se w)) /\
  (Forall (fun o => ~ is_connection_op o) ops -> se_conns (w_se w') = se_conns (w_se w)).
Proof.
  intros w rs w' E. split; [|split].
  - revert w rs w' E. induction ops as [|o ops IH]; intros w rs w' E F.
    + injection E as <- <-. split; reflexivity.
    + rewrite exec_cons in E. destruct (step o w) as [r w1] eqn:E1. pose proof (proj1 (failed_op _ _ _ _ E1)) as H.
      destruct r.
      * destruct (exec ops w1) as [rs1 w2]. injection E as <- <-. inversion F as [|? ? N1]; subst. exfalso. apply N1. eexists. reflexivity.
      * destruct (exec ops w1) as [rs1 w2] eqn:E2. injection E as <- <-. inversion F as [|? ? N1 F']; subst.
        destruct (IH _ _ _ E2 F') as [-> ->]. apply H. assumption.
      * injection E as <- <-. apply H. intros [x X]; discriminate.
      * injection E as <- <-. apply H. intros [x X]; discriminate.
  - intros F. eapply (exec_ind (fun w1 => se_id (w_se w1) = se_id (w_se w)) ops); [|reflexivity|exact E].
    intros o w1 r w2 Hin Hp Hs. rewrite Forall_forall in F. destruct (failed_op _ _ _ _ Hs) as (_ & H & _). rewrite H by auto. assumption.
  - intros F. eapply (exec_ind (fun w1 => se_conns (w_se w1) = se_conns (w_se w)) ops); [|reflexivity|exact E].
    intros o w1 r w2 Hin Hp Hs. rewrite Forall_forall in F. destruct (failed_op _ _ _ _ Hs) as (_ & _ & H & _). rewrite H by auto. assumption.
Qed.

(** ** C48 *)
Lemma list_remove_map {A B} (f : A -> B) n : forall l, map f (list_remove n l) = list_remove n (map f l).
Proof. induction n; destruct l; cbn [list_remove map]; try reflexivity. rewrite IHn. reflexivity. Qed.
Lemma list_remove_in {A} n : forall (l : list A) x, In x (list_remove n l) -> In x l.
Proof.
  induction n; destruct l; cbn [list_remove]; intros x H; try assumption; [right; assumption|].
  destruct H as [->|H]; [left; reflexivity|right; apply IHn; assumption].
Qed.
Lemma list_remove_nodup {A} n : forall l : list A, NoDup l -> NoDup (list_remove n l).
Proof.
  induction n; destruct l; cbn [list_remove]; intros H; try assumption; inversion H; subst; [assumption|].
  constructor; [|apply IHn; assumption]. intros X. apply list_remove_in in X. contradiction.
Qed.
Definition nth_sn (sn0 j : N) : N := (sn0 + j) mod 65536.
Definition nth_id (id0 j : N) : N := (id0 + 2 * j) mod 4294967296.
Definition numbered_upto (sn0 id0 k : N) (s : session) : Prop :=
  se_next_sn s = nth_sn sn0 k /\ se_next_id s = nth_id id0 k /\
  exists js, map cn_sn (se_conns s) = map (nth_sn sn0) js /\ NoDup js /\ Forall (fun j => j < k) js.
Lemma numbered_step sn0 id0 k o w r w' : numbered_upto sn0 id0 k (w_se w) -> step o w = (r, w') ->
  (match o with OpCreate _ _ => False | _ => True end -> numbered_upto sn0 id0 k (w_se w')) /\
  (match o with OpCreate _ _ => True | _ => False end -> numbered_upto sn0 id0 (k + 1) (w_se w')).
Proof.
  intros (N1 & N2 & js & N3 & N4 & N5) E. apply step_moved in E. destruct E as (_ & _ & E). split; intros C.
  - destruct o; try contradiction; try (rewrite E; exact (conj N1 (conj N2 (ex_intro _ js (conj N3 (conj N4 N5)))))).
    + destruct E as [(_ & id & ->)|(_ & ->)]; exact (conj N1 (conj N2 (ex_intro _ js (conj N3 (conj N4 N5))))).
    + destruct E as [(_ & ->)|(_ & ->)]; exact (conj N1 (conj N2 (ex_intro _ js (conj N3 (conj N4 N5))))).
    + destruct E as [(_ & _ & ->)|(_ & ->)]; [|exact (conj N1 (conj N2 (ex_intro _ js (conj N3 (conj N4 N5)))))].
      split; [exact N1|]. split; [exact N2|]. exists (list_remove (N.to_nat n) js). cbn [se_conns set_conns].
      rewrite !list_remove_map, N3. split; [reflexivity|]. split; [apply list_remove_nodup; assumption|].
      rewrite Forall_forall in *. intros x X. apply N5. eapply list_remove_in; eassumption.
  - destruct o; try contradiction. destruct E as (_ & E1 & E2 & E3). split; [|split].
    + rewrite E1, N1. unfold nth_sn. rewrite N.add_mod_idemp_l by lia. f_equal. lia.
    + rewrite E2, N2. unfold nth_id. rewrite N.add_mod_idemp_l by lia. f_equal. lia.
    + destruct E3 as [(c & _ & E3 & E4 & _)|(_ & E3)].
      * exists (js ++ [k]). rewrite E3, !map_app, N3. cbn [map]. rewrite E4, N1. split; [reflexivity|]. split.
        -- apply NoDup_rev in N4. rewrite <- (rev_involutive (js ++ [k])). apply NoDup_rev. rewrite rev_app_distr. cbn [rev app].
           constructor; [|assumption]. intros X. apply in_rev in X. rewrite Forall_forall in N5. specialize (N5 _ X). lia.
        -- apply Forall_app. split; [|constructor; [lia|constructor]]. eapply Forall_impl; [|exact N5]. cbn. intros. lia.
      * exists js. rewrite E3. split; [assumption|]. split; [assumption|]. eapply Forall_impl; [|exact N5]. cbn. intros. lia.
Qed.
Lemma calls_cons o ops w : calls (o :: ops) w =
  let (r, w') := step o w in (o, w, r, w') :: match r with Ret _ | Throw _ _ => calls ops w' | _ => [] end.
Proof. reflexivity. Qed.
(** The attempts of a history are numbered consecutively, and so is the final state. *)
Lemma numbered_history sn0 id0 ops : forall k w rs w', numbered_upto sn0 id0 k (w_se w) -> exec ops w = (rs, w') ->
  let n := len (attempts ops w) in
  numbered_upto sn0 id0 (k + n) (w_se w') /\
  map se_next_sn (attempts ops w) = map (fun j => nth_sn sn0 (k + N.of_nat j)) (seq 0 (List.length (attempts ops w))) /\
  map se_next_id (attempts ops w) = map (fun j => nth_id id0 (k + N.of_nat j)) (seq 0 (List.length (attempts ops w))).
Proof.
  induction ops as [|o ops IH]; intros k w rs w' I E.
  - injection E as <- <-. cbn. rewrite N.add_0_r. auto.
  - rewrite exec_cons in E. unfold attempts. rewrite calls_cons. destruct (step o w) as [r w1] eqn:E1.
    destruct (numbered_step _ _ _ _ _ _ _ I E1) as [S1 S2].
    assert (C : (match o with OpCreate _ _ => True | _ => False end) \/ (match o with OpCreate _ _ => False | _ => True end)) by (destruct o; auto).
    set (rest := match r with Ret _ | Throw _ _ => calls ops w1 | _ => [] end).
    set (tail := flat_map (fun x => match x with (OpCreate _ _, w1, _, _) => [w_se w1] | _ => [] end) rest).
    assert (T : forall k', numbered_upto sn0 id0 k' (w_se w1) ->
      numbered_upto sn0 id0 (k' + len tail) (w_se w') /\
      map se_next_sn tail = map (fun j => nth_sn sn0 (k' + N.of_nat j)) (seq 0 (List.length tail)) /\
      map se_next_id tail = map (fun j => nth_id id0 (k' + N.of_nat j)) (seq 0 (List.length tail))).
    { intros k' I'. destruct r.
      - destruct (exec ops w1) as [rs1 w2] eqn:E2. injection E as <- <-. exact (IH _ _ _ _ I' E2).
      - destruct (exec ops w1) as [rs1 w2] eqn:E2. injection E as <- <-. exact (IH _ _ _ _ I' E2).
      - injection E as <- <-. cbn. rewrite N.add_0_r. auto.
      - injection E as <- <-. cbn. rewrite N.add_0_r. auto. }
    cbn [flat_map]. fold tail. destruct C as [C|C].
    + destruct o; try contradiction. specialize (S2 Logic.I). destruct (T _ S2) as (T1 & T2 & T3). cbn zeta. cbn [app].
      rewrite len_cons. split; [|split].
      * replace (k + (1 + len tail)) with (k + 1 + len tail) by lia. exact T1.
      * cbn [map List.length seq]. f_equal; [rewrite N.add_0_r; apply I|]. rewrite T2, <- seq_shift, map_map. apply map_ext. intros j. f_equal. lia.
      * cbn [map List.length seq]. f_equal; [rewrite N.add_0_r; apply I|]. rewrite T3, <- seq_shift, map_map. apply map_ext. intros j. f_equal. lia.
    + assert (match o with OpCreate _ _ => [w_se w] | _ => [] end = []) as -> by (destruct o; [..|contradiction| | | ] || reflexivity; try reflexivity; contradiction).
      cbn [app]. apply T. apply S1. assumption.
Qed.
Lemma nodup_map_inj {A B} (f : A -> B) l : NoDup l -> (forall x y, In x l -> In y l -> f x = f y -> x = y) -> NoDup (map f l).
Proof.
  induction l as [|a l IH]; intros N1 F; cbn [map]; [constructor|]. inversion N1; subst. constructor.
  - intros X. apply in_map_iff in X. destruct X as (y & E & Y). assert (y = a) by (apply F; [right; assumption|left; reflexivity|assumption]). subst. contradiction.
  - apply IH; [assumption|]. intros x y X Y. apply F; right; assumption.
Qed.
Lemma mod_inj m a b : m <> 0 -> a mod m = b mod m -> a <= b -> b < a + m -> a = b.
Proof.
  intros Z E L U. pose proof (N.div_mod a m Z) as Ha. pose proof (N.div_mod b m Z) as Hb.
  pose proof (N.mod_lt a m Z). pose proof (N.mod_lt b m Z). rewrite E in *. 
  assert (a / m = b / m \/ b / m >= a / m + 1 \/ a / m >= b / m + 1) as [Q|[Q|Q]] by lia.
  - congruence.
  - nia.
  - nia.
Qed.
Lemma serial_numbers ops w rs w' : fits 2 (se_next_sn (w_se w)) -> fits 4 (se_next_id (w_se w)) -> se_conns (w_se w) = [] ->
  exec ops w = (rs, w') -> len (attempts ops w) <= 65536 ->
  NoDup (map cn_sn (se_conns (w_se w'))) /\
  NoDup (map se_next_sn (attempts ops w)) /\
  NoDup (flat_map (fun s => [se_next_id s; (se_next_id s + 1) mod 2 ^ 32]) (attempts ops w)).
Proof.
  intros F1 F2 C E L. apply fits2_lt in F1. apply fits4_lt in F2.
  assert (I : numbered_upto (se_next_sn (w_se w)) (se_next_id (w_se w)) 0 (w_se w)).
  { split; [|split].
    - unfold nth_sn. rewrite N.add_0_r, N.mod_small; [reflexivity|assumption].
    - unfold nth_id. rewrite N.add_0_r, N.mod_small; [reflexivity|assumption].
    - exists []. rewrite C. split; [reflexivity|]. split; constructor. }
  destruct (numbered_history _ _ _ _ _ _ _ I E) as ((_ & _ & js & J1 & J2 & J3) & H2 & H3).
  set (sn0 := se_next_sn (w_se w)) in *. set (id0 := se_next_id (w_se w)) in *.
  rewrite Forall_forall in J3. unfold len in *. split; [|split].
  - rewrite J1. apply nodup_map_inj; [assumption|]. intros x y X Y Q. apply J3 in X, Y. unfold nth_sn in Q.
    assert (x <= y \/ y <= x) as [O|O] by lia.
    + assert (sn0 + x = sn0 + y) by (apply (mod_inj 65536); lia). lia.
    + symmetry in Q. assert (sn0 + y = sn0 + x) by (apply (mod_inj 65536); lia). lia.
  - rewrite H2. apply nodup_map_inj; [apply seq_NoDup|]. intros x y X Y Q. apply in_seq in X, Y. unfold nth_sn in Q.
    assert (x <= y \/ y <= x)%nat as [O|O] by lia.
    + assert (sn0 + (0 + N.of_nat x) = sn0 + (0 + N.of_nat y)) by (apply (mod_inj 65536); lia). lia.
    + symmetry in Q. assert (sn0 + (0 + N.of_nat y) = sn0 + (0 + N.of_nat x)) by (apply (mod_inj 65536); lia). lia.
  - set (at' := attempts ops w) in *. assert (G : flat_map (fun s => [se_next_id s; (se_next_id s + 1) mod 2 ^ 32]) at'
      = map (fun i => (id0 + N.of_nat i) mod 4294967296) (seq 0 (2 * List.length at'))).
    { change (2 ^ 32) with 4294967296. clear - H3. revert H3. generalize (List.length at') as n. intros n.
      intros H.
      assert (flat_map (fun s => [se_next_id s; (se_next_id s + 1) mod 4294967296]) at'
        = flat_map (fun i => [i; (i + 1) mod 4294967296]) (map se_next_id at')) as ->.
      { clear. induction at'; cbn; [reflexivity|]. rewrite IHat'. reflexivity. }
      rewrite H. clear. replace (seq 0 (2 * n)) with (flat_map (fun j => [2 * j; 2 * j + 1]%nat) (seq 0 n)).
      - rewrite flat_map_concat_map. rewrite flat_map_concat_map. rewrite concat_map. rewrite !map_map. f_equal. apply map_ext. intros j.
        unfold nth_id. cbn [map]. f_equal; [f_equal; lia|]. f_equal. rewrite N.add_mod_idemp_l by lia. f_equal. lia.
      - induction n; [reflexivity|]. rewrite seq_S, flat_map_app, IHn. cbn [flat_map]. replace (2 * S n)%nat with (2 * n + 2)%nat by lia.
        rewrite seq_app. f_equal. cbn. repeat (f_equal; try lia). }
    rewrite G. apply nodup_map_inj; [apply seq_NoDup|]. intros x y X Y Q. apply in_seq in X, Y.
    assert (x <= y \/ y <= x)%nat as [O|O] by lia.
    + assert (id0 + N.of_nat x = id0 + N.of_nat y) by (apply (mod_inj 4294967296); lia). lia.
    + symmetry in Q. assert (id0 + N.of_nat y = id0 + N.of_nat x) by (apply (mod_inj 4294967296); lia). lia.
Qed.

(** ** C50 *)
Lemma nth_remove_below {A} n : forall m (l : list A), (n < m)%nat -> nth_error (list_remove m l) n = nth_error l n.
Proof.
  induction n; intros m l L; destruct m; [lia| |lia|]; destruct l; cbn [list_remove nth_error]; try reflexivity.
  apply IHn. lia.
Qed.
Definition keeps_number (n : nat) (o : op) : Prop := match o with OpCloseConnection m => (n < N.to_nat m)%nat | _ => True end.
Lemma number_kept_step n c o w r w' : nth_error (se_conns (w_se w)) n = Some c -> keeps_number n o -> step o w = (r, w') ->
  nth_error (se_conns (w_se w')) n = Some c.
Proof.
  intros H K E. apply step_moved in E. destruct E as (_ & _ & E).
  destruct o; try (rewrite E; assumption).
  - destruct E as [(_ & id & ->)|(_ & ->)]; assumption.
  - destruct E as [(_ & ->)|(_ & ->)]; assumption.
  - destruct E as (_ & _ & _ & [(c' & _ & -> & _)|(_ & ->)]); [|assumption].
    rewrite nth_error_app1; [assumption|eapply nth_error_lt; eassumption].
  - destruct E as [(_ & _ & ->)|(_ & ->)]; [|assumption]. cbn [se_conns set_conns]. rewrite nth_remove_below; assumption.
Qed.
Lemma number_kept n c ops w rs w' : nth_error (se_conns (w_se w)) n = Some c -> Forall (keeps_number n) ops -> exec ops w = (rs, w') ->
  nth_error (se_conns (w_se w')) n = Some c.
Proof.
  intros H K E. eapply (exec_ind (fun w => nth_error (se_conns (w_se w)) n = Some c) ops); [|exact H|exact E].
  intros o w1 r w2 Hin Hp Hs. rewrite Forall_forall in K. eapply number_kept_step; eauto.
Qed.
