(** Retrying open, foreign datagrams, the test socket, closed sessions, progress. *)
From Verif Require Export PGeneric PWitness4.

(** ** The I/O socket's life cycle *)
Lemma io_open_app a : forall s b, io_open s (a ++ b) = io_open (io_open s a) b.
Proof. induction a as [|[[] h p []|[]|[]|[] []] a IH]; intros s b; cbn [app io_open]; try apply IH; reflexivity. Qed.
Lemma udp_possible_app a : forall s b, udp_possible s (a ++ b) -> udp_possible (io_open s a) b.
Proof. induction a as [|[[] h p []|[]|[]|[] []] a IH]; intros s b; cbn [app io_open udp_possible]; try apply IH; auto. intros [_ H]. apply IH, H. Qed.
Lemma io_open_events s k bs : io_open s (events k bs) = s.
Proof. unfold events, talk. destruct (sent k bs); [|reflexivity]. destruct (so_recv k) as [|[]]; reflexivity. Qed.
Lemma open_left_open w h p q s w1 : rbuf_ok w -> open_fails (w_ctl w) = false -> open_fails (w_io w) = false ->
  session_open h p q w = (Throw SystemError s, w1) -> io_open false (w_net w1) = true.
Proof.
  intros R F1 F2 E. destruct (open_spec _ _ _ _ _ _ R E) as (_ & _ & _ & X). rewrite F1, F2 in X. destruct X as (tail & O & ->).
  rewrite io_open_app. cbn [app io_open]. rewrite io_open_app, io_open_events. unfold open_outcome in O.
  destruct (reply_of _ _).
  - destruct O as (_ & -> & _). reflexivity.
  - destruct O as (O & _). discriminate.
  - destruct O as (_ & -> & _). reflexivity.
  - destruct O as [(ses & _ & O & _)|[(_ & O & _)|(_ & _ & _ & -> & O)]]; try discriminate.
    unfold closed, closing in *. destruct (close_fails (w_ctl w)); [reflexivity|]. destruct (close_fails (w_io w)); [reflexivity|].
    cbn in O. destruct O as [? O]. discriminate.
Qed.
Lemma open_retry_fails w h p q s w1 h2 p2 q2 o w2 : rbuf_ok w -> open_fails (w_ctl w) = false -> open_fails (w_io w) = false ->
  session_open h p q w = (Throw SystemError s, w1) ->
  session_open h2 p2 q2 w1 = (o, w2) -> udp_possible false (w_net w2) -> exists s', o = Throw SystemError s'.
Proof.
  intros R F1 F2 E1 E2 P. pose proof (open_left_open _ _ _ _ _ _ R F1 F2 E1) as L.
  destruct (open_spec _ _ _ _ _ _ R E1) as (_ & R1 & _).
  destruct (open_spec _ _ _ _ _ _ R1 E2) as (_ & _ & _ & X).
  destruct (open_fails (w_ctl w1)); [tauto|]. destruct (open_fails (w_io w1)); [tauto|].
  destruct X as (tail & _ & X). rewrite X in P. apply udp_possible_app in P. rewrite L in P. cbn [app udp_possible] in P. destruct P; discriminate.
Qed.
Lemma open_retry_example : exists w s w1 w2 s', rbuf_ok w /\ open_fails (w_ctl w) = false /\ open_fails (w_io w) = false /\
  session_open "h" "p" "q" w = (Throw SystemError s, w1) /\
  reply_of (w_ctl w1) register_request = Reply (registered 9) /\
  session_open "h" "p" "q" w1 = (Throw SystemError s', w2) /\ udp_possible false (w_net w2).
Proof.
  exists (session_make [] (mkSock [] [] [RxFail; RxData (registered 9)] []) (mkSock [false; true] [] [] []) 1 2 3 4). do 4 eexists.
  split; [apply rbuf_make|]. split; [reflexivity|]. split; [reflexivity|]. split; [vm_compute; reflexivity|].
  split; [vm_compute; reflexivity|]. split; [vm_compute; reflexivity|]. vm_compute. auto.
Qed.
(** ... but close() makes it possible again. *)
Lemma close_recovers w w' : rbuf_ok w -> session_close w = (Ret tt, w') -> io_open false (w_net w') = false /\ se_id (w_se w') = 0.
Proof.
  intros R E. destruct (session_close_spec w R) as (o & w1 & E1 & _ & _ & _ & X). rewrite E in E1. injection E1 as <- <-.
  destruct (sent _ _); [|destruct X as ([? X] & _); discriminate]. destruct X as (N1 & X). unfold closed, closing in *.
  destruct (close_fails (w_ctl w)); [cbn in X; destruct X as [[? X] _]; discriminate|].
  destruct (close_fails (w_io w)); [cbn in X; destruct X as [[? X] _]; discriminate|].
  rewrite N1, io_open_app. cbn in X. destruct X as [_ ->]. split; reflexivity.
Qed.

(** ** Datagrams from anyone *)
Lemma cpf_inj2 xs ys r1 r2 : cpf_ok xs -> cpf_ok ys -> cpf xs ++ r1 = cpf ys ++ r2 -> xs = ys.
Proof. intros A B E. exact (proj1 (cpf_inj _ _ _ _ A B E)). Qed.
Lemma any_sender w d inbox xs rest : rbuf_ok w -> so_recv (w_io w) = udp_script (d :: inbox) ->
  dg_bytes d = cpf xs ++ rest -> cpf_ok xs -> len (cpf xs) <= 4096 ->
  exists p w', receiveIOPacket w = (Ret p, w') /\ Forall2 (item_is (w_mem w')) p xs.
Proof.
  intros R S D K L. destruct (receiveIOPacket w) as [o w'] eqn:E. destruct (io_received _ _ _ R E) as (_ & _ & _ & _ & X).
  rewrite S in X. cbn [udp_script map] in X. destruct X as [(ys & r & p & K' & _ & D' & -> & F)|[N _]].
  - rewrite D in D'. rewrite (cpf_inj2 _ _ _ _ K K' D'). eauto.
  - destruct (N xs rest K L D).
Qed.

(** ** The test socket *)
Lemma ts_send_spec m t : len (ts_tx t) = 4096 -> ts_tx_count t <= 4096 ->
  let (n, t1) := ts_send m t in
  len (ts_tx t1) = 4096 /\ ts_tx_count t1 <= 4096 /\ ts_tx_count t1 = ts_tx_count t + n /\ n = N.min (len m) (4096 - ts_tx_count t) /\
  take (ts_tx_count t1) (ts_tx t1) = take (ts_tx_count t) (ts_tx t) ++ take n m.
Proof.
  intros L C. unfold ts_send. cbn [ts_tx ts_tx_count]. set (n := N.min (len m) (4096 - ts_tx_count t)).
  assert (N1 : n <= len m) by (unfold n; lia). assert (N2 : ts_tx_count t + n <= 4096) by (unfold n; lia).
  assert (L1 : len (take (ts_tx_count t) (ts_tx t)) = ts_tx_count t) by (rewrite len_take; lia).
  assert (L2 : len (take n m) = n) by (rewrite len_take; lia).
  split; [rewrite !len_app, L1, L2, len_drop; lia|]. split; [exact N2|]. split; [reflexivity|]. split; [reflexivity|].
  rewrite app_assoc. replace (ts_tx_count t + n) with (len (take (ts_tx_count t) (ts_tx t) ++ take n m)) at 1 by (rewrite len_app, L1, L2; reflexivity).
  apply take_app_len.
Qed.
Lemma take_take_app {A} k (a b : list A) : take k (take k a ++ b) = take k (a ++ b).
Proof.
  unfold take. rewrite !firstn_app, firstn_firstn, PeanoNat.Nat.min_id, firstn_length. f_equal.
  destruct (PeanoNat.Nat.le_gt_cases (N.to_nat k) (List.length a)) as [H|H].
  - rewrite PeanoNat.Nat.min_l by exact H. replace (N.to_nat k - List.length a)%nat with 0%nat by lia. rewrite PeanoNat.Nat.sub_diag. reflexivity.
  - rewrite PeanoNat.Nat.min_r by lia. reflexivity.
Qed.
Lemma ts_sends_spec msgs : forall t, len (ts_tx t) = 4096 -> ts_tx_count t <= 4096 ->
  let (ns, t1) := ts_sends msgs t in
  len (ts_tx t1) = 4096 /\ ts_tx_count t1 = N.min 4096 (ts_tx_count t + len (List.concat msgs)) /\
  take (ts_tx_count t1) (ts_tx t1) = take 4096 (take (ts_tx_count t) (ts_tx t) ++ List.concat msgs).
Proof.
  induction msgs as [|m ms IH]; intros t L C.
  - cbn [ts_sends List.concat]. split; [exact L|]. change (len (@nil byte)) with 0. split; [lia|]. rewrite app_nil_r.
    rewrite (take_all 4096 (take _ _)); [reflexivity|]. rewrite len_take. lia.
  - cbn [ts_sends]. pose proof (ts_send_spec m t L C) as H. destruct (ts_send m t) as [n t1]. destruct H as (L1 & C1 & E1 & E2 & E3).
    specialize (IH t1 L1 C1). destruct (ts_sends ms t1) as [ns t2]. destruct IH as (L2 & E4 & E5).
    cbn [List.concat]. rewrite len_app. split; [exact L2|].
    assert (Lc : len (take (ts_tx_count t) (ts_tx t)) = ts_tx_count t) by (rewrite len_take; lia). split; [lia|]. rewrite E5, E3.
    rewrite <- app_assoc. destruct (N.le_gt_cases (len m) (4096 - ts_tx_count t)) as [H|H].
    + rewrite (take_all n m) by lia. reflexivity.
    + rewrite !(take_app_ge 4096 (take _ (ts_tx t))) by lia. f_equal. rewrite Lc. replace n with (4096 - ts_tx_count t) by lia.
      apply take_take_app.
Qed.
Lemma ts_records msgs junk rx : len junk = 4096 -> let (ns, t) := ts_sends msgs (ts_make junk rx) in
  ts_tx_count t = N.min 4096 (len (List.concat msgs)) /\ take (ts_tx_count t) (ts_tx t) = take 4096 (List.concat msgs).
Proof.
  intros L. pose proof (ts_sends_spec msgs (ts_make junk rx)) as H. cbn [ts_make ts_tx ts_tx_count] in H. specialize (H L).
  destruct (ts_sends msgs (ts_make junk rx)) as [ns t]. destruct H as (_ & A & B); [lia|]. split; [exact A|]. rewrite B. reflexivity.
Qed.
Lemma ts_replays_from sizes : forall t, let (ds, t1) := ts_receives sizes t in
  List.concat ds ++ ts_rx t1 = ts_rx t /\ ts_rx_count t1 = ts_rx_count t + len (List.concat ds) /\
  Forall2 (fun d n => len d <= n) ds sizes /\ ts_tx t1 = ts_tx t.
Proof.
  induction sizes as [|n ns IH]; intros t; cbn [ts_receives].
  - cbn [List.concat]. change (len (@nil byte)) with 0. split; [reflexivity|]. split; [lia|]. split; [constructor|reflexivity].
  - unfold ts_receive. set (t1 := mkTS _ _ _ _ _ _ _). specialize (IH t1). destruct (ts_receives ns t1) as [ds t2]. destruct IH as (A & B & C & D).
    cbn [List.concat]. rewrite <- app_assoc, A. unfold t1 in *. cbn [ts_rx ts_rx_count ts_tx] in *. split.
    { rewrite len_take. destruct (N.le_gt_cases n (len (ts_rx t))) as [H|H].
      - rewrite N.min_l by exact H. apply take_drop.
      - rewrite N.min_r by lia. rewrite take_all by lia. rewrite drop_all by lia. apply app_nil_r. }
    split; [rewrite B, len_app; lia|]. split; [|exact D]. constructor; [rewrite len_take; lia|exact C].
Qed.
Lemma ts_replays sizes junk rx : let (ds, t) := ts_receives sizes (ts_make junk rx) in
  List.concat ds ++ ts_rx t = rx /\ ts_rx_count t = len (List.concat ds) /\ Forall2 (fun d n => len d <= n) ds sizes.
Proof.
  pose proof (ts_replays_from sizes (ts_make junk rx)) as H. destruct (ts_receives sizes (ts_make junk rx)) as [ds t]. destruct H as (A & B & C & _).
  cbn [ts_make ts_rx ts_rx_count] in *. auto.
Qed.

(** ** Progress *)
Lemma blocked_empty k bs : reply_of k bs = Blocked -> so_recv k = [].
Proof. unfold reply_of, talk. destruct (sent k bs); [|discriminate]. destruct (so_recv k) as [|[]]; [reflexivity|discriminate..]. Qed.
Lemma rr_stuck w req o w' : rr_outcome w req o w' -> o = Stuck -> so_recv (w_ctl w) = [].
Proof.
  unfold rr_outcome. intros O ->. destruct (reply_of (w_ctl w) req) eqn:E; [destruct O; discriminate|eapply blocked_empty; eassumption|destruct O; discriminate|].
  destruct O as [(? & ? & ? & ? & _ & O & _)|[(_ & O)|(_ & _ & ? & O)]]; discriminate.
Qed.
Lemma get_stuck {T} (c : cls T) t w x y z t' w' : rbuf_ok w -> x < 256 -> y < 256 -> z < 256 -> (c_sb c <> None \/ tame_cls c) ->
  getSingleAttributeSerializable c x y z t w = (Stuck, t', w') -> so_recv (w_ctl w) = [].
Proof.
  intros R Hx Hy Hz K. unfold getSingleAttributeSerializable. rewrite path_cia_of by assumption.
  destruct (rr_command w 0x0E false [SClass x; SInstance y; SAttribute z] None [] R eq_refl eq_refl) as (o & w1 & E & X & O). rewrite E.
  destruct o as [resp|e s|u|]; try discriminate; [|intros _; eapply rr_stuck; [exact O|reflexivity]].
  unfold rr_outcome in O. change (request 0x6F _ _) with (get_request (se_id (w_se w)) x y z) in O.
  destruct (reply_of (w_ctl w) _) as [| | |got]; [destruct O as [? O]; discriminate|discriminate O|destruct O as [? O]; discriminate|].
  destruct O as [(sv & a & q & resp' & A & Er & S1 & S2 & H1 & H2)|[[_ O]|(_ & _ & ? & O)]]; try discriminate. injection Er as <-.
  unfold m_copy. destruct (ms_data (rr_ext resp)) as [s|] eqn:Ed; [|discriminate].
  cbn [holds] in H2. destruct H2 as (Nq & sb & -> & Rq). unfold copy_serializable. cbn [s_length s_sbuf ser_of_sbuf]. destruct (c_sb c) as [[g p]|] eqn:Cs; [discriminate|].
  destruct K as [K|K]; [contradiction|]. unfold run_reader.
  destruct (K (v_len (sb_data sb)) (w_mem w1) (sb_data sb) 0 t q Rq) as (o1 & v1 & c1 & t1 & b1 & E1 & _ & D). rewrite E1.
  destruct D as [[? ->]|(? & ? & ->)]; discriminate.
Qed.
Lemma blocks_only_waiting u o w w' : session_ok w -> user_memory u w -> op_ok u o -> decodes o -> step o w = (Stuck, w') -> waits o w.
Proof.
  intros (R & I & F) (UH & UN) K Dc S.
  destruct o as [h p q| |T c t x y z|x y z d|a b|n| |p]; cbn [step op_ok waits decodes] in *.
  - destruct (session_open_spec w h p q R) as (o & w1 & E & X). rewrite (mbind_unit _ (fun _ => RUnit) _ _ _ E) in S. injection S as S _.
    destruct o; try discriminate. destruct X as (_ & _ & _ & X).
    destruct (open_fails (w_ctl w)); [destruct X as (_ & [? X] & _); discriminate|]. destruct (open_fails (w_io w)); [destruct X as (_ & [? X] & _); discriminate|].
    destruct X as (tail & O & _). unfold open_outcome in O. destruct (reply_of (w_ctl w) register_request) eqn:Rp.
    + destruct O as ([? O] & _). discriminate.
    + eapply blocked_empty; eassumption.
    + destruct O as ([? O] & _). discriminate.
    + destruct O as [(? & _ & O & _)|[(_ & O & _)|(_ & _ & _ & _ & O)]]; try discriminate. destruct (closed _ _); destruct O; discriminate.
  - destruct (session_close_spec w R) as (o & w1 & E & _ & _ & _ & X). rewrite (mbind_unit _ (fun _ => RUnit) _ _ _ E) in S. injection S as S _.
    destruct o; try discriminate. destruct (sent _ _); [destruct X as (_ & X); destruct (closed _ _); [destruct X; discriminate|destruct X as ([? X] & _); discriminate]|].
    destruct X as ([? X] & _). discriminate.
  - destruct K as (Kx & Ky & Kz & _). destruct (getSingleAttributeSerializable c x y z t w) as [[[|e s|ub|] t'] w1] eqn:E; try discriminate.
    eapply get_stuck; [exact R|exact Kx|exact Ky|exact Kz|exact Dc|exact E].
  - destruct K as (Kx & Ky & Kz & bs & Kc & _).
    destruct (set_attribute w x y z d bs R Kx Ky Kz (carries_opt_hext _ _ _ _ UH Kc)) as (o & w1 & E & _ & O). rewrite (mbind_unit _ (fun _ => RUnit) _ _ _ E) in S. injection S as S _.
    destruct o; try discriminate. cbv zeta in O. destruct (reply_of (w_ctl w) _) eqn:Rp; [destruct O; discriminate|eapply blocked_empty; eassumption|destruct O; discriminate|].
    destruct O as [(_ & O)|[(_ & O)|(_ & _ & ? & O)]]; discriminate.
  - destruct K as [Ka Kb]. destruct (create_connection w a b R Ka Kb) as (o & w1 & E & _ & _ & O). rewrite (mbind_unit _ (fun n => RNumber n) _ _ _ E) in S. injection S as S _.
    destruct o; try discriminate. unfold create_outcome in O. cbv zeta in O. destruct (reply_of (w_ctl w) _) eqn:Rp;
      [destruct O as ([? O] & _); discriminate|eapply blocked_empty; eassumption|destruct O as ([? O] & _); discriminate|].
    destruct O as [(?&?&?&?&?&?&?&?&_&_&_&O&_)|(_ & [(?&?&?&?&?&?&?&?&?&?&?&_&_&_&O)|[(?&?&?&?&_&_&_&O)|[(_ & O)|(_ & _ & ? & O)]]])]; discriminate.
  - destruct (nth_error (se_conns (w_se w)) (N.to_nat n)) as [c|] eqn:En.
    + assert (T : cn_tick_size c < 256 /\ cn_ticks c < 256) by (rewrite Forall_forall in F; apply F; eapply nth_error_In; eassumption).
      destruct T as [T1 T2]. destruct (close_connection w n c R En T1 T2) as (o & w1 & E & _ & O). rewrite (mbind_unit _ (fun _ => RUnit) _ _ _ E) in S. injection S as S _.
      destruct o; try discriminate. unfold drop_conn_outcome in O. cbv zeta in O. destruct (reply_of (w_ctl w) _) eqn:Rp;
        [destruct O as ([? O] & _); discriminate|eapply blocked_empty; eassumption|destruct O as ([? O] & _); discriminate|].
      destruct O as [(?&?&?&_&_&O&_)|(_ & [(?&?&?&?&?&?&?&_&_&_&O)|[(?&?&?&?&_&_&_&O)|[(_ & O)|(_ & _ & ? & O)]]])]; discriminate.
    + rewrite (mbind_unit _ (fun _ => RUnit) _ _ _ (close_connection_bad w n En)) in S. discriminate.
  - destruct (receive_io w R) as (o & w1 & E & _ & _ & _ & _ & _ & _ & _ & C). rewrite (mbind_unit _ (fun p => RItems p) _ _ _ E) in S. injection S as S _.
    destruct o; try discriminate. destruct (so_recv (w_io w)) as [|[d|] rs]; [reflexivity| |destruct C; discriminate].
    destruct C as [(? & ? & ? & _ & _ & C & _)|(_ & ? & C)]; discriminate.
  - destruct K as (xs & K). destruct (send_io w p xs R (carries_hext _ _ _ _ UH K)) as (o & w1 & E & _ & _ & _ & _ & _ & _ & X).
    rewrite (mbind_unit _ (fun _ => RUnit) _ _ _ E) in S. injection S as S _. destruct o; try discriminate.
    destruct (sent _ _); [destruct X; discriminate|destruct X as ([? X] & _); discriminate].
Qed.
