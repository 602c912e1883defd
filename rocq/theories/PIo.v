(** The scanner as a whole; received data until the next receive. *)
From Verif Require Export PScan.

(** ** The scanner: whole runs *)
Lemma store_new m got : len got <= 4096 ->
  exists m2 bl tail, store (m ++ [Some (zeros 4096)]) (List.length m) 0 got = Ret m2 /\
    nth_error m2 (List.length m) = Some (Some bl) /\ len bl = 4096 /\ bl = got ++ tail.
Proof.
  intros G. assert (Lz : len (zeros 4096) = 4096) by reflexivity. set (z := zeros 4096) in *. clearbody z.
  assert (Hb : nth_error (m ++ [Some z]) (List.length m) = Some (Some z)) by apply nth_error_app_end.
  unfold store. destruct (N.eqb_spec (len got) 0) as [Z|Z].
  - exists (m ++ [Some z]), z, z. apply len_0 in Z. subst got. auto.
  - rewrite Hb. destruct (N.leb_spec (0 + len got) (len z)); [|lia]. do 3 eexists. split; [reflexivity|].
    split; [rewrite nth_error_set_same by (eapply nth_error_lt; eauto); rewrite take_0; reflexivity|].
    cbn [app]. split; [|reflexivity]. rewrite len_app, len_drop. lia.
Qed.
Lemma scan_first m bs rest : exists o, scan_run m (inr bs :: rest) = [o] /\ scan_outcome (take 4096 bs) o.
Proof.
  unfold scan_run, alloc.
  destruct (store_new m (take 4096 bs)) as (m2 & bl & tail & S & Hb & Lb & El).
  { rewrite len_take. lia. }
  rewrite S. destruct (scan_one m2 (List.length m) bl (take 4096 bs) tail Hb Lb El) as (o & E & O).
  exists o. rewrite E. split; [reflexivity|exact O].
Qed.
Lemma identifies_inj got i j : identifies got i -> identifies got j -> i = j.
Proof.
  intros (d & xs & r & L & F & E) (d' & xs' & r' & L' & F' & E'). pose proof (listed_inj _ _ _ L L') as Q. injection Q as <- _.
  rewrite E' in E. symmetry in E. apply identity_inj in E; tauto.
Qed.
Lemma identifies_no_crash got i : identifies got i -> ~ scan_crashes got.
Proof.
  intros (d & xs & r & L & F & E) [(ses & C)|(ys & C)].
  - destruct (listed_frame _ _ L) as (s & p & Fr & Z). destruct (reply_frame_inj _ _ _ _ _ _ _ Fr C) as (_ & _ & H). contradiction.
  - pose proof (listed_inj _ _ _ L C) as Q. injection Q as -> _. apply (f_equal len) in E.
    unfold identity_of, identity_bytes in E. rewrite !len_app, len_le in E. change (len (@nil byte)) with 0 in E. lia.
Qed.
Lemma rejects_not_identifies got r i : scan_rejects got r -> ~ identifies got i.
Proof.
  intros R (d & xs & t & L & F & E). pose proof (listed_frame _ _ L) as (s & p & Fr & Z). destruct r; cbn in R.
  - exact R.
  - exact R.
  - destruct R as (C & ses & pl & R). destruct (reply_frame_inj _ _ _ _ _ _ _ Fr R) as (H & _). congruence.
  - pose proof (listed_inj _ _ _ L R) as Q. discriminate.
  - destruct R as (C & d' & xs' & R). pose proof (listed_inj _ _ _ L R) as Q. injection Q as H _ _. congruence.
  - destruct R as [R|[(ses & pl & _ & _ & R)|(d' & xs' & _ & _ & R)]].
    + exact (R _ _ _ Fr).
    + exact (R _ L).
    + apply (R i). exists d, xs, t. auto.
Qed.
Lemma rejects_no_crash got r : scan_rejects got r -> ~ scan_crashes got.
Proof.
  intros R C. destruct r; cbn in R; try contradiction.
  - destruct R as (H & ses & pl & R). destruct C as [(s & C)|(xs & C)].
    + destruct (reply_frame_inj _ _ _ _ _ _ _ R C) as (Q & _). congruence.
    + destruct (listed_frame _ _ C) as (s & p & Fr & _). destruct (reply_frame_inj _ _ _ _ _ _ _ R Fr) as (Q & _). congruence.
  - destruct C as [(s & C)|(xs & C)].
    + destruct (listed_frame _ _ R) as (s' & p & Fr & Z). destruct (reply_frame_inj _ _ _ _ _ _ _ C Fr) as (_ & _ & Q). congruence.
    + pose proof (listed_inj _ _ _ R C). discriminate.
  - destruct R as (H & d & ys & R). destruct C as [(s & C)|(xs & C)].
    + destruct (listed_frame _ _ R) as (s' & p & Fr & Z). destruct (reply_frame_inj _ _ _ _ _ _ _ C Fr) as (_ & _ & Q). congruence.
    + pose proof (listed_inj _ _ _ R C) as Q. injection Q as -> _ _. congruence.
  - assert (Fc : exists ses pl, reply_frame got 0x63 ses pl).
    { destruct C as [(s & C)|(xs & C)]; [eauto|]. destruct (listed_frame _ _ C) as (s & p & Fr & _). eauto. }
    destruct R as [R|[(ses & pl & F & Z & R)|(d & ys & Z & L & R)]].
    + destruct Fc as (s & p & Fc). exact (R _ _ _ Fc).
    + destruct C as [(s & C)|(xs & C)]; [|exact (R _ C)].
      destruct (reply_frame_inj _ _ _ _ _ _ _ C F) as (_ & _ & Q). congruence.
    + destruct C as [(s & C)|(xs & C)].
      * destruct (listed_frame _ _ L) as (s' & p & Fr & Zp). destruct (reply_frame_inj _ _ _ _ _ _ _ C Fr) as (_ & _ & Q). congruence.
      * pose proof (listed_inj _ _ _ L C) as Q. injection Q as -> _. congruence.
Qed.
(** The outcome is decided by the datagram. *)
Lemma scan_exact got o : scan_outcome got o ->
  (forall i, o = Ret (ScanIdentity i) <-> identifies got i) /\
  (o = Undef NullDeref <-> scan_crashes got) /\
  (forall r, o = Ret r -> (exists i, r = ScanIdentity i) \/ scan_rejects got r) /\
  (o = Undef NullDeref \/ exists r, o = Ret r).
Proof.
  intros [(i & I & ->)|[[C ->]|(r & R & ->)]].
  - pose proof (identifies_no_crash _ _ I) as Nc. repeat split.
    + intros [= <-]. exact I.
    + intros J. rewrite (identifies_inj _ _ _ I J). reflexivity.
    + discriminate.
    + intros; contradiction.
    + intros r [= <-]. eauto.
    + eauto.
  - repeat split; auto; try discriminate. intros I. destruct (identifies_no_crash _ _ I C).
  - repeat split.
    + intros [= ->]. destruct R.
    + intros I. destruct (rejects_not_identifies _ _ _ R I).
    + discriminate.
    + intros C. destruct (rejects_no_crash _ _ R C).
    + intros q [= <-]. auto.
    + eauto.
Qed.
Lemma scan_exactly m bs rest : exists o, scan_run m (inr bs :: rest) = [o] /\
  (forall i, o = Ret (ScanIdentity i) <-> identifies (take 4096 bs) i) /\
  (o = Undef NullDeref <-> scan_crashes (take 4096 bs)) /\
  (forall r, o = Ret r -> (exists i, r = ScanIdentity i) \/ scan_rejects (take 4096 bs) r) /\
  (o = Undef NullDeref \/ exists r, o = Ret r).
Proof. destruct (scan_first m bs rest) as (o & E & O). exists o. split; [exact E|]. apply scan_exact. exact O. Qed.

Lemma scan_request_bytes m : scan_request m = Ret list_identity_request.
Proof.
  unfold scan_request, alloc.
  assert (C : carries m (ep_ser (ep_make0 EIP_CMD_LIST_IDENTITY 0)) list_identity_request).
  { exact (ep_carries m (ep_header (ep_make0 EIP_CMD_LIST_IDENTITY 0)) None [] eq_refl). }
  destruct (write_agree m _ _ (proj2 C)) as [_ H].
  destruct (H 128) as (m' & w' & E & Ew & El).
  { change (len list_identity_request) with 24. lia. }
  change (s_serialize (ep_ser (ep_make0 EIP_CMD_LIST_IDENTITY 0))) with (ep_serialize (ep_make0 EIP_CMD_LIST_IDENTITY 0)) in E.
  rewrite E, Ew. change (N.min 128 (len list_identity_request)) with (len list_identity_request). exact El.
Qed.

(** ** Quiet operations: nothing received, nothing changed *)
Lemma hext_grow (m : heap) : hext m (m ++ [None]).
Proof. intros b bl H. rewrite nth_error_app1; [exact H|]. eapply nth_error_lt; eauto. Qed.

Definition gave_up {A} (o : outcome A) : Prop := o = Stuck \/ exists s, o = Throw SystemError s.
Lemma quiet_command w req bs : carries (w_mem w) (ep_ser req) bs -> (forall got, reply_of (w_ctl w) bs <> Reply got) ->
  exists o w', sendCommand req w = (o, w') /\ hext (w_mem w) (w_mem w') /\ gave_up o.
Proof.
  intros C Q. unfold sendCommand, sc_send, mbind. rewrite (send_ctl _ _ _ C).
  unfold reply_of, talk in Q. destruct (sent (w_ctl w) bs) as [n|] eqn:Sn.
  - unfold sc_recv. destruct (so_recv (w_ctl w)) as [|[d|] rs] eqn:Rv; cbn [fst snd] in Q; cbv zeta in Q.
    + rewrite recv_block by reflexivity. do 2 eexists. split; [reflexivity|]. split; [apply hext_grow|]. left. reflexivity.
    + destruct (Q _ eq_refl).
    + rewrite (recv_fail _ _ _ rs) by reflexivity. do 2 eexists. split; [reflexivity|]. split; [apply hext_grow|]. right. eauto.
  - do 2 eexists. split; [reflexivity|]. split; [apply hext_grow|]. right. eauto.
Qed.
Lemma quiet_catch {A B} (x : M A) h1 h2 (k : A -> M B) w o w' : x w = (o, w') -> gave_up o ->
  exists o', (let* a := mcatch x h1 h2 in k a) w = (o', w') /\ gave_up o'.
Proof.
  intros E [-> |[s ->]]; unfold mbind, mcatch; rewrite E; cbn; eexists; (split; [reflexivity|]); [left|right]; eauto.
Qed.
Lemma quiet_bind {A B} (x : M A) (k : A -> M B) w o w' : x w = (o, w') -> gave_up o ->
  exists o', (let* a := x in k a) w = (o', w') /\ gave_up o'.
Proof.
  intros E [-> |[s ->]]; unfold mbind; rewrite E; cbn; eexists; (split; [reflexivity|]); [left|right]; eauto.
Qed.
Lemma quiet_rr w service pad ss d bs : len ss < 256 -> carries_opt (w_mem w) d bs ->
  let req := request 0x6F (se_id (w_se w)) (rr_request (u8 service) (epath pad ss) bs) in
  (forall got, reply_of (w_ctl w) req <> Reply got) ->
  exists o w', sendRRDataCommand service (path_of pad ss) d w = (o, w') /\ hext (w_mem w) (w_mem w') /\ gave_up o.
Proof.
  intros L C req Q. unfold sendRRDataCommand. erewrite mbind_ret; [|reflexivity].
  destruct (ep_make_carries (w_mem w) EIP_CMD_SEND_RR_DATA (se_id (w_se w)) (Some (rrq_ser (rrq_make service (path_of pad ss) d)))
    (rr_request (u8 service) (epath pad ss) bs)) as (q & Eq & _ & Hh & Cq); [apply rrq_carries; assumption|].
  erewrite mbind_ret; [|unfold mout; rewrite Eq; reflexivity].
  destruct (quiet_command w q req Cq Q) as (o & w' & E & X & O).
  match goal with |- context[mbind (mcatch _ ?h1 ?h2) ?k] => destruct (quiet_catch _ h1 h2 k _ _ _ E O) as (o' & E' & O') end.
  exists o', w'. auto.
Qed.

Lemma replied_received k bs got : reply_of k bs = Reply got -> received (events k bs).
Proof.
  unfold reply_of, events, talk. destruct (sent k bs); [|discriminate]. destruct (so_recv k) as [|[d|] rs]; try discriminate.
  intros _. exists Ctl, (take 4096 d). cbn. auto.
Qed.
Lemma net_eq (w : world) a b x : x = w_net w ++ a -> x = w_net w ++ b -> a = b.
Proof. intros -> H. apply app_inv_head in H. exact H. Qed.

Definition replied (k : sock) (bs : list byte) : bool := match reply_of k bs with Reply _ => true | _ => false end.
Lemma not_replied k bs : replied k bs = false -> forall got, reply_of k bs <> Reply got.
Proof. unfold replied. destruct (reply_of k bs); congruence. Qed.
Lemma is_replied k bs : replied k bs = true -> received (events k bs).
Proof. unfold replied. destruct (reply_of k bs) eqn:E; try discriminate. intros _. eapply replied_received. exact E. Qed.

Lemma quiet_get {T} (c : cls T) t w x y z : x < 256 -> y < 256 -> z < 256 ->
  (forall got, reply_of (w_ctl w) (get_request (se_id (w_se w)) x y z) <> Reply got) ->
  exists o w', getSingleAttributeSerializable c x y z t w = (o, t, w') /\ hext (w_mem w) (w_mem w').
Proof.
  intros Hx Hy Hz Q. unfold getSingleAttributeSerializable. rewrite path_cia_of by assumption.
  destruct (quiet_rr w 0x0E false [SClass x; SInstance y; SAttribute z] None [] eq_refl eq_refl Q) as (o & w' & E & H & G).
  rewrite E. destruct G as [-> |[s ->]]; eauto.
Qed.
Lemma quiet_set w x y z d data : x < 256 -> y < 256 -> z < 256 -> carries_opt (w_mem w) d data ->
  (forall got, reply_of (w_ctl w) (set_request (se_id (w_se w)) x y z data) <> Reply got) ->
  exists o w', setSingleAttributeSerializable x y z d w = (o, w') /\ hext (w_mem w) (w_mem w').
Proof.
  intros Hx Hy Hz C Q. unfold setSingleAttributeSerializable. rewrite path_cia_of by assumption.
  destruct (quiet_rr w 0x10 false [SClass x; SInstance y; SAttribute z] d data eq_refl C Q) as (o & w' & E & H & G).
  destruct (quiet_bind _ (fun _ => mret tt) _ _ _ E G) as (o' & E' & _). eauto.
Qed.
Lemma quiet_create w a b : ci_assembly a < 256 -> ci_assembly b < 256 ->
  (forall got, reply_of (w_ctl w) (open_request (w_se w) a b) <> Reply got) ->
  exists o w', createConnection a b w = (o, w') /\ hext (w_mem w) (w_mem w').
Proof.
  intros Ha Hb Q. unfold createConnection. erewrite mbind_ret; [|reflexivity]. cbv zeta. erewrite mbind_ret; [|reflexivity].
  set (w1 := set_se _ w).
  destruct (quiet_rr w1 0x5B false [SClass 6; SInstance 1]
    (Some (fo_ser (cn_open_request (cn_make (se_vendor (w_se w)) (se_serial (w_se w)) (se_next_sn (w_se w)) (se_next_id (w_se w)) (u32 (se_next_id (w_se w) + 1)) a b)))) _ eq_refl (forward_open_bytes (w_mem w1) _ _ _ _ _ a b Ha Hb) Q) as (o & w' & E & H & G).
  match goal with |- context[mbind _ ?k] => destruct (quiet_bind _ k _ _ _ E G) as (o' & E' & _) end. eauto.
Qed.
Lemma quiet_drop w n c : nth_error (se_conns (w_se w)) (N.to_nat n) = Some c -> cn_tick_size c < 256 -> cn_ticks c < 256 ->
  (forall got, reply_of (w_ctl w) (close_request (w_se w) c) <> Reply got) ->
  exists o w', closeConnection n w = (o, w') /\ hext (w_mem w) (w_mem w').
Proof.
  intros En T1 T2 Q. unfold closeConnection. erewrite mbind_ret; [|unfold getConnection; rewrite En; reflexivity].
  destruct (quiet_rr w 0x4E false [SClass 6; SInstance 1] (Some (fc_ser (cn_close_request c))) _ eq_refl (forward_close_bytes (w_mem w) c T1 T2) Q) as (o & w' & E & H & G).
  match goal with |- context[mbind _ ?k] => destruct (quiet_bind _ k _ _ _ E G) as (o' & E' & _) end. eauto.
Qed.
Lemma quiet_open w h p q : (forall got, reply_of (w_ctl w) register_request <> Reply got) ->
  exists o w', session_open h p q w = (o, w') /\ hext (w_mem w) (w_mem w').
Proof.
  intros Q. unfold session_open. unfold mbind at 1, sock_open at 1. cbn [get_sock].
  fold (open_fails (w_ctl w)). destruct (open_fails (w_ctl w)).
  { do 2 eexists. split; [reflexivity|]. intros b bl H. exact H. }
  unfold mbind at 1, sock_open at 1. cbn [get_sock emit set_sock w_io w_ctl w_mem w_net w_se w_rbuf].
  fold (open_fails (w_io w)). destruct (open_fails (w_io w)).
  { do 2 eexists. split; [reflexivity|]. intros b bl H. exact H. }
  match goal with |- exists o w', ?f ?x = (o, w') /\ _ => set (w1 := x) end.
  destruct (ep_make_carries (w_mem w1) EIP_CMD_REGISTER_SESSION 0 (Some (rg_ser rg_make)) (registration 1 0)) as (qk & Eq & _ & Hh & Cq);
    [apply (rg_carries (w_mem w1) rg_make)|].
  erewrite mbind_ret; [|unfold mout; rewrite Eq; reflexivity].
  assert (Q1 : forall got, reply_of (w_ctl w1) register_request <> Reply got).
  { intros got. specialize (Q got). unfold reply_of, talk, sent in *.
    change (so_send (w_ctl w1)) with (so_send (w_ctl w)). change (so_recv (w_ctl w1)) with (so_recv (w_ctl w)).
    destruct (so_send (w_ctl w)) as [|[|n|] l], (so_recv (w_ctl w)) as [|[d|] rs]; exact Q. }
  destruct (quiet_command w1 qk register_request Cq Q1) as (o & w' & E & X & O).
  match goal with |- context[mbind (mcatch _ ?h1 ?h2) ?k] => destruct (quiet_catch _ h1 h2 k _ _ _ E O) as (o' & E' & O') end.
  exists o', w'. auto.
Qed.
Lemma quiet_close w : exists o w', session_close w = (o, w') /\ hext (w_mem w) (w_mem w').
Proof.
  unfold session_close. erewrite mbind_ret; [|reflexivity].
  pose proof (ep_carries (w_mem w) (ep_header (ep_make0 EIP_CMD_UNREGISTER_SESSION (se_id (w_se w)))) None [] eq_refl) as C.
  change (mkEP _ None) with (ep_make0 EIP_CMD_UNREGISTER_SESSION (se_id (w_se w))) in C.
  unfold mbind at 1. rewrite (send_ctl _ _ _ C). destruct (sent _ _).
  - set (w1 := mkW _ _ _ _ _ _). destruct (close_both_spec w1) as (w2 & E & _ & _ & Hm & _). unfold mbind. rewrite E.
    destruct (closed _ _); do 2 eexists; (split; [reflexivity|]); cbn [w_mem set_se mupd_se mupd];
      [change (w_mem (set_se (set_id 0 (w_se w2)) w2)) with (w_mem w2)|]; rewrite Hm; apply hext_grow.
  - do 2 eexists. split; [reflexivity|]. apply hext_grow.
Qed.

(** One operation in which nothing is received changes no memory. *)
Lemma step_quiet u o w r w' es : session_ok w -> user_memory u w -> op_ok u o -> step o w = (r, w') ->
  w_net w' = w_net w ++ es -> ~ received es -> hext (w_mem w) (w_mem w').
Proof.
  intros (R & I & F) (UH & UN) K S N1 Q.
  destruct o as [h p q| |T c t x y z|x y z d|a b|n| |p]; cbn [step op_ok] in *.
  - destruct (replied (w_ctl w) register_request) eqn:Rp.
    + destruct (session_open_spec w h p q R) as (o & w1 & E & X). rewrite (mbind_unit _ (fun _ => RUnit) _ _ _ E) in S. injection S as <- <-.
      destruct X as (_ & _ & _ & X). destruct (open_fails (w_ctl w)) eqn:F1, (open_fails (w_io w)) eqn:F2.
      1,2,3: unfold session_open, mbind, sock_open in E; cbn [get_sock] in E; fold (open_fails (w_ctl w)) in E; rewrite F1 in E;
        cbn [get_sock emit set_sock w_io w_ctl w_mem w_net w_se w_rbuf negb] in E; try (fold (open_fails (w_io w)) in E; rewrite F2 in E);
        injection E as <- <-; intros b0 bl0 H0; exact H0.
      destruct X as (tail & _ & X). pose proof (net_eq _ _ _ _ X N1) as <-. destruct Q. destruct (is_replied _ _ Rp) as (i & d & H).
      exists i, d. apply in_or_app. right. apply in_or_app. left. exact H.
    + destruct (quiet_open w h p q (not_replied _ _ Rp)) as (o & w1 & E & X). rewrite (mbind_unit _ (fun _ => RUnit) _ _ _ E) in S. injection S as <- <-. exact X.
  - destruct (quiet_close w) as (o & w1 & E & X). rewrite (mbind_unit _ (fun _ => RUnit) _ _ _ E) in S. injection S as <- <-. exact X.
  - destruct K as (Kx & Ky & Kz & Kc). destruct (replied (w_ctl w) (get_request (se_id (w_se w)) x y z)) eqn:Rp.
    + destruct (get_any c t w x y z R Kx Ky Kz Kc) as (o & t' & w1 & E & X & _). rewrite E in S. destruct X as (_ & _ & _ & _ & _ & X & _).
      assert (w' = w1) as -> by (destruct o; injection S as _ ->; reflexivity).
      pose proof (net_eq _ _ _ _ X N1) as <-. destruct (Q (is_replied _ _ Rp)).
    + destruct (quiet_get c t w x y z Kx Ky Kz (not_replied _ _ Rp)) as (o & w1 & E & X). rewrite E in S.
      assert (w' = w1) as -> by (destruct o; injection S as _ ->; reflexivity). exact X.
  - destruct K as (Kx & Ky & Kz & bs & Kc & _). assert (C : carries_opt (w_mem w) d bs) by (eapply carries_opt_hext; eassumption).
    destruct (replied (w_ctl w) (set_request (se_id (w_se w)) x y z bs)) eqn:Rp.
    + destruct (set_attribute w x y z d bs R Kx Ky Kz C) as (o & w1 & E & X & _). rewrite (mbind_unit _ (fun _ => RUnit) _ _ _ E) in S. injection S as <- <-.
      destruct X as (_ & _ & _ & _ & _ & X & _). pose proof (net_eq _ _ _ _ X N1) as <-. destruct (Q (is_replied _ _ Rp)).
    + destruct (quiet_set w x y z d bs Kx Ky Kz C (not_replied _ _ Rp)) as (o & w1 & E & X). rewrite (mbind_unit _ (fun _ => RUnit) _ _ _ E) in S. injection S as <- <-. exact X.
  - destruct K as [Ka Kb]. destruct (replied (w_ctl w) (open_request (w_se w) a b)) eqn:Rp.
    + destruct (create_connection w a b R Ka Kb) as (o & w1 & E & X & _). rewrite (mbind_unit _ (fun n => RNumber n) _ _ _ E) in S. injection S as <- <-.
      destruct X as (_ & _ & _ & _ & X & _). pose proof (net_eq _ _ _ _ X N1) as <-. destruct (Q (is_replied _ _ Rp)).
    + destruct (quiet_create w a b Ka Kb (not_replied _ _ Rp)) as (o & w1 & E & X). rewrite (mbind_unit _ (fun n => RNumber n) _ _ _ E) in S. injection S as <- <-. exact X.
  - destruct (nth_error (se_conns (w_se w)) (N.to_nat n)) as [c|] eqn:En.
    + assert (T : cn_tick_size c < 256 /\ cn_ticks c < 256) by (rewrite Forall_forall in F; apply F; eapply nth_error_In; eassumption).
      destruct T as [T1 T2]. destruct (replied (w_ctl w) (close_request (w_se w) c)) eqn:Rp.
      * destruct (close_connection w n c R En T1 T2) as (o & w1 & E & X & _). rewrite (mbind_unit _ (fun _ => RUnit) _ _ _ E) in S. injection S as <- <-.
        destruct X as (_ & _ & _ & _ & X & _). pose proof (net_eq _ _ _ _ X N1) as <-. destruct (Q (is_replied _ _ Rp)).
      * destruct (quiet_drop w n c En T1 T2 (not_replied _ _ Rp)) as (o & w1 & E & X). rewrite (mbind_unit _ (fun _ => RUnit) _ _ _ E) in S. injection S as <- <-. exact X.
    + rewrite (mbind_unit _ (fun _ => RUnit) _ _ _ (close_connection_bad w n En)) in S. injection S as <- <-. intros b0 bl0 H0. exact H0.
  - destruct (receive_io w R) as (o & w1 & E & X1 & X2 & X3 & X4 & X5 & _ & X6 & C).
    pose proof E as E0. rewrite (mbind_unit _ (fun p => RItems p) _ _ _ E) in S. injection S as <- <-.
    pose proof (net_eq _ _ _ _ X6 N1) as <-. unfold io_events in Q. unfold receiveIOPacket, mbind in E0.
    destruct (so_recv (w_io w)) as [|[d|] rs] eqn:Rv.
    + rewrite recv_block in E0 by exact Rv. injection E0 as _ <-. intros b0 bl0 H0. exact H0.
    + destruct Q. exists Io, (take 4096 d). left. reflexivity.
    + rewrite (recv_fail _ _ _ rs) in E0 by exact Rv. injection E0 as _ <-. intros b0 bl0 H0. exact H0.
  - destruct K as (xs & K).
    destruct (send_io w p xs R (carries_hext _ _ _ _ UH K)) as (o & w1 & E & _).
    rewrite (mbind_unit _ (fun _ => RUnit) _ _ _ E) in S. injection S as <- <-.
    eapply send_io_keeps; [eapply carries_hext; eassumption|exact E].
Qed.

Lemma hext_trans a b c : hext a b -> hext b c -> hext a c.
Proof. intros H1 H2 x bl H. auto. Qed.

Lemma history_net u ops : forall w rs w', session_ok w -> user_memory u w -> Forall (op_ok u) ops ->
  exec ops w = (rs, w') -> exists es, w_net w' = w_net w ++ es.
Proof.
  induction ops as [|o ops IH]; intros w rs w' S U K E.
  - injection E as <- <-. exists []. rewrite app_nil_r. reflexivity.
  - inversion K as [|? ? Ko Ks]; subst. cbn [exec] in E. destruct (step o w) as [r w1] eqn:E1.
    pose proof (step_one u o w r w1 S U Ko E1) as (B1 & M1 & Rb1 & I1 & (e1 & Ne & _) & _).
    assert (S1 : session_ok w1) by (eapply session_keeps; eassumption).
    assert (U1 : user_memory u w1) by (eapply user_kept; eassumption).
    destruct r as [x|c s|ub|].
    1,2: destruct (exec ops w1) as [rs2 w2] eqn:E2; injection E as _ ->; destruct (IH _ _ _ S1 U1 Ks E2) as (e2 & Ne2);
      exists (e1 ++ e2); rewrite Ne2, Ne, app_assoc; reflexivity.
    all: injection E as _ <-; eauto.
Qed.
(** ... and so for a whole history. *)
Lemma quiet_history u ops : forall w rs w' es, session_ok w -> user_memory u w -> Forall (op_ok u) ops ->
  exec ops w = (rs, w') -> w_net w' = w_net w ++ es -> ~ received es -> hext (w_mem w) (w_mem w').
Proof.
  induction ops as [|o ops IH]; intros w rs w' es S U K E N1 Q.
  - injection E as <- <-. intros b bl H. exact H.
  - inversion K as [|? ? Ko Ks]; subst. cbn [exec] in E.
    destruct (step o w) as [r w1] eqn:E1.
    pose proof (step_one u o w r w1 S U Ko E1) as (B1 & M1 & Rb1 & I1 & (e1 & Ne & _) & _).
    assert (S1 : session_ok w1) by (eapply session_keeps; eassumption).
    assert (U1 : user_memory u w1) by (eapply user_kept; eassumption).
    assert (G : forall rs2 w2, exec ops w1 = (rs2, w2) -> w2 = w' -> hext (w_mem w) (w_mem w')).
    { intros rs2 w2 E2 ->. destruct (history_net u ops w1 rs2 w' S1 U1 Ks E2) as (e2 & Ne2).
      assert (es = e1 ++ e2) as -> by (rewrite Ne2, Ne, <- app_assoc in N1; apply app_inv_head in N1; congruence).
      apply (hext_trans _ (w_mem w1)).
      - eapply step_quiet; try eassumption. intros (i & d & H). apply Q. exists i, d. apply in_or_app. auto.
      - eapply IH; try eassumption. intros (i & d & H). apply Q. exists i, d. apply in_or_app. auto. }
    destruct r as [x|c s|ub|].
    + destruct (exec ops w1) as [rs2 w2] eqn:E2. injection E as _ ->. eapply G; reflexivity.
    + destruct (exec ops w1) as [rs2 w2] eqn:E2. injection E as _ ->. eapply G; reflexivity.
    + injection E as _ <-. eapply step_quiet with (es := es); eassumption.
    + injection E as _ <-. eapply step_quiet with (es := es); eassumption.
Qed.
