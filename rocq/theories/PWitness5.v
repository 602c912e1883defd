(** Concrete cases for C58 - C68. *)
From Verif Require Export PIo2.

(** C59 *)
Definition device (serial : N) : identity := mkId 1 (zeros 16) 0x195 12 7 [x01; x02] 0 serial [x61; x62] 3.
Definition device_reply (serial : N) : list byte := request 0x63 0 (cpf [(0x0C, identity_of (device serial))]).
Lemma device_identifies serial : serial < 4294967296 -> identifies (device_reply serial) (device serial).
Proof.
  intros F. exists (identity_of (device serial)), [], []. split; [|split; [|rewrite app_nil_r; reflexivity]].
  - exists 0, (cpf [(0x0C, identity_of (device serial))]), []. split; [|split; [|rewrite app_nil_r; reflexivity]].
    + exists 0, 0, 0, 0, []. split; [|rewrite app_nil_r; reflexivity]. unfold frame_fits. repeat split; reflexivity.
    + split; [constructor; [split; reflexivity|constructor]|reflexivity].
  - unfold identity_fits, device. cbn [id_version id_sockaddr id_vendor id_device id_product id_revision id_status id_serial id_name id_state].
    repeat split. exact F.
Qed.
Lemma len_device serial : len (device_reply serial) <= 4096.
Proof. reflexivity || (vm_compute; discriminate). Qed.
Lemma second_device_lost m rest : exists b1 b2 i1 i2, identifies b1 i1 /\ identifies b2 i2 /\ i1 <> i2 /\
  scan_run m (inr b1 :: inr b2 :: rest) = [Ret (ScanIdentity i1)].
Proof.
  exists (device_reply 1), (device_reply 2), (device 1), (device 2).
  split; [apply device_identifies; reflexivity|]. split; [apply device_identifies; reflexivity|]. split; [discriminate|].
  destruct (scan_exactly m (device_reply 1) (inr (device_reply 2) :: rest)) as (o & E & I & _). rewrite E. f_equal. apply I.
  rewrite take_all by apply len_device. apply device_identifies. reflexivity.
Qed.
Lemma stray_ends_scan m b1 b2 i2 rest : identifies b2 i2 -> (forall i, ~ identifies (take 4096 b1) i) ->
  forall i, ~ In (Ret (ScanIdentity i)) (scan_run m (inr b1 :: inr b2 :: rest)).
Proof.
  intros _ N i H. destruct (scan_exactly m b1 (inr b2 :: rest)) as (o & E & I & _). rewrite E in H. destruct H as [H|[]]. apply (N i), I. exact H.
Qed.

(** C60 *)
Lemma short_write_unnoticed : exists w w', rbuf_ok w /\ session_open "h" "p" "q" w = (Ret tt, w') /\ In (ESend Ctl register_request (Some 10)) (w_net w').
Proof.
  exists (session_make [] (mkSock [] [TxSome 10] [RxData (registered 9)] []) quiet 1 2 3 4). eexists. split; [apply rbuf_make|].
  split; [vm_compute; reflexivity|]. right. right. left. reflexivity.
Qed.
(** C62 *)
Lemma foreign_datagram : exists w p w' d, In (EOpen Io "plc" "2222" true) (w_net w) /\ so_recv (w_io w) = udp_script [d] /\ dg_from d = "attacker"%string /\
  session_ok w /\ receiveIOPacket w = (Ret p, w') /\ Forall2 (item_is (w_mem w')) p [(0x8002, [x01])].
Proof.
  exists (emit (EOpen Io "plc" "2222" true) (w9 [] [RxData (cpf [(0x8002, [x01])])])).
  do 2 eexists. exists (mkDG "attacker" (cpf [(0x8002, [x01])])). split; [left; reflexivity|]. split; [reflexivity|]. split; [reflexivity|].
  split; [apply session_ok_w9|]. split; [vm_compute; reflexivity|].
  constructor; [|constructor]. split; [reflexivity|]. held.
Qed.
(** C63 *)
Lemma clear_leaves_data : exists t msg n t1, len (ts_tx t) = 4096 /\ ts_tx_count t = 0 /\ ts_tx t = zeros 4096 /\
  ts_send msg t = (n, t1) /\ ts_tx_count (ts_clear t1) = 0 /\ ts_tx (ts_clear t1) <> zeros 4096.
Proof.
  exists (ts_make (zeros 4096) []), (repeat xff 9). do 2 eexists. split; [apply len_zeros|]. split; [reflexivity|]. split; [reflexivity|].
  split; [reflexivity|]. split; [reflexivity|]. intros E. apply (f_equal (fun l => nth 8 l x00)) in E. vm_compute in E. discriminate.
Qed.
(** C64 *)
Lemma closed_session_get w k junk c i a got sv ad v rest : rbuf_ok w -> se_id (w_se w) = 0 -> c < 256 -> i < 256 -> a < 256 -> fits k v -> k <> O ->
  reply_of (w_ctl w) (request 0x6F 0 (rr_request 0x0E (epath false [SClass c; SInstance i; SAttribute a]) [])) = Reply got ->
  answers 0 got sv 0 ad (le k v ++ rest) ->
  exists w', getSingleAttribute k junk c i a w = (Ret v, w').
Proof.
  intros R I Hc Hi Ha F K Er A. eapply (wrong_service_get w k junk c i a got sv ad v rest); try assumption.
  - rewrite I. exact Er.
  - rewrite I. exact A.
Qed.
Lemma closed_session_any_handle : exists w w', session_ok w /\ se_id (w_se w) = 0 /\ getSingleAttribute 2 0 1 2 3 w = (Ret 7, w') /\
  so_recv (w_ctl w) = [RxData (explicit_reply 0xBAD 0x8E 0 (le 2 7))].
Proof.
  exists (w0 [RxData (explicit_reply 0xBAD 0x8E 0 (le 2 7))]). eexists. split; [apply session_ok_make|]. split; [reflexivity|].
  split; [vm_compute; reflexivity|reflexivity].
Qed.
(** C65 *)
Lemma close_keeps_connections w w' : rbuf_ok w -> session_close w = (Ret tt, w') ->
  se_conns (w_se w') = se_conns (w_se w) /\ exists n, gained w w' [ESend Ctl (request 0x66 (se_id (w_se w)) []) (Some n); EClose Ctl true; EClose Io true].
Proof.
  intros R E. destruct (session_close_spec w R) as (o & w1 & E1 & _ & _ & _ & X). rewrite E in E1. injection E1 as <- <-.
  destruct (sent _ _) as [n|]; [|destruct X as ([? X] & _); discriminate]. destruct X as (N1 & X). unfold closed, closing in *.
  destruct (close_fails (w_ctl w)); [cbn in X; destruct X as [[? X] _]; discriminate|].
  destruct (close_fails (w_io w)); [cbn in X; destruct X as [[? X] _]; discriminate|].
  cbn in X. destruct X as [_ ->]. split; [reflexivity|]. exists n. exact N1.
Qed.
Lemma connection_outlives_session : exists w w' c, session_ok w /\
  exec [OpCreate ci0 ci0; OpClose; OpOpen "h" "p" "q"] w = ([Ret (RNumber 0); Ret RUnit; Ret RUnit], w') /\ se_id (w_se w') = 10 /\ se_conns (w_se w') = [c].
Proof.
  exists (w9 [RxData (fo_reply 7); RxData (registered 10)] []). do 2 eexists. split; [apply session_ok_w9|].
  split; [vm_compute; reflexivity|]. split; reflexivity.
Qed.
(** C66 *)
Lemma reopen_rejected w h p q got ses payload o w' : rbuf_ok w -> open_fails (w_ctl w) = false -> open_fails (w_io w) = false ->
  close_fails (w_ctl w) = false -> close_fails (w_io w) = false -> se_id (w_se w) <> 0 ->
  reply_of (w_ctl w) register_request = Reply got -> reply_frame got 0x65 ses payload -> ses <> se_id (w_se w) ->
  session_open h p q w = (o, w') ->
  (exists s, o = Throw RuntimeError s) /\ se_id (w_se w') = se_id (w_se w) /\ io_open false (w_net w') = false.
Proof.
  intros R F1 F2 C1 C2 I Er Fr Ns E.
  assert (NM : forall s' p', reply_frame got 0x65 s' p' -> ~ matches (se_id (w_se w)) s').
  { intros s' p' H [[Z _]|[_ M]]; [contradiction|]. destruct (reply_frame_inj _ _ _ _ _ _ _ Fr H) as (_ & -> & _). contradiction. }
  destruct (open_spec _ _ _ _ _ _ R E) as (_ & _ & _ & X). rewrite F1, F2 in X. destruct X as (tail & O & N1). unfold open_outcome in O. rewrite Er in O.
  destruct O as [(s' & (p' & H & M & _) & _)|[((s' & H & M) & _)|(_ & _ & -> & -> & O)]]; [destruct (NM _ _ H M)..|].
  unfold closed, closing in *. rewrite C1, C2 in *. cbn in O. split; [exact O|]. split; [reflexivity|].
  rewrite N1, io_open_app. cbn [app io_open]. rewrite io_open_app, io_open_events. reflexivity.
Qed.
Lemma open_id_nonzero w h p q w' : rbuf_ok w -> session_open h p q w = (Ret tt, w') -> se_id (w_se w') <> 0 /\ io_open false (w_net w') = true.
Proof.
  intros R E. destruct (open_returns _ _ _ _ _ R E) as (n & got & ses & payload & N1 & _ & A & B & _ & ->). cbn [se_id]. split.
  - destruct (N.eq_dec (se_id (w_se w)) 0) as [Z|Z]; [exact (A Z)|]. rewrite (B Z). exact Z.
  - rewrite N1, io_open_app. reflexivity.
Qed.
Lemma reopen_example : exists w w' s, session_ok w /\ se_id (w_se w) = 9 /\ reply_of (w_ctl w) register_request = Reply (registered 10) /\
  session_open "h" "p" "q" w = (Throw RuntimeError s, w') /\ se_id (w_se w') = 9 /\ io_open true (w_net w') = false.
Proof.
  exists (w9 [RxData (registered 10)] []). do 2 eexists. split; [apply session_ok_w9|]. split; [reflexivity|]. split; [vm_compute; reflexivity|].
  split; [vm_compute; reflexivity|]. split; reflexivity.
Qed.
(** C67 *)
Lemma error_status_accepted : exists w w', session_ok w /\
  so_recv (w_ctl w) = [RxData (frame 0x6F 9 0x64 0 0 0 (rr 0 0 [(0, []); (0xB2, router_reply 0x8E 0 0 [] (le 2 7))]))] /\
  getSingleAttribute 2 0 1 2 3 w = (Ret 7, w').
Proof.
  exists (w9 [RxData (frame 0x6F 9 0x64 0 0 0 (rr 0 0 [(0, []); (0xB2, router_reply 0x8E 0 0 [] (le 2 7))]))] []). eexists.
  split; [apply session_ok_w9|]. split; [reflexivity|]. vm_compute. reflexivity.
Qed.
Lemma error_reply_crashes : exists w w', session_ok w /\ so_recv (w_ctl w) = [RxData (frame 0x6F 9 0x64 0 0 0 [])] /\
  getSingleAttribute 2 0 1 2 3 w = (Undef NullDeref, w').
Proof.
  exists (w9 [RxData (frame 0x6F 9 0x64 0 0 0 [])] []). eexists. split; [apply session_ok_w9|]. split; [reflexivity|]. vm_compute. reflexivity.
Qed.
Lemma status_ignored w k junk c i a st ses c0 c1 o payload tail sv ad v rest : rbuf_ok w -> c < 256 -> i < 256 -> a < 256 -> fits k v -> k <> O ->
  frame_fits 0x6F ses st c0 c1 o payload -> matches (se_id (w_se w)) ses -> rr_reply payload sv 0 ad (le k v ++ rest) ->
  reply_of (w_ctl w) (get_request (se_id (w_se w)) c i a) = Reply (frame 0x6F ses st c0 c1 o payload ++ tail) ->
  exists w', getSingleAttribute k junk c i a w = (Ret v, w').
Proof.
  intros R Hc Hi Ha F K Fr M A Er. apply (wrong_service_get w k junk c i a _ sv ad v rest R Hc Hi Ha F K Er). exists ses, payload. split; [|split; assumption].
  exists st, c0, c1, o, tail. split; [exact Fr|reflexivity].
Qed.

(** Examples for the hypotheses of C58. *)
Definition io_item : cpf_item := mkItem 0x8002 (Some (prim_ser 1 5)).
