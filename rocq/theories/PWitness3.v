(** Concrete worlds and histories for the session properties. *)
From Verif Require Export PSession4 PWitness Tests.

(** Replies a target can send to a session with handle [id]. *)
Definition explicit_reply (id sv st : N) (data : list byte) : list byte :=
  request 0x6F id (rr 0 0 [(0, []); (0xB2, router_reply sv 0 st [] data)]).
Definition registered (id : N) : list byte := request 0x65 id (registration 1 0).
Definition fo_reply (sn : N) : list byte := explicit_reply 9 0xDB 0 (forward_open_reply (100 + sn) (200 + sn) sn 0x195 0x4321 1000 2000 x00 []).
Definition fc_reply (sn : N) : list byte := explicit_reply 9 0xCE 0 (forward_close_reply sn 0x195 0x4321 x00 []).
(** A session that is open with handle 9, two connections possible. *)
Definition w9 (ctl io : list rx) : world :=
  set_se (mkSess 9 0x195 0x4321 7 100 []) (session_make [] (mkSock [] [] ctl []) (mkSock [] [] io []) 0x195 0x4321 7 100).
Definition ci0 := mkCI 0x71 0x6E 0x177FA0.

Ltac frames := unfold frame_fits; repeat split; reflexivity.
Lemma rbuf_make m a b v s n c : rbuf_ok (session_make m a b v s n c).
Proof.
  unfold rbuf_ok, session_make, alloc. cbn [w_mem w_rbuf]. exists (zeros 4096). split; [apply nth_error_app_end|apply len_zeros].
Qed.
Lemma session_ok_make m a b v s n c : session_ok (session_make m a b v s n c).
Proof. split; [apply rbuf_make|]. split; [reflexivity|constructor]. Qed.
Lemma user_memory_make m a b v s n c : user_memory m (session_make m a b v s n c).
Proof.
  unfold user_memory, session_make, alloc. cbn [w_mem w_rbuf]. split; [apply hext_app|].
  intros bl E. assert (L : (List.length m < List.length m)%nat) by (apply nth_error_Some; rewrite E; discriminate). lia.
Qed.
Lemma rbuf_w9 c i : rbuf_ok (w9 c i).
Proof. eapply rbuf_ok_eq; [reflexivity|reflexivity|apply (rbuf_make [] (mkSock [] [] c []) (mkSock [] [] i []) 0x195 0x4321 7 100)]. Qed.
Lemma session_ok_w9 c i : session_ok (w9 c i).
Proof. split; [apply rbuf_w9|]. split; [reflexivity|constructor]. Qed.
Lemma user_memory_w9 c i : user_memory [] (w9 c i).
Proof. split; [intros b bl E; destruct b; discriminate|]. intros bl E. destruct (w_rbuf (w9 c i)); discriminate. Qed.

(** C39: a target announcing version 2 in a two byte reply. *)
Lemma version_2_accepted : exists w w' got ses, rbuf_ok w /\ reply_of (w_ctl w) register_request = Reply got /\
  reply_frame got 0x65 ses (le 2 2) /\ session_open "h" "p" "q" w = (Ret tt, w') /\ se_id (w_se w') = ses.
Proof.
  exists (w0 [RxData (request 0x65 9 (le 2 2))]). eexists. exists (request 0x65 9 (le 2 2)), 9. split; [apply rbuf_make|].
  split; [vm_compute; reflexivity|]. split.
  - exists 0, 0, 0, 0, []. split; [frames|]. rewrite app_nil_r. reflexivity.
  - split; [vm_compute; reflexivity|reflexivity].
Qed.
(** C38, C40: an empty registration reply. *)
Lemma empty_registration_crashes : exists w w' got ses, rbuf_ok w /\ reply_of (w_ctl w) register_request = Reply got /\
  reply_frame got 0x65 ses [] /\ ses <> 0 /\ session_open "h" "p" "q" w = (Undef NullDeref, w').
Proof.
  exists (w0 [RxData (request 0x65 9 [])]). eexists. exists (request 0x65 9 []), 9. split; [apply rbuf_make|].
  split; [vm_compute; reflexivity|]. split; [|split; [discriminate|vm_compute; reflexivity]].
  exists 0, 0, 0, 0, []. split; [frames|]. reflexivity.
Qed.
Lemma close_error_hides_rejection : exists w w', rbuf_ok w /\ reply_of (w_ctl w) register_request = Reply (request 0x65 0 (registration 1 0)) /\
  session_open "h" "p" "q" w = (Throw SystemError "close", w') /\ ~ In (EClose Io true) (w_net w') /\ ~ In (EClose Io false) (w_net w').
Proof.
  exists (session_make [] (mkSock [] [] [RxData (request 0x65 0 (registration 1 0))] [true]) quiet 1 2 3 4). eexists. split; [apply rbuf_make|].
  split; [vm_compute; reflexivity|]. split; [vm_compute; reflexivity|].
  split; cbn [w_net In]; intros H; repeat (destruct H as [H|H]; [discriminate|]); exact H.
Qed.
(** C40: the other operations. *)
Lemma replies_crash :
  (exists w w', session_ok w /\ step (OpOpen "h" "p" "q") w = (Undef NullDeref, w')) /\
  (exists w w', session_ok w /\ step (OpGet N (prim_cls 2) 0 1 1 1) w = (Undef NullDeref, w')) /\
  (exists w w', session_ok w /\ step (OpSet 1 1 1 None) w = (Undef NullDeref, w')) /\
  (exists w w', session_ok w /\ step (OpCreate ci0 ci0) w = (Undef NullDeref, w')) /\
  (exists w w', session_ok w /\ se_conns (w_se w) <> [] /\ step (OpCloseConnection 0) w = (Undef NullDeref, w')).
Proof.
  split; [|split; [|split; [|split]]].
  - exists (w0 [RxData (request 0x65 9 [])]). eexists. split; [apply session_ok_make|]. vm_compute. reflexivity.
  - exists (w9 [RxData (explicit_reply 9 0x8E 0 [])] []). eexists. split; [apply session_ok_w9|]. vm_compute. reflexivity.
  - exists (w9 [RxData (request 0x6F 9 [])] []). eexists. split; [apply session_ok_w9|]. vm_compute. reflexivity.
  - exists (w9 [RxData (explicit_reply 9 0xDB 0 [])] []). eexists. split; [apply session_ok_w9|]. vm_compute. reflexivity.
  - set (w := w9 [RxData (explicit_reply 9 0xCE 0 [])] []).
    exists (set_se (set_conns [cn_make 0x195 0x4321 1 2 3 ci0 ci0] (w_se w)) w). eexists. split; [|split; [discriminate|vm_compute; reflexivity]].
    split; [eapply rbuf_ok_eq; [reflexivity|reflexivity|apply rbuf_w9]|]. split; [reflexivity|]. constructor; [split; reflexivity|constructor].
Qed.
(** C42: an empty unconnected message. *)
Lemma empty_reply_crashes : exists w w' got, rbuf_ok w /\
  reply_of (w_ctl w) (request 0x6F (se_id (w_se w)) (rr_request 0x0E (epath false []) [])) = Reply got /\
  reply_frame got 0x6F (se_id (w_se w)) (rr 0 0 [(0, []); (0xB2, [])]) /\
  sendRRDataCommand 0x0E (path_of false []) None w = (Undef NullDeref, w').
Proof.
  exists (w9 [RxData (request 0x6F 9 (rr 0 0 [(0, []); (0xB2, [])]))] []). eexists. exists (request 0x6F 9 (rr 0 0 [(0, []); (0xB2, [])])).
  split; [apply rbuf_w9|]. split; [vm_compute; reflexivity|]. split; [|vm_compute; reflexivity].
  exists 0, 0, 0, 0, []. split; [frames|]. rewrite app_nil_r. reflexivity.
Qed.
Lemma get_empty_crashes w k junk c i a got sv ad : rbuf_ok w -> c < 256 -> i < 256 -> a < 256 ->
  reply_of (w_ctl w) (get_request (se_id (w_se w)) c i a) = Reply got -> answers (se_id (w_se w)) got sv 0 ad [] ->
  exists w', getSingleAttribute k junk c i a w = (Undef NullDeref, w').
Proof.
  intros R Hc Hi Ha Er A. destruct (get_attribute w k junk c i a R Hc Hi Ha) as (o & w' & E & _ & O). rewrite Er in O.
  assert (U : forall sv' ad' d', answers (se_id (w_se w)) got sv' 0 ad' d' -> d' = []).
  { intros sv' ad' d' (ses & pl & F1 & _ & A1). destruct A as (ses0 & pl0 & F0 & _ & A0).
    destruct (reply_frame_inj _ _ _ _ _ _ _ F1 F0) as (_ & _ & ->). destruct (rr_reply_inj _ _ _ _ _ _ _ _ _ A1 A0) as (_ & _ & _ & ->). reflexivity. }
  destruct O as [(sv' & ad' & v' & rest' & A' & _ & N1 & _)|[(sv' & ad' & d' & s & A' & L & _)|[(_ & ->)|(O & _)]]].
  - apply U in A'. contradiction.
  - apply U in A'. subst d'. change (len (@nil byte)) with 0 in L. lia.
  - exists w'. assumption.
  - destruct (O _ _ _ A).
Qed.
Lemma create_empty_crashes w o t got sv ad : rbuf_ok w -> ci_assembly o < 256 -> ci_assembly t < 256 ->
  reply_of (w_ctl w) (open_request (w_se w) o t) = Reply got -> answers (se_id (w_se w)) got sv 0 ad [] ->
  exists w', createConnection o t w = (Undef NullDeref, w').
Proof.
  intros R Ho Ht Er A. destruct (create_connection w o t R Ho Ht) as (res & w' & E & _ & _ & O). unfold create_outcome in O. rewrite Er in O.
  assert (U : forall sv' ad' d', answers (se_id (w_se w)) got sv' 0 ad' d' -> d' = []).
  { intros sv' ad' d' (ses & pl & F1 & _ & A1). destruct A as (ses0 & pl0 & F0 & _ & A0).
    destruct (reply_frame_inj _ _ _ _ _ _ _ F1 F0) as (_ & _ & ->). destruct (rr_reply_inj _ _ _ _ _ _ _ _ _ A1 A0) as (_ & _ & _ & ->). reflexivity. }
  assert (NO : forall a b c d e f g, ~ opened [] a b c d e f g).
  { intros a b c d e f g (rs & app & rest & _ & H). apply (f_equal len) in H. unfold forward_open_reply in H. rewrite !len_app, !len_le in H. change (len (@nil byte)) with 0 in H. lia. }
  destruct O as [(?&?&d'&?&?&?&?&?&A'&O&_)|(_ & [(?&?&d'&?&?&?&?&?&?&?&?&A'&O&_)|[(?&?&d'&?&A'&O&_)|[(_ & ->)|(O&_)]]])].
  - apply U in A'. subst d'. destruct (NO _ _ _ _ _ _ _ O).
  - apply U in A'. subst d'. destruct (NO _ _ _ _ _ _ _ O).
  - apply U in A'. contradiction.
  - exists w'. assumption.
  - destruct (O _ _ _ A).
Qed.
(** C45: a get is answered with the reply to a set. *)
Lemma answers_reply id sv st d rest : fits 4 id -> id <> 0 -> sv < 256 -> st < 256 -> len d < 60000 ->
  answers id (explicit_reply id sv st d ++ rest) sv st [] d.
Proof.
  intros F Z S1 S2 L. exists id, (rr 0 0 [(0, []); (0xB2, router_reply sv 0 st [] d)]).
  assert (Lr : len (router_reply sv 0 st [] d) = 4 + len d) by (unfold router_reply; rewrite !len_app, !len_cons; change (len (@nil byte)) with 0; lia).
  assert (Lp : len (rr 0 0 [(0, []); (0xB2, router_reply sv 0 st [] d)]) = 20 + len d).
  { unfold rr, cpf, items, item. cbn [flat_map fst snd]. rewrite !len_app, !len_le, Lr. change (len (@nil byte)) with 0. lia. }
  split; [|split].
  - exists 0, 0, 0, 0, rest. split; [|reflexivity]. unfold frame_fits. repeat split; try assumption; try reflexivity. rewrite Lp. lia.
  - right. auto.
  - exists 0, (router_reply sv 0 st [] d). split; [|split].
    + exists 0, 0, [(0, []); (0xB2, router_reply sv 0 st [] d)], []. split; [|split].
      * split; [reflexivity|]. split; [reflexivity|]. split; [|reflexivity]. constructor; [split; reflexivity|]. constructor; [|constructor].
        split; cbn [fst snd]; [reflexivity|]. rewrite Lr. lia.
      * rewrite app_nil_r. reflexivity.
      * exists []. reflexivity.
    + split; [assumption|]. split; [reflexivity|]. split; [assumption|]. split; reflexivity.
    + reflexivity.
Qed.
(** C50: two connections, the first closed. *)
Definition shift_ops : list op := [OpCreate ci0 ci0; OpCreate ci0 ci0; OpCloseConnection 0].
Definition shift_world : world := w9 [RxData (fo_reply 7); RxData (fo_reply 8); RxData (fc_reply 7)] [].
Lemma numbers_shift : exists ops w rs w' c, session_ok w /\ exec ops w = (rs, w') /\
  rs = [Ret (RNumber 0); Ret (RNumber 1); Ret RUnit] /\ In c (se_conns (w_se w')) /\ cn_sn c = 8 /\
  nth_error (se_conns (w_se w')) 1 = None /\ nth_error (se_conns (w_se w')) 0 = Some c /\
  exists w2, step (OpCloseConnection 1) w' = (Undef VecOutOfBounds, w2).
Proof.
  exists shift_ops, shift_world. do 3 eexists. split; [apply session_ok_w9|]. split; [vm_compute; reflexivity|]. split; [reflexivity|].
  split; [left; reflexivity|]. split; [reflexivity|]. split; [reflexivity|]. split; [reflexivity|]. eexists. reflexivity.
Qed.
(** ... so that closing the second by its number closes a third one. *)
Lemma wrong_connection_closed : exists ops w rs w' n0 n1 n2, session_ok w /\ exec ops w = (rs, w') /\
  ops = [OpCreate ci0 ci0; OpCreate ci0 ci0; OpCreate ci0 ci0; OpCloseConnection n0; OpCloseConnection n1] /\
  rs = [Ret (RNumber n0); Ret (RNumber n1); Ret (RNumber n2); Ret RUnit; Ret RUnit] /\
  map cn_sn (se_conns (w_se w')) = [8].
Proof.
  exists [OpCreate ci0 ci0; OpCreate ci0 ci0; OpCreate ci0 ci0; OpCloseConnection 0; OpCloseConnection 1],
    (w9 [RxData (fo_reply 7); RxData (fo_reply 8); RxData (fo_reply 9); RxData (fc_reply 7); RxData (fc_reply 9)] []).
  do 2 eexists. exists 0, 1, 2. split; [apply session_ok_w9|]. split; [vm_compute; reflexivity|]. split; [reflexivity|]. split; reflexivity.
Qed.
(** C44, C52: data too large for a frame. *)
Lemma set_oversize w c i a d data : rbuf_ok w -> fits 4 (se_id (w_se w)) -> c < 256 -> i < 256 -> a < 256 ->
  carries_opt (w_mem w) d data -> 65512 <= len data -> sent (w_ctl w) [] <> None ->
  exists o w' n short rest tail, setSingleAttributeSerializable c i a d w = (o, w') /\
    w_net w' = w_net w ++ ESend Ctl (frame 0x6F (se_id (w_se w)) 0 0 0 0 short ++ rest) (Some n) :: tail /\
    frame_fits 0x6F (se_id (w_se w)) 0 0 0 0 short /\ rest <> [].
Proof.
  intros R I Hc Hi Ha C L S. destruct (set_attribute w c i a d data R Hc Hi Ha C) as (o & w' & E & X & _).
  destruct X as (_ & _ & _ & _ & _ & X & _).
  destruct (request_oversize 0x6F (se_id (w_se w)) (rr_request 0x10 (attribute_path c i a) data)) as (short & rest & F & Q & N1 & _); [reflexivity|assumption| |].
  { rewrite len_rr_request. unfold attribute_path. rewrite len_epath. change (len [SClass c; SInstance i; SAttribute a]) with 3. lia. }
  unfold set_request in X. rewrite Q in X. unfold events, talk in X.
  destruct (sent (w_ctl w) (frame 0x6F (se_id (w_se w)) 0 0 0 0 short ++ rest)) as [n|] eqn:Es.
  2:{ exfalso. apply S. revert Es. unfold sent. destruct (so_send (w_ctl w)) as [|[| |] ?]; try discriminate. reflexivity. }
  exists o, w', n, short, rest. 
  destruct (so_recv (w_ctl w)) as [|[dd|] r]; cbn [fst] in X; eexists; (split; [exact E|]); (split; [exact X|]); split; assumption.
Qed.
Lemma big_data : exists w d, session_ok w /\ carries_opt (w_mem w) (Some d) (zeros 65536) /\ sent (w_ctl w) [] <> None /\ 65512 <= len (zeros 65536).
Proof.
  exists (session_make [Some (zeros 65536)] quiet quiet 1 2 3 4), (ser_of_sbuf (sb_of_view (mkV 0 0 65536))).
  split; [apply session_ok_make|]. split; [|split; [discriminate|rewrite len_zeros; lia]].
  eapply carries_opt_hext; [|apply carries_zeros]. unfold session_make, alloc. cbn [w_mem]. apply hext_app.
Qed.
