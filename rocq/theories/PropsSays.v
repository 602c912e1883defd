(** * C126, C127: what a session's log says about itself *)
From Verif Require Import PSays PLog4.
Local Open Scope N_scope.

(** ** C126: What the session reports about itself is true *)
(** The line that a session was opened: exactly when open returned, with the handle
    the session has then. *)
Theorem C126_opened : forall h p i w r w' l, l_step (OpOpen h p i) w = (r, w', l) ->
  ((exists v, r = Ret v) -> with_format msg_opened l = [mkLog Inform msg_opened [AU32 (se_id (w_se w'))]]) /\
  ((forall v, r <> Ret v) -> with_format msg_opened l = []).
Proof. exact opened_says. Qed.
Print Assumptions C126_opened.
(** An open that returns has warned exactly when the reply it accepted has something odd. *)
Theorem C126_registration : forall h p i w v w' l, rbuf_ok w -> l_step (OpOpen h p i) w = (Ret v, w', l) ->
  exists got rs ses st c0 c1 o payload after, so_recv (w_ctl w) = RxData got :: rs /\ registration_parts (take 4096 got) ses st c0 c1 o payload after /\
    se_id (w_se w') = ses /\ (logged Warn l <-> odd_registration st c0 c1 o payload after).
Proof. exact registration_says. Qed.
Print Assumptions C126_registration.
(** The only warning receiveIOPacket gives is about bytes after the items, with the two
    sizes; it is given exactly when there are such bytes. *)
Theorem C126_leftover : forall w r w' l, rbuf_ok w -> l_step OpReceiveIO w = (r, w', l) ->
  filter alarming l = with_format msg_leftover l /\
  match so_recv (w_io w) with
  | RxData d :: _ =>
      (exists xs rest, cpf_ok xs /\ take 4096 d = cpf xs ++ rest /\ (exists v, r = Ret v) /\ with_format msg_leftover l = leftover xs rest) \/
      ((forall xs rest, cpf_ok xs -> take 4096 d <> cpf xs ++ rest) /\ (forall v, r <> Ret v) /\ with_format msg_leftover l = [])
  | _ => (forall v, r <> Ret v) /\ with_format msg_leftover l = []
  end.
Proof. exact io_says. Qed.
Print Assumptions C126_leftover.
(** The lines that an identifier was replaced name the identifier asked for and the one
    the connection has now, exactly when they differ. *)
Theorem C126_replaced : forall a b w r w' l, l_step (OpCreate a b) w = (r, w', l) ->
  ((exists v, r = Ret v) -> exists c, se_conns (w_se w') = se_conns (w_se w) ++ [c] /\
     with_format msg_o2t l = replaced msg_o2t (se_next_id (w_se w)) (cn_o2t_id c) /\
     with_format msg_t2o l = replaced msg_t2o (u32 (se_next_id (w_se w) + 1)) (cn_t2o_id c)) /\
  ((forall v, r <> Ret v) -> with_format msg_o2t l = [] /\ with_format msg_t2o l = []).
Proof. exact create_says. Qed.
Print Assumptions C126_replaced.
(** No other call says any of this. *)
Theorem C126_elsewhere : forall f o w r w' l, In f own_formats -> ~ speaks f o -> l_step o w = (r, w', l) -> with_format f l = [].
Proof. exact elsewhere. Qed.
Print Assumptions C126_elsewhere.
(** A session opened with options that are not zero; a datagram with one byte too many;
    a connection whose target gave one of the two identifiers itself. *)
Example C126_example :
  (exists w' l, l_step (OpOpen "h" "p" "q") (w0 [RxData (request 0x65 9 (registration 1 3))]) = (Ret RUnit, w', l) /\
     with_format msg_opened l = [mkLog Inform msg_opened [AU32 9]] /\ logged Warn l) /\
  (exists w' l, l_step (OpOpen "h" "p" "q") (w0 [RxData (registered 9)]) = (Ret RUnit, w', l) /\ filter alarming l = []) /\
  (exists p w' l, l_step OpReceiveIO (w9 [] [RxData (cpf [(0xB1, [x01; x02])] ++ [x07])]) = (Ret (RItems p), w', l) /\
     with_format msg_leftover l = [mkLog Warn msg_leftover [ASize 9; ASize 8]]) /\
  (exists w' l, l_step (OpCreate ci0 ci0) (w9 [RxData (explicit_reply 9 0xDB 0 (forward_open_reply 100 207 7 0x195 0x4321 1000 2000 x00 []))] []) = (Ret (RNumber 0), w', l) /\
     with_format msg_o2t l = [] /\ with_format msg_t2o l = [mkLog Inform msg_t2o [AU32 101; AU32 207]]).
Proof.
  split; [eexists; eexists; split; [vm_compute; reflexivity|]; split; [vm_compute; reflexivity|]|].
  { exists (mkLog Warn "Registration message included non-zero options flags: %u" [ASmall 3]). split; [|reflexivity]. cbn. repeat (first [left; reflexivity|right]). }
  split; [eexists; eexists; split; [vm_compute; reflexivity|]; vm_compute; reflexivity|].
  split; [eexists; eexists; eexists; split; [vm_compute; reflexivity|]; vm_compute; reflexivity|].
  eexists; eexists; split; [vm_compute; reflexivity|]; split; vm_compute; reflexivity.
Qed.

(** ** C127: The log says that the session is closed exactly when it is *)
(** A close that returns has said so, and the session has no handle any more; a close
    that could not send its message has not. *)
Theorem C127_closed_partial : forall w r w' l, rbuf_ok w -> l_step OpClose w = (r, w', l) ->
  ((exists v, r = Ret v) -> with_format msg_closed l = [mkLog Inform msg_closed []] /\ se_id (w_se w') = 0) /\
  (sent (w_ctl w) (unregister (se_id (w_se w))) = None -> with_format msg_closed l = []).
Proof. exact close_says_partial. Qed.
Print Assumptions C127_closed_partial.
(** The line comes before the sockets are closed: when one of them cannot be closed it
    has been said, though close raises and the session keeps its handle. *)
Theorem C127_early_refuted : forall w r w' l n, rbuf_ok w -> l_step OpClose w = (r, w', l) ->
  sent (w_ctl w) (unregister (se_id (w_se w))) = Some n -> closed (w_ctl w) (w_io w) = false ->
  with_format msg_closed l = [mkLog Inform msg_closed []] /\ (exists s, r = Throw SystemError s) /\ w_se w' = w_se w.
Proof. exact close_says_early. Qed.
Print Assumptions C127_early_refuted.
Example C127_example :
  (exists w' l, l_step OpClose (w9 [] []) = (Ret RUnit, w', l) /\ with_format msg_closed l = [mkLog Inform msg_closed []]) /\
  (let w := set_se (mkSess 9 0x195 0x4321 7 100 []) (session_make [] (mkSock [] [] [] [true]) (mkSock [] [] [] []) 0x195 0x4321 7 100) in
   rbuf_ok w /\ exists s w' l, l_step OpClose w = (Throw SystemError s, w', l) /\ In (mkLog Inform msg_closed []) l /\ se_id (w_se w') = 9).
Proof.
  split; [eexists; eexists; split; vm_compute; reflexivity|]. cbv zeta. split; [exact (rbuf_make [] _ _ _ _ _ _)|].
  eexists. eexists. eexists. split; [vm_compute; reflexivity|]. split; [cbn; repeat (first [left; reflexivity|right])|reflexivity].
Qed.
