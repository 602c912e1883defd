(** Attributes, open, close. *)
From Verif Require Export PSession.

(** ** Attributes *)

Lemma get_attribute w k junk c i a : rbuf_ok w -> c < 256 -> i < 256 -> a < 256 ->
  let req := get_request (se_id (w_se w)) c i a in
  exists o w', getSingleAttribute k junk c i a w = (o, w') /\ exchanged w req w' /\
  match reply_of (w_ctl w) req with
  | NoSend | NoReply => exists s, o = Throw SystemError s
  | Blocked => o = Stuck
  | Reply got =>
      let id := se_id (w_se w) in
      (exists sv ad v rest, answers id got sv 0 ad (le k v ++ rest) /\ fits k v /\ le k v ++ rest <> [] /\ o = Ret v) \/
      (exists sv ad d s, answers id got sv 0 ad d /\ 0 < len d < N.of_nat k /\ o = Throw LengthError s) \/
      ((crashes id got \/ exists sv ad, answers id got sv 0 ad []) /\ o = Undef NullDeref) \/
      ((forall sv ad d, ~ answers id got sv 0 ad d) /\ ~ crashes id got /\ exists s, o = Throw RuntimeError s)
  end.
Proof.
  intros B Hc Hi Ha req. unfold getSingleAttribute, getSingleAttributeSerializable.
  rewrite path_cia_of by assumption.
  destruct (rr_command w 0x0E false [SClass c; SInstance i; SAttribute a] None [] B) as (o & w' & E & X & O); [reflexivity|reflexivity|].
  change (request 0x6F (se_id (w_se w)) (rr_request (u8 0x0E) (epath false [SClass c; SInstance i; SAttribute a]) []))
    with req in X, O. rewrite E. unfold rr_outcome in O.
  destruct (reply_of (w_ctl w) req) as [| | |got]; cbv zeta.
  - destruct O as [s ->]. do 2 eexists. split; [reflexivity|]. split; [exact X|]. eauto.
  - subst o. do 2 eexists. split; [reflexivity|]. split; [exact X|]. reflexivity.
  - destruct O as [s ->]. do 2 eexists. split; [reflexivity|]. split; [exact X|]. eauto.
  - destruct O as [(sv & ad & q & resp & A & -> & _ & _ & _ & Hq)|[[Cr ->]|(N & Nc & s & ->)]].
    + destruct q as [|b q0].
      * destruct (ms_data (rr_ext resp)) as [s|]; [destruct Hq as [Hq _]; congruence|]. cbn [m_copy].
        do 2 eexists. split; [reflexivity|]. split; [exact X|]. right; right; left. split; [right; eauto|reflexivity].
      * set (q := b :: q0) in *.
        destruct (copy_local_holds (prim_cls k) (ms_data (rr_ext resp)) q w' junk Hq) as (v & R & ->); [discriminate|reflexivity|].
        unfold run_reader. change (deserialize_len (prim_cls k) (len q)) with (prim_des k). unfold prim_des.
        destruct (buf_uint k (fun t => t) (fun x _ => x) (w_mem w') v 0 junk q R) as [[L E1]|(x & rest & Eb & Fx & _ & E1)];
          rewrite E1; clear E1; rewrite set_mem_same; do 2 eexists; (split; [reflexivity|]); (split; [exact X|]).
        -- right; left. exists sv, ad, q. eexists. split; [exact A|]. split; [|reflexivity]. split; [|exact L]. unfold q. rewrite len_cons. lia.
        -- left. exists sv, ad, x, rest. rewrite <- Eb. split; [exact A|]. split; [exact Fx|]. split; [discriminate|reflexivity].
    + do 2 eexists. split; [reflexivity|]. split; [exact X|]. right; right; left. auto.
    + do 2 eexists. split; [reflexivity|]. split; [exact X|]. right; right; right. split; [exact N|]. split; [exact Nc|]. eauto.
Qed.

Lemma set_attribute w c i a d data : rbuf_ok w -> c < 256 -> i < 256 -> a < 256 -> carries_opt (w_mem w) d data ->
  let req := set_request (se_id (w_se w)) c i a data in
  exists o w', setSingleAttributeSerializable c i a d w = (o, w') /\ exchanged w req w' /\
  match reply_of (w_ctl w) req with
  | NoSend | NoReply => exists s, o = Throw SystemError s
  | Blocked => o = Stuck
  | Reply got =>
      let id := se_id (w_se w) in
      ((exists sv ad q, answers id got sv 0 ad q) /\ o = Ret tt) \/
      (crashes id got /\ o = Undef NullDeref) \/
      ((forall sv ad q, ~ answers id got sv 0 ad q) /\ ~ crashes id got /\ exists s, o = Throw RuntimeError s)
  end.
Proof.
  intros B Hc Hi Ha C req. unfold setSingleAttributeSerializable. rewrite path_cia_of by assumption.
  destruct (rr_command w 0x10 false [SClass c; SInstance i; SAttribute a] d data B) as (o & w' & E & X & O); [reflexivity|assumption|].
  change (request 0x6F (se_id (w_se w)) (rr_request (u8 0x10) (epath false [SClass c; SInstance i; SAttribute a]) data))
    with req in X, O. unfold mbind. rewrite E. unfold rr_outcome in O.
  destruct (reply_of (w_ctl w) req) as [| | |got]; cbv zeta.
  - destruct O as [s ->]. do 2 eexists. split; [reflexivity|]. split; [exact X|]. eauto.
  - subst o. do 2 eexists. split; [reflexivity|]. split; [exact X|]. reflexivity.
  - destruct O as [s ->]. do 2 eexists. split; [reflexivity|]. split; [exact X|]. eauto.
  - destruct O as [(sv & ad & q & resp & A & -> & _)|[[Cr ->]|(N & Nc & s & ->)]].
    + do 2 eexists. split; [reflexivity|]. split; [exact X|]. left. split; [eauto|reflexivity].
    + do 2 eexists. split; [reflexivity|]. split; [exact X|]. right; left. auto.
    + do 2 eexists. split; [reflexivity|]. split; [exact X|]. right; right. split; [exact N|]. split; [exact Nc|]. eauto.
Qed.

(** ** Closing both sockets *)
Lemma close_both_spec w : exists w', close_both w = ((if closed (w_ctl w) (w_io w) then Ret tt else Throw SystemError "close"), w') /\
  w_se w' = w_se w /\ w_rbuf w' = w_rbuf w /\ w_mem w' = w_mem w /\ w_net w' = w_net w ++ closing (w_ctl w) (w_io w) /\
  so_recv (w_ctl w') = so_recv (w_ctl w) /\ so_send (w_ctl w') = so_send (w_ctl w) /\ so_recv (w_io w') = so_recv (w_io w).
Proof.
  unfold close_both, mbind, closed, closing, close_fails. unfold sock_close at 1. cbn [get_sock].
  destruct (so_close (w_ctl w)) as [|[|] l]; cbn [negb andb].
  all: try (eexists; split; [reflexivity|]; repeat split).
  all: unfold sock_close; cbn [get_sock emit w_io set_sock w_ctl];
    destruct (so_close (w_io w)) as [|[|] l']; cbn [negb];
    eexists; (split; [reflexivity|]); repeat split; cbn; rewrite <- ?app_assoc; reflexivity.
Qed.

(** ** close, destructor *)
Lemma session_close_spec w : rbuf_ok w -> exists o w', session_close w = (o, w') /\
  w_rbuf w' = w_rbuf w /\ rbuf_ok w' /\ mem_kept w w' /\
  match sent (w_ctl w) (unregister (se_id (w_se w))) with
  | None => (exists s, o = Throw SystemError s) /\ w_se w' = w_se w /\ w_io w' = w_io w /\
            w_net w' = w_net w ++ [ESend Ctl (unregister (se_id (w_se w))) None]
  | Some n =>
      w_net w' = w_net w ++ [ESend Ctl (unregister (se_id (w_se w))) (Some n)] ++ closing (w_ctl w) (w_io w) /\
      if closed (w_ctl w) (w_io w) then o = Ret tt /\ w_se w' = set_id 0 (w_se w)
      else (exists s, o = Throw SystemError s) /\ w_se w' = w_se w
  end.
Proof.
  intros B. unfold session_close. erewrite mbind_ret; [|reflexivity]. unfold mbind at 1.
  rewrite (send_ctl _ (unregister (se_id (w_se w))) w) by apply ep_make0_carries.
  set (w1 := mkW _ _ _ _ _ _). destruct (rbuf_grow w w1 B eq_refl eq_refl) as [B1 K1].
  destruct (sent (w_ctl w) (unregister (se_id (w_se w)))) as [n|] eqn:S.
  - unfold mbind. destruct (close_both_spec w1) as (w2 & -> & Hs & Hr & Hm & Hn & _).
    change (closed (w_ctl w1) (w_io w1)) with (closed (w_ctl w) (w_io w)).
    change (closing (w_ctl w1) (w_io w1)) with (closing (w_ctl w) (w_io w)) in Hn.
    assert (B2 : rbuf_ok w2) by (destruct B1 as (bl & H1 & H2); exists bl; rewrite Hm, Hr; auto).
    assert (K2 : mem_kept w w2) by (intros b x Hb Hx; rewrite Hm; apply K1; assumption).
    assert (N2 : w_net w2 = w_net w ++ [ESend Ctl (unregister (se_id (w_se w))) (Some n)] ++ closing (w_ctl w) (w_io w))
      by (rewrite Hn; unfold w1; cbn [w_net]; rewrite <- app_assoc; reflexivity).
    destruct (closed (w_ctl w) (w_io w)).
    + do 2 eexists. split; [reflexivity|]. split; [exact Hr|]. split; [exact B2|]. split; [exact K2|]. split; [exact N2|].
      split; [reflexivity|]. cbn [w_se set_se]. rewrite Hs. reflexivity.
    + do 2 eexists. split; [reflexivity|]. split; [exact Hr|]. split; [exact B2|]. split; [exact K2|]. split; [exact N2|].
      split; [eexists; reflexivity|]. exact Hs.
  - do 2 eexists. split; [reflexivity|]. do 3 (split; [first [reflexivity|assumption]|]).
    split; [eexists; reflexivity|]. repeat split.
Qed.
Lemma session_destroy_spec w : rbuf_ok w -> exists w', session_destroy w = (Ret tt, w') /\
  if se_id (w_se w) =? 0 then w' = w
  else exists n tail, w_net w' = w_net w ++ [ESend Ctl (unregister (se_id (w_se w))) n] ++ tail /\
       (n = None -> tail = []) /\ (n <> None -> tail = closing (w_ctl w) (w_io w)).
Proof.
  intros B. unfold session_destroy. destruct (N.eqb_spec (se_id (w_se w)) 0) as [Z|Z]; cbn [negb]; [eauto|].
  destruct (session_close_spec w B) as (o & w' & -> & _ & _ & _ & H).
  destruct (sent (w_ctl w) (unregister (se_id (w_se w)))) as [n|] eqn:S.
  - destruct H as [Hn H]. destruct (closed (w_ctl w) (w_io w)).
    + destruct H as [-> _]. eexists. split; [reflexivity|]. exists (Some n), (closing (w_ctl w) (w_io w)). split; [exact Hn|]. split; [discriminate|reflexivity].
    + destruct H as [[s ->] _]. eexists. split; [reflexivity|]. exists (Some n), (closing (w_ctl w) (w_io w)). split; [exact Hn|]. split; [discriminate|reflexivity].
  - destruct H as ([s ->] & _ & _ & Hn). eexists. split; [reflexivity|]. exists None, []. rewrite app_nil_r. split; [exact Hn|]. split; [reflexivity|congruence].
Qed.

(** ** open *)

Lemma mem_kept_trans a b c : w_rbuf b = w_rbuf a -> mem_kept a b -> mem_kept b c -> mem_kept a c.
Proof. intros R H1 H2 x y N H. apply H2; [congruence|]. apply H1; assumption. Qed.
Lemma rbuf_ok_eq w w' : w_mem w' = w_mem w -> w_rbuf w' = w_rbuf w -> rbuf_ok w -> rbuf_ok w'.
Proof. intros E1 E2 (bl & H). exists bl. rewrite E1, E2. exact H. Qed.
Lemma mem_kept_eq w w' : w_mem w' = w_mem w -> mem_kept w w'.
Proof. intros E b x _ H. rewrite E. exact H. Qed.

Lemma session_open_spec w h p q : rbuf_ok w -> exists o w', session_open h p q w = (o, w') /\ open_spec_at w h p q o w'.
Proof.
  intros B. unfold session_open, open_spec_at. unfold mbind at 1, sock_open at 1. cbn [get_sock].
  fold (open_fails (w_ctl w)). destruct (open_fails (w_ctl w)) eqn:F1; cbn [negb].
  { do 2 eexists. split; [reflexivity|]. split; [reflexivity|]. split; [exact B|]. split; [apply mem_kept_eq; reflexivity|].
    split; [reflexivity|]. split; [eexists; reflexivity|]. reflexivity. }
  unfold mbind at 1, sock_open at 1. cbn [get_sock emit set_sock w_io w_ctl w_mem w_net w_se w_rbuf].
  fold (open_fails (w_io w)). destruct (open_fails (w_io w)) eqn:F2; cbn [negb].
  { do 2 eexists. split; [reflexivity|]. split; [reflexivity|]. split; [exact B|]. split; [apply mem_kept_eq; reflexivity|].
    split; [cbn; rewrite <- app_assoc; reflexivity|]. split; [eexists; reflexivity|]. reflexivity. }
  match goal with |- exists o w', ?f ?x = (o, w') /\ _ => 
    change x with (mkW (w_mem w) (mkSock (tl (so_open (w_ctl w))) (so_send (w_ctl w)) (so_recv (w_ctl w)) (so_close (w_ctl w)))
      (mkSock (tl (so_open (w_io w))) (so_send (w_io w)) (so_recv (w_io w)) (so_close (w_io w)))
      ((w_net w ++ [EOpen Ctl h p true]) ++ [EOpen Io h q true]) (w_se w) (w_rbuf w)) end.
  set (w1 := mkW _ _ _ _ _ _).
  assert (B1 : rbuf_ok w1) by (apply (rbuf_ok_eq w w1); [reflexivity|reflexivity|exact B]).
  destruct (ep_make_carries (w_mem w1) EIP_CMD_REGISTER_SESSION 0 (Some (rg_ser rg_make)) (registration 1 0)) as (qk & Eq & _ & Hh & Cq);
    [apply (rg_carries (w_mem w1) rg_make)|].
  erewrite mbind_ret; [|unfold mout; rewrite Eq; reflexivity].
  destruct (command w1 qk register_request B1 Cq) as (o & w' & E & X & O). rewrite Hh in O. cbn [h_command] in O.
  change (u16 EIP_CMD_REGISTER_SESSION) with 0x65 in O. unfold command_outcome in O. unfold open_outcome.
  destruct X as (Xs & Xr & Xi & Xb & Xk & Xn & Xc).
  assert (T : talk (w_ctl w1) register_request = (events (w_ctl w) register_request, reply_of (w_ctl w) register_request,
                mkSock (tl (so_open (w_ctl w))) (so_send (left_of (w_ctl w) register_request)) (so_recv (left_of (w_ctl w) register_request)) (so_close (w_ctl w)))).
  { unfold events, reply_of, left_of, talk, sent, w1. cbn [w_ctl so_send so_recv so_open so_close].
    destruct (so_send (w_ctl w)) as [|[|n|] l], (so_recv (w_ctl w)) as [|[d|] rs]; reflexivity. }
  unfold reply_of in O. unfold events in Xn. unfold left_of in Xc. rewrite T in O, Xn, Xc. cbn [fst snd] in O, Xn, Xc.
  assert (K : mem_kept w w') by (intros b x Nb Hx; apply Xk; assumption).
  change (se_id (w_se w1)) with (se_id (w_se w)) in O. change (w_se w1) with (w_se w) in Xs. change (w_rbuf w1) with (w_rbuf w) in Xr.
  assert (NN : w_net w' = w_net w ++ [EOpen Ctl h p true; EOpen Io h q true] ++ events (w_ctl w) register_request)
    by (rewrite Xn; unfold w1; cbn [w_net]; rewrite <- !app_assoc; reflexivity).
  (* closing after a rejected reply *)
  assert (CB : forall s', exists o' w'', (do* close_both in @mthrow encap_packet RuntimeError s') w' = (o', w'') /\
     w_se w'' = w_se w /\ w_rbuf w'' = w_rbuf w /\ rbuf_ok w'' /\ mem_kept w w'' /\
     w_net w'' = w_net w ++ [EOpen Ctl h p true; EOpen Io h q true] ++ events (w_ctl w) register_request ++ closing (w_ctl w) (w_io w) /\
     if closed (w_ctl w) (w_io w) then o' = Throw RuntimeError s' else o' = Throw SystemError "close").
  { intros s'. unfold mbind. destruct (close_both_spec w') as (w2 & -> & Hs & Hr & Hm & Hn & _).
    assert (C1 : closed (w_ctl w') (w_io w') = closed (w_ctl w) (w_io w)) by (rewrite Xc, Xi; reflexivity).
    assert (C2 : closing (w_ctl w') (w_io w') = closing (w_ctl w) (w_io w)) by (rewrite Xc, Xi; reflexivity).
    rewrite C1. rewrite C2, NN in Hn. repeat rewrite <- app_assoc in Hn.
    assert (B2 : rbuf_ok w2) by (apply (rbuf_ok_eq w' w2); [exact Hm|congruence|exact Xb]).
    assert (K2 : mem_kept w w2) by (intros b x Nb Hx; rewrite Hm; apply K; assumption).
    destruct (closed (w_ctl w) (w_io w)); do 2 eexists; (split; [reflexivity|]); (split; [congruence|]); (split; [congruence|]); auto. }
  unfold mbind at 1, mcatch at 1. rewrite E. clear E T.
  destruct (reply_of (w_ctl w) register_request) as [| | |got].
  - destruct O as [s ->]. cbn [is_a]. do 2 eexists. split; [reflexivity|]. split; [exact Xr|]. split; [exact Xb|]. split; [exact K|].
    exists []. rewrite app_nil_r. split; [|exact NN]. split; [eauto|]. split; [reflexivity|exact Xs].
  - subst o. do 2 eexists. split; [reflexivity|]. split; [exact Xr|]. split; [exact Xb|]. split; [exact K|].
    exists []. rewrite app_nil_r. split; [|exact NN]. split; [reflexivity|]. split; [reflexivity|exact Xs].
  - destruct O as [s ->]. cbn [is_a]. do 2 eexists. split; [reflexivity|]. split; [exact Xr|]. split; [exact Xb|]. split; [exact K|].
    exists []. rewrite app_nil_r. split; [|exact NN]. split; [eauto|]. split; [reflexivity|exact Xs].
  - destruct O as [(ses & pl & pk & F & Hm & -> & Hs & Hp)|[N (e & s & Ie & ->)]].
    + assert (RG : forall ses', registers (se_id (w_se w)) got ses' -> ses' = ses /\ pl <> [] /\ (len pl < 4 \/ exists op rest, pl = registration 1 op ++ rest)).
      { intros ses' (pl' & F' & _ & Z & V). destruct (reply_frame_inj _ _ _ _ _ _ _ F F') as (_ & <- & <-). auto. }
      assert (RE : registers_empty (se_id (w_se w)) got -> pl = []).
      { intros (ses' & F' & _). destruct (reply_frame_inj _ _ _ _ _ _ _ F F') as (_ & _ & <-). reflexivity. }
      unfold mbind at 1, mcatch at 1. unfold mbind at 1, m_copy_local at 1.
      destruct pl as [|b pl0].
      * destruct (ep_payload pk) as [s|]; [destruct Hp as [Hp _]; congruence|]. cbn [m_copy].
        do 2 eexists. split; [reflexivity|]. split; [exact Xr|]. split; [exact Xb|]. split; [exact K|].
        exists []. rewrite app_nil_r. split; [|exact NN]. right; left. split; [exists ses; auto|]. auto.
      * set (pl := b :: pl0) in *.
        destruct (copy_local_holds rg_cls (ep_payload pk) pl w' rg_make Hp) as (v & R & ->); [discriminate|reflexivity|].
        unfold run_reader. change (deserialize_len rg_cls (len pl)) with rg_deserialize.
        destruct (rg_decode (w_mem w') v 0 rg_make pl R) as [[L (r & g & D)]|(ve & op & rest & Fv & Fo & Ep & D)];
          rewrite D; clear D; rewrite set_mem_same.
        -- cbn [is_a]. unfold mbind, mret, mupd_se, mupd.
           do 2 eexists. split; [reflexivity|]. split; [exact Xr|]. split; [exact Xb|]. split; [exact K|].
           exists []. rewrite app_nil_r. split; [|exact NN]. left. exists ses. split.
           ++ exists pl. split; [exact F|]. split; [exact Hm|]. split; [discriminate|]. left. exact L.
           ++ split; [reflexivity|]. split; [reflexivity|]. cbn [w_se set_se]. rewrite Xs, Hs. reflexivity.
        -- unfold mret at 1. cbn [rg_version]. unfold EIP_PROTOCOL_VERSION.
           destruct (N.eqb_spec ve 1) as [->|Nv]; cbn [negb].
           ++ unfold mbind, mret, mupd_se, mupd.
              do 2 eexists. split; [reflexivity|]. split; [exact Xr|]. split; [exact Xb|]. split; [exact K|].
              exists []. rewrite app_nil_r. split; [|exact NN]. left. exists ses. split.
              ** exists pl. split; [exact F|]. split; [exact Hm|]. split; [discriminate|]. right. eauto.
              ** split; [reflexivity|]. split; [reflexivity|]. cbn [w_se set_se]. rewrite Xs, Hs. reflexivity.
           ++ assert (NR : forall ses', ~ registers (se_id (w_se w)) got ses').
              { intros ses' H. destruct (RG _ H) as (_ & _ & [L|(op' & rest' & X)]).
                - rewrite Ep in L. unfold registration in L. lens. lia.
                - rewrite Ep in X. unfold registration in X. repeat rewrite <- app_assoc in X. apply le_app_inj in X; [|assumption|reflexivity].
                  destruct X; congruence. }
              destruct (CB "Received wrong Ethernet IP Protocol Version on registration"%string) as (o' & w'' & E2 & Hs2 & Hr2 & Hb2 & Hk2 & Hn2 & Ho2).
              unfold mbind in E2 |- *. destruct (close_both w') as [[x|ce se|u|] wx]; 
                try (injection E2 as <- <-); 
                try (destruct (closed (w_ctl w) (w_io w)); discriminate).
              ** do 2 eexists. split; [reflexivity|]. split; [exact Hr2|]. split; [exact Hb2|]. split; [exact Hk2|].
                 exists (closing (w_ctl w) (w_io w)). split; [|exact Hn2]. right; right. split; [exact NR|]. split; [intros H; apply RE in H; discriminate|].
                 split; [exact Hs2|]. split; [reflexivity|]. destruct (closed (w_ctl w) (w_io w)); [eexists; reflexivity|discriminate].
              ** do 2 eexists. split; [reflexivity|]. split; [exact Hr2|]. split; [exact Hb2|]. split; [exact Hk2|].
                 exists (closing (w_ctl w) (w_io w)). split; [|exact Hn2]. right; right. split; [exact NR|]. split; [intros H; apply RE in H; discriminate|].
                 split; [exact Hs2|]. split; [reflexivity|]. destruct (closed (w_ctl w) (w_io w)); injection Ho2 as -> ->; eexists; reflexivity.
    + assert (NR : forall ses', ~ registers (se_id (w_se w)) got ses') by (intros ses' (pl & F & Hm & _); exact (N _ _ F Hm)).
      assert (NE : ~ registers_empty (se_id (w_se w)) got) by (intros (ses' & F & Hm); exact (N _ _ F Hm)).
      assert (FIN : forall s', exists o1 w1, (do* close_both in @mthrow encap_packet RuntimeError s') w' = (o1, w1) /\
         exists o2, (match (o1, w1) with (Ret a, w0) => (Ret tt, w0) | (Throw c s0, w0) => (Throw c s0, w0) | (Undef u, w0) => (Undef u, w0) | (Stuck, w0) => (Stuck, w0) end) = (o2, w1) /\
         (forall a, o1 <> Ret a) /\
         w_rbuf w1 = w_rbuf w /\ rbuf_ok w1 /\ mem_kept w w1 /\ exists tail,
          ((forall ses', ~ registers (se_id (w_se w)) got ses') /\ ~ registers_empty (se_id (w_se w)) got /\
           w_se w1 = w_se w /\ tail = closing (w_ctl w) (w_io w) /\
           if closed (w_ctl w) (w_io w) then exists s, o2 = Throw RuntimeError s else exists s, o2 = Throw SystemError s) /\
          w_net w1 = w_net w ++ [EOpen Ctl h p true; EOpen Io h q true] ++ events (w_ctl w) register_request ++ tail).
      { intros s'. destruct (CB s') as (o' & w'' & E2 & Hs2 & Hr2 & Hb2 & Hk2 & Hn2 & Ho2). exists o', w''. split; [exact E2|].
        destruct (closed (w_ctl w) (w_io w)); subst o'; eexists; (split; [reflexivity|]); (split; [discriminate|]);
          (split; [exact Hr2|]); (split; [exact Hb2|]); (split; [exact Hk2|]); eexists; (split; [|exact Hn2]); split; auto; split; auto; split; auto; split; eauto. }
      rewrite Ie. destruct (is_a e LengthError).
      * destruct (FIN "Invalid response received registering session"%string) as (o1 & wf & -> & o2 & E2 & NRet & H1 & H2 & H3 & tail & H4 & H5).
        destruct o1; try (exfalso; eapply NRet; reflexivity); injection E2 as <-; do 2 eexists; (split; [reflexivity|]);
          (split; [exact H1|]); (split; [exact H2|]); (split; [exact H3|]); exists tail; split; auto.
      * destruct (FIN "Error in registration response"%string) as (o1 & wf & -> & o2 & E2 & NRet & H1 & H2 & H3 & tail & H4 & H5).
        destruct o1; try (exfalso; eapply NRet; reflexivity); injection E2 as <-; do 2 eexists; (split; [reflexivity|]);
          (split; [exact H1|]); (split; [exact H2|]); (split; [exact H3|]); exists tail; split; auto.
Qed.
