(** Session operations: exact outcome of every exchange. *)
From Verif Require Export PSend.

(** ** Uniqueness of the byte-level descriptions *)
Lemma reply_frame_inj got c1 s1 p1 c2 s2 p2 : reply_frame got c1 s1 p1 -> reply_frame got c2 s2 p2 ->
  c1 = c2 /\ s1 = s2 /\ p1 = p2.
Proof.
  intros (a & b & c & d & r & F & E) (a' & b' & c' & d' & r' & F' & E'). rewrite E in E'.
  apply frame_inj in E'; [|assumption..]. destruct E' as (X & -> & _). injection X as -> -> _ _ _ _. auto.
Qed.
Lemma carries_unconnected_inj p d d' : carries_unconnected p d -> carries_unconnected p d' -> d = d'.
Proof.
  intros (i & t & xs & r & O & E & U) (i' & t' & xs' & r' & O' & E' & U'). rewrite E in E'.
  apply rr_inj in E'; [|assumption..]. destruct E' as [X _]. injection X as <- <- <-.
  destruct U as [tl ->], U' as [tl' X]. congruence.
Qed.
Lemma rr_reply_inj p sv st a d sv' st' a' d' : rr_reply p sv st a d -> rr_reply p sv' st' a' d' ->
  sv = sv' /\ st = st' /\ a = a' /\ d = d'.
Proof.
  intros (rs & q & C & O & E) (rs' & q' & C' & O' & E'). pose proof (carries_unconnected_inj _ _ _ C C') as X. subst q q'.
  apply router_reply_inj in X; [|assumption..]. injection X as -> -> -> -> ->. auto.
Qed.
Lemma rr_reply_nonempty p sv st a d : rr_reply p sv st a d -> p <> [].
Proof. intros (rs & q & (i & t & xs & r & _ & -> & _) & _). unfold rr. destruct (le 4 i) eqn:E; [apply (f_equal len) in E; rewrite len_le in E; discriminate|discriminate]. Qed.
Lemma matches_dec id ses : matches id ses \/ ~ matches id ses.
Proof.
  unfold matches. destruct (N.eq_dec id 0) as [->|H], (N.eq_dec ses 0) as [->|H']; try (destruct (N.eq_dec ses id); lia);
    try (right; lia); try (left; lia).
Qed.

(** ** check_packet *)
Lemma check_ok p cmd w : h_command (ep_header p) = cmd -> matches (se_id (w_se w)) (h_session (ep_header p)) ->
  check_packet p cmd w = (Ret tt, w).
Proof.
  intros <- H. unfold check_packet. rewrite N.eqb_refl. cbn [negb].
  destruct H as [[-> H]|[H ->]].
  - cbn [N.eqb andb]. destruct (N.eqb_spec (h_session (ep_header p)) 0); [congruence|]. reflexivity.
  - destruct (N.eqb_spec (se_id (w_se w)) 0); [congruence|]. cbn [andb negb]. rewrite N.eqb_refl. reflexivity.
Qed.
Lemma check_bad p cmd w : (h_command (ep_header p) = cmd -> ~ matches (se_id (w_se w)) (h_session (ep_header p))) ->
  exists s, check_packet p cmd w = (Throw LogicError s, w).
Proof.
  intros H. unfold check_packet. destruct (N.eqb_spec (h_command (ep_header p)) cmd) as [E|E]; cbn [negb]; [|eexists; reflexivity].
  specialize (H E). unfold matches in H.
  destruct (N.eqb_spec (se_id (w_se w)) 0) as [Z|Z], (N.eqb_spec (h_session (ep_header p)) 0) as [Y|Y]; cbn [andb negb]; try (eexists; reflexivity).
  - exfalso. apply H. left. auto.
  - destruct (N.eqb_spec (h_session (ep_header p)) (se_id (w_se w))) as [X|X]; cbn [negb]; [|eexists; reflexivity].
    congruence.
  - destruct (N.eqb_spec (h_session (ep_header p)) (se_id (w_se w))) as [X|X]; cbn [negb]; [|eexists; reflexivity].
    exfalso. apply H. right. auto.
Qed.

(** ** Sending on the control socket *)
Lemma send_ctl s bs w : carries (w_mem w) s bs ->
  sock_send_ser Ctl s w =
  (match sent (w_ctl w) bs with Some n => Ret n | None => Throw SystemError "send" end,
   mkW (w_mem w ++ [None]) (mkSock (so_open (w_ctl w)) (tl (so_send (w_ctl w))) (so_recv (w_ctl w)) (so_close (w_ctl w)))
       (w_io w) (w_net w ++ [ESend Ctl bs (sent (w_ctl w) bs)]) (w_se w) (w_rbuf w)).
Proof.
  intros C. rewrite (send_ser Ctl s bs w C). unfold sock_send, sent. cbn [get_sock].
  destruct (so_send (w_ctl w)) as [|[|n|] l]; reflexivity.
Qed.

Lemma rbuf_grow w w' : rbuf_ok w -> w_mem w' = w_mem w ++ [None] -> w_rbuf w' = w_rbuf w -> rbuf_ok w' /\ mem_kept w w'.
Proof.
  intros (bl & H & L) E R. split.
  - exists bl. rewrite E, R. split; [|assumption]. rewrite nth_error_app1; [assumption|]. eapply nth_error_lt; eauto.
  - intros b x _ Hb. rewrite E. rewrite nth_error_app1; [assumption|]. eapply nth_error_lt; eauto.
Qed.

(** ** sendCommand *)
Lemma command w req bs : rbuf_ok w -> carries (w_mem w) (ep_ser req) bs ->
  exists o w', sendCommand req w = (o, w') /\ exchanged w bs w' /\ command_outcome w (h_command (ep_header req)) bs o w'.
Proof.
  intros B C. unfold sendCommand, sc_send. unfold mbind at 1. rewrite (send_ctl _ _ _ C).
  unfold command_outcome, exchanged, events, reply_of, left_of, talk.
  set (w1 := mkW _ _ _ _ _ _).
  destruct (rbuf_grow w w1 B eq_refl eq_refl) as [B1 K1].
  destruct (sent (w_ctl w) bs) as [n|] eqn:S; cbn [fst snd].
  2:{ do 2 eexists. split; [reflexivity|]. split; [|eexists; reflexivity]. do 4 (split; [first [reflexivity|assumption]|]). split; [assumption|]. split; reflexivity. }
  unfold sc_recv.
  destruct (so_recv (w_ctl w)) as [|[got|] rs] eqn:Rv; cbn [fst snd].
  - unfold mbind. rewrite (recv_block Ctl w1) by reflexivity. do 2 eexists. split; [reflexivity|]. split; [|reflexivity].
    do 4 (split; [first [reflexivity|assumption]|]). split; [assumption|]. split; [reflexivity|]. reflexivity.
  - destruct (recv_data Ctl w1 got rs B1) as (m' & E & R & (bl & Hb & Lb) & Ko & Ln); [reflexivity|].
    unfold mbind at 1. rewrite E. set (g := take 4096 got) in *.
    set (w2 := emit _ _). unfold sc_parse, mbind at 1, m_decode.
    change (recv_view w2) with (recv_view w1). change (w_mem w2) with m'.
    assert (EX : exchanged w bs (set_mem m' w2)).
    { do 3 (split; [reflexivity|]). split; [exists bl; split; assumption|]. split.
      - intros b x Nb Hx. cbn [w_mem set_mem]. rewrite Ko by exact Nb. apply K1; assumption.
      - unfold events, left_of, talk. rewrite S, Rv. cbn [fst snd]. unfold w2. cbn [w_net w_ctl emit set_mem with_recv set_sock w1].
        rewrite <- app_assoc. split; reflexivity. }
    unfold exchanged, events, left_of, talk in EX. rewrite S, Rv in EX. cbn [fst snd] in EX.
    destruct (packet_decode m' _ 0 (ep_make0 0 0) _ R) as [(cmd & ses & st & c0 & c1 & o & pl & rest & p & F & Eg & D & _ & Hh & Hp)|[N (s & r & p & D)]].
    + rewrite D. cbn [fst]. unfold mbind at 1.
      destruct (N.eq_dec cmd (h_command (ep_header req))) as [Ec|Ec].
      * destruct (matches_dec (se_id (w_se w)) ses) as [Hm|Hm].
        -- rewrite (check_ok p); [|rewrite Hh; exact Ec|rewrite Hh; exact Hm].
           do 2 eexists. split; [reflexivity|]. split; [exact EX|]. left. exists ses, pl, p. subst cmd.
           split; [do 5 eexists; split; [exact F|exact Eg]|]. split; [exact Hm|]. split; [reflexivity|]. rewrite Hh. split; [reflexivity|exact Hp].
        -- destruct (check_bad p (h_command (ep_header req)) (set_mem m' w2)) as [s Ck]; [rewrite Hh; intros _; exact Hm|].
           rewrite Ck. do 2 eexists. split; [reflexivity|]. split; [exact EX|]. right. split.
           ++ intros ses' pl' H'. assert (H : reply_frame g cmd ses pl) by (do 5 eexists; split; [exact F|exact Eg]).
              destruct (reply_frame_inj _ _ _ _ _ _ _ H H') as (_ & <- & _). exact Hm.
           ++ do 2 eexists. split; [|reflexivity]. reflexivity.
      * destruct (check_bad p (h_command (ep_header req)) (set_mem m' w2)) as [s Ck]; [rewrite Hh; intros X; contradiction|].
        rewrite Ck. do 2 eexists. split; [reflexivity|]. split; [exact EX|]. right. split.
        -- intros ses' pl' H'. assert (H : reply_frame g cmd ses pl) by (do 5 eexists; split; [exact F|exact Eg]).
           destruct (reply_frame_inj _ _ _ _ _ _ _ H H') as (X & _). contradiction.
        -- do 2 eexists. split; [|reflexivity]. reflexivity.
    + rewrite D. do 2 eexists. split; [reflexivity|]. split; [exact EX|]. right. split.
      * intros ses pl (a1 & a2 & a3 & a4 & rest & F & X). exfalso. exact (N _ _ _ _ _ _ _ _ F X).
      * do 2 eexists. split; [|reflexivity]. reflexivity.
  - unfold mbind. rewrite (recv_fail Ctl w1 _ rs) by reflexivity. do 2 eexists. split; [reflexivity|].
    split; [|eexists; reflexivity].
    do 4 (split; [first [reflexivity|assumption]|]). split; [assumption|]. split; [unfold with_recv, w1; cbn; rewrite <- app_assoc; reflexivity|reflexivity].
Qed.

(** ** Explicit commands *)
Lemma copy_local_holds {U} (cl : cls U) p bs w t : holds (w_mem w) p bs -> bs <> [] -> c_sb cl = None ->
  exists v, reads (w_mem w) v bs /\
  m_copy cl p t w = (let '(o, m', t') := run_reader (deserialize_len cl (len bs)) v (w_mem w) t in (o, t', set_mem m' w)).
Proof.
  intros H Z S. destruct p as [s|]; cbn in H; [|congruence]. destruct H as (_ & sb & -> & R).
  exists (sb_data sb). split; [assumption|]. unfold m_copy, copy_serializable. cbn [s_length s_sbuf ser_of_sbuf]. rewrite S.
  rewrite (reads_len _ _ _ R). reflexivity.
Qed.

Lemma answers_not_crash id got sv st a q : answers id got sv st a q -> ~ crashes id got.
Proof.
  intros (ses & pl & F & _ & R) (ses' & pl' & F' & _ & C). destruct (reply_frame_inj _ _ _ _ _ _ _ F F') as (_ & <- & <-).
  destruct C as [C|C]; [exact (rr_reply_nonempty _ _ _ _ _ R C)|].
  destruct R as (rs & q' & U & _ & E). pose proof (carries_unconnected_inj _ _ _ U C) as X. rewrite X in E. discriminate.
Qed.

Lemma rr_command w service pad ss d bs : rbuf_ok w -> len ss < 256 -> carries_opt (w_mem w) d bs ->
  let req := request 0x6F (se_id (w_se w)) (rr_request (u8 service) (epath pad ss) bs) in
  exists o w', sendRRDataCommand service (path_of pad ss) d w = (o, w') /\ exchanged w req w' /\ rr_outcome w req o w'.
Proof.
  intros B L C req. unfold sendRRDataCommand. erewrite mbind_ret; [|reflexivity].
  destruct (ep_make_carries (w_mem w) EIP_CMD_SEND_RR_DATA (se_id (w_se w)) (Some (rrq_ser (rrq_make service (path_of pad ss) d)))
    (rr_request (u8 service) (epath pad ss) bs)) as (q & Eq & _ & Hh & Cq); [apply rrq_carries; assumption|].
  erewrite mbind_ret; [|unfold mout; rewrite Eq; reflexivity].
  destruct (command w q req B Cq) as (o & w' & E & X & O). rewrite Hh in O. cbn [h_command] in O.
  change (u16 EIP_CMD_SEND_RR_DATA) with 0x6F in O. unfold command_outcome in O. unfold rr_outcome.
  unfold mbind at 1. unfold mcatch at 1. rewrite E.
  destruct (reply_of (w_ctl w) req) as [| | |got].
  - destruct O as [s ->]. cbn [is_a]. do 2 eexists. split; [reflexivity|]. split; [exact X|]. eexists. reflexivity.
  - subst o. do 2 eexists. split; [reflexivity|]. split; [exact X|]. reflexivity.
  - destruct O as [s ->]. cbn [is_a]. do 2 eexists. split; [reflexivity|]. split; [exact X|]. eexists. reflexivity.
  - destruct O as [(ses & pl & p & F & Hm & -> & Hs & Hp)|[N (e & s & Ie & ->)]].
    + assert (A : forall sv st a dd, rr_reply pl sv st a dd -> answers (se_id (w_se w)) got sv st a dd).
      { intros sv st a dd R. exists ses, pl. auto. }
      assert (A' : forall sv st a dd, answers (se_id (w_se w)) got sv st a dd -> rr_reply pl sv st a dd).
      { intros sv st a dd (ses' & pl' & F' & _ & R). destruct (reply_frame_inj _ _ _ _ _ _ _ F F') as (_ & <- & <-). exact R. }
      assert (Cr : crashes (se_id (w_se w)) got -> pl = [] \/ carries_unconnected pl []).
      { intros (ses' & pl' & F' & _ & R). destruct (reply_frame_inj _ _ _ _ _ _ _ F F') as (_ & <- & <-). exact R. }
      unfold mbind at 1, mcatch at 1, m_copy_local.
      destruct pl as [|b pl0].
      * destruct (ep_payload p) as [s|]; [destruct Hp as [Hp _]; congruence|].
        cbn [m_copy]. do 2 eexists. split; [reflexivity|]. split; [exact X|]. right; left. split; [|reflexivity].
        exists ses, []. auto.
      * set (pl := b :: pl0) in *.
        destruct (copy_local_holds rrs_cls (ep_payload p) pl w' rrs_make Hp) as (v & R & ->); [discriminate|reflexivity|].
        unfold run_reader. change (deserialize_len rrs_cls (len pl)) with rrs_deserialize.
        destruct (rr_reply_decode (w_mem w') v 0 rrs_make pl R)
          as [(i & to & xs & rest & dd & sv & rs & st & a & qq & t' & Ok & Ep & U & Or & Ed & D & I)|[N [(Ne & e & s & r & t' & Ie & D)|(i & to & xs & rest & r & t' & Ok & Ep & U & D)]]];
          rewrite D; clear D; rewrite set_mem_same.
        -- assert (RR : rr_reply pl sv st a qq) by (exists rs, dd; split; [exists i, to, xs, rest; auto|auto]).
           destruct I as (_ & _ & I1 & I2 & I3 & I4).
           destruct (N.eqb_spec (ms_status (rr_ext t')) 0) as [Z|Z]; cbn [negb].
           ++ do 2 eexists. split; [reflexivity|]. split; [exact X|]. left. exists sv, a, qq, t'.
              rewrite I2 in Z. split; [apply A; rewrite <- Z; exact RR|]. split; [reflexivity|]. split; [exact I1|]. split; [congruence|]. split; assumption.
           ++ do 2 eexists. split; [reflexivity|]. split; [exact X|]. right; right. split; [|split].
              ** intros sv' a' q' H. apply A' in H. destruct (rr_reply_inj _ _ _ _ _ _ _ _ _ RR H) as (_ & Y & _). congruence.
              ** apply (answers_not_crash _ _ sv st a qq). apply A. exact RR.
              ** eexists. reflexivity.
        -- assert (T : exists s', mcatch (fun _ : world => (@Throw (rr_data mr_response) e s, w'))
                        (mthrow RuntimeError "Response data to RR Command too short")
                        (mthrow RuntimeError "Invalid data in response to RR command") w' = (Throw RuntimeError s', w')).
           { unfold mcatch. rewrite Ie. destruct (is_a e LengthError); eexists; reflexivity. }
           unfold mcatch in T. destruct T as [s' ->].
           do 2 eexists. split; [reflexivity|]. split; [exact X|]. right; right. split; [|split].
           ++ intros sv' a' q' H. apply A' in H. destruct H as (rs & q1 & (i & to & xs & rest & Ok & Ep & U) & Or & Eq1).
              exact (N i to xs rest q1 sv' rs 0 a' q' Ok Ep U Or Eq1).
           ++ intros H. apply Cr in H. destruct H as [H|H]; [discriminate|].
              destruct H as (i & to & xs & rest & Ok & Ep & U). exact (Ne i to xs rest Ok Ep U).
           ++ eexists. reflexivity.
        -- do 2 eexists. split; [reflexivity|]. split; [exact X|]. right; left. split; [|reflexivity].
           exists ses, pl. split; [exact F|]. split; [exact Hm|]. right. exists i, to, xs, rest. auto.
    + assert (T : exists s', (if is_a e LengthError
                   then (@mthrow encap_packet RuntimeError "Packet response to RR Data Command too short" w')
                   else if is_a e LogicError then mthrow RuntimeError "Invalid packet response to RR Data Command" w' else (Throw e s, w'))
                  = (Throw RuntimeError s', w')).
      { rewrite Ie. destruct (is_a e LengthError); eexists; reflexivity. }
      destruct T as [s' ->]. do 2 eexists. split; [reflexivity|]. split; [exact X|]. right; right. split; [|split].
      * intros sv a qq (ses & pl & F & Hm & _). exact (N _ _ F Hm).
      * intros (ses & pl & F & Hm & _). exact (N _ _ F Hm).
      * eexists. reflexivity.
Qed.
