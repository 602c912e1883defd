(** Connections and I/O. *)
From Verif Require Export PSession2.

Lemma exchanged_weaken w bs w' : exchanged w bs w' -> exchanged_se w bs w' /\ w_se w' = w_se w.
Proof. intros (A & B & C & D & E & F & G). repeat split; assumption. Qed.
Lemma exchanged_set_se s w bs w' : exchanged_se (set_se s w) bs w' -> exchanged_se w bs w'.
Proof. intros (B & C & D & E & F & G). repeat split; assumption. Qed.
Lemma exchanged_set_se_r f w bs w' : exchanged_se w bs w' -> exchanged_se w bs (set_se f w').
Proof. intros (B & C & D & E & F & G). repeat split; assumption. Qed.


Lemma create_connection w o t : rbuf_ok w -> ci_assembly o < 256 -> ci_assembly t < 256 ->
  exists res w', createConnection o t w = (res, w') /\ exchanged_se w (open_request (w_se w) o t) w' /\
    numbered (w_se w) (w_se w') /\ create_outcome w o t res w'.
Proof.
  intros B Ho Ht. unfold createConnection. erewrite mbind_ret; [|reflexivity].
  set (s := w_se w). set (conn := cn_make _ _ _ _ _ _ _).
  erewrite mbind_ret; [|reflexivity]. fold s.
  set (s1 := set_counters _ _ s). set (w1 := set_se s1 w).
  assert (B1 : rbuf_ok w1) by exact B.
  rewrite path_ci_of by lia.
  pose proof (forward_open_bytes (w_mem w1) (se_vendor s) (se_serial s) (se_next_sn s) (se_next_id s) (u32 (se_next_id s + 1)) o t Ho Ht) as C.
  fold conn in C.
  destruct (rr_command w1 0x5B false [SClass 6; SInstance 1] (Some (fo_ser (cn_open_request conn))) _ B1 eq_refl C) as (r & w' & E & X & O).
  match type of X with exchanged _ ?q _ => change q with (open_request s o t) in X, O end.
  destruct (exchanged_weaken _ _ _ X) as [X1 Xs]. apply exchanged_set_se in X1.
  assert (NB : numbered s (w_se w')) by (rewrite Xs; repeat split).
  assert (CS : se_conns (w_se w') = se_conns s) by (rewrite Xs; reflexivity).
  unfold rr_outcome in O. change (w_ctl w1) with (w_ctl w) in O. change (se_id (w_se w1)) with (se_id s) in O.
  unfold create_outcome. fold s. unfold mbind at 1. rewrite E. clear E.
  destruct (reply_of (w_ctl w) (open_request s o t)) as [| | |got].
  - destruct O as [m ->]. do 2 eexists. split; [reflexivity|]. split; [exact X1|]. split; [exact NB|]. split; [eauto|exact CS].
  - subst r. do 2 eexists. split; [reflexivity|]. split; [exact X1|]. split; [exact NB|]. split; [reflexivity|exact CS].
  - destruct O as [m ->]. do 2 eexists. split; [reflexivity|]. split; [exact X1|]. split; [exact NB|]. split; [eauto|exact CS].
  - destruct O as [(sv & ad & q & resp & A & -> & _ & _ & _ & Hq)|[[Cr ->]|(N & Nc & m & ->)]].
    + unfold mbind at 1, m_copy_local at 1. destruct q as [|b q0].
      * destruct (ms_data (rr_ext resp)) as [x|]; [destruct Hq as [Hq _]; congruence|]. cbn [m_copy].
        do 2 eexists. split; [reflexivity|]. split; [exact X1|]. split; [exact NB|]. right. split; [exact CS|]. right; right; left. split; [right; eauto|reflexivity].
      * set (q := b :: q0) in *.
        destruct (copy_local_holds fs_cls (ms_data (rr_ext resp)) q w' fs_make Hq) as (v & R & ->); [discriminate|reflexivity|].
        unfold run_reader. change (deserialize_len fs_cls (len q)) with fs_deserialize.
        destruct (forward_open_reply_decode (w_mem w') v 0 fs_make q R) as
          [(o2t & t2o & sn & vn & os & oa & ta & rs & app & rest & f & F & Eq & E & EF & _)|[Nq (m & r & f & E)]]; rewrite E; clear E; rewrite set_mem_same.
        -- injection EF as E1 E2 E3 E4 E5 E6 E7.
           assert (OP : opened q o2t t2o sn vn os oa ta) by (exists rs, app, rest; auto).
           unfold cn_verify_open. rewrite E1, E2, E3, E4, E5, E6, E7.
           change (cn_sn conn) with (se_next_sn s). change (cn_vendor conn) with (se_vendor s). change (cn_orig_sn conn) with (se_serial s).
           destruct (N.eqb_spec sn (se_next_sn s)) as [->|D1], (N.eqb_spec vn (se_vendor s)) as [->|D2], (N.eqb_spec os (se_serial s)) as [->|D3]; cbn [negb orb].
           2-8: (do 2 eexists; split; [reflexivity|]; split; [exact X1|]; split; [exact NB|]; right; split; [exact CS|]; left;
                 exists sv, ad, q, o2t, t2o; do 6 eexists; split; [exact A|]; split; [exact OP|]; split; [congruence|reflexivity]).
           unfold mbind, mupd_se, mupd, mget, mret.
           do 2 eexists. split; [reflexivity|]. split; [apply exchanged_set_se_r; exact X1|].
           split; [exact NB|]. left. exists sv, ad, q, o2t, t2o, oa, ta. eexists. split; [exact A|]. split; [exact OP|]. split; cycle 1.
           ++ split; cycle 1.
              ** cbn [w_se set_se set_conns se_conns]. rewrite CS. reflexivity.
              ** cbn [w_se set_se set_conns se_conns]. rewrite CS, len_app. rewrite len_cons, len_nil. f_equal. lia.
           ++ unfold records. cbn [cn_vendor cn_orig_sn cn_sn cn_o2t_id cn_t2o_id cn_o2t_api cn_t2o_api cn_o2t_rpi cn_t2o_rpi cn_o2t_size cn_t2o_size cn_tick_size cn_ticks].
              do 3 (split; [reflexivity|]).
              split; [match goal with |- context [?a =? ?b] => destruct (N.eqb_spec a b) as [->|] end; reflexivity|].
              split; [match goal with |- context [?a =? ?b] => destruct (N.eqb_spec a b) as [->|] end; reflexivity|].
              repeat split.
        -- do 2 eexists. split; [reflexivity|]. split; [exact X1|]. split; [exact NB|]. right. split; [exact CS|]. right; left.
           exists sv, ad, q. eexists. split; [exact A|]. split; [discriminate|]. split; [|reflexivity].
           intros o2t t2o sn vn os oa ta (rs & app & rest & F & Eq). eapply Nq; [| |exact Eq]; apply F.
    + do 2 eexists. split; [reflexivity|]. split; [exact X1|]. split; [exact NB|]. right. split; [exact CS|]. right; right; left. auto.
    + do 2 eexists. split; [reflexivity|]. split; [exact X1|]. split; [exact NB|]. right. split; [exact CS|]. right; right; right. eauto.
Qed.

(** ** Closing a connection *)

Lemma close_connection w n c : rbuf_ok w -> nth_error (se_conns (w_se w)) (N.to_nat n) = Some c ->
  cn_tick_size c < 256 -> cn_ticks c < 256 ->
  exists res w', closeConnection n w = (res, w') /\ exchanged_se w (close_request (w_se w) c) w' /\ drop_conn_outcome w n c res w'.
Proof.
  intros B Hc T1 T2. unfold closeConnection. erewrite mbind_ret; [|unfold getConnection; rewrite Hc; reflexivity].
  rewrite path_ci_of by lia. set (s := w_se w) in *.
  pose proof (forward_close_bytes (w_mem w) c T1 T2) as C.
  destruct (rr_command w 0x4E false [SClass 6; SInstance 1] (Some (fc_ser (cn_close_request c))) _ B eq_refl C) as (r & w' & E & X & O).
  match type of X with exchanged _ ?q _ => change q with (close_request s c) in X, O end.
  destruct (exchanged_weaken _ _ _ X) as [X1 Xs]. fold s in Xs.
  unfold rr_outcome in O. fold s in O. unfold drop_conn_outcome. fold s. unfold mbind at 1. rewrite E. clear E.
  destruct (reply_of (w_ctl w) (close_request s c)) as [| | |got].
  - destruct O as [m ->]. do 2 eexists. split; [reflexivity|]. split; [exact X1|]. split; [eauto|exact Xs].
  - subst r. do 2 eexists. split; [reflexivity|]. split; [exact X1|]. split; [reflexivity|exact Xs].
  - destruct O as [m ->]. do 2 eexists. split; [reflexivity|]. split; [exact X1|]. split; [eauto|exact Xs].
  - destruct O as [(sv & ad & q & resp & A & -> & _ & _ & _ & Hq)|[[Cr ->]|(N & Nc & m & ->)]].
    + unfold mbind at 1, m_copy_local at 1. destruct q as [|b q0].
      * destruct (ms_data (rr_ext resp)) as [x|]; [destruct Hq as [Hq _]; congruence|]. cbn [m_copy].
        do 2 eexists. split; [reflexivity|]. split; [exact X1|]. right. split; [exact Xs|]. right; right; left. split; [right; eauto|reflexivity].
      * set (q := b :: q0) in *.
        destruct (copy_local_holds cs_cls (ms_data (rr_ext resp)) q w' cs_make Hq) as (v & R & ->); [discriminate|reflexivity|].
        unfold run_reader. change (deserialize_len cs_cls (len q)) with cs_deserialize.
        destruct (forward_close_reply_decode (w_mem w') v 0 cs_make q R) as
          [(sn & vn & os & rs & app & rest & f & F & Eq & E & EF & _)|[Nq (m & r & f & E)]]; rewrite E; clear E; rewrite set_mem_same.
        -- injection EF as E1 E2 E3.
           assert (OP : closed_reply q sn vn os) by (exists rs, app, rest; auto).
           erewrite mbind_ret; [|unfold getConnection; rewrite Xs, Hc; reflexivity].
           unfold cn_verify_close. rewrite E1, E2, E3.
           destruct (N.eqb_spec sn (cn_sn c)) as [->|D1], (N.eqb_spec vn (cn_vendor c)) as [->|D2], (N.eqb_spec os (cn_orig_sn c)) as [->|D3]; cbn [negb andb].
           2-8: (do 2 eexists; split; [reflexivity|]; split; [exact X1|]; right; split; [exact Xs|]; left;
                 exists sv, ad, q; do 4 eexists; split; [exact A|]; split; [exact OP|]; split; [congruence|reflexivity]).
           unfold mupd_se, mupd.
           do 2 eexists. split; [reflexivity|]. split; [apply exchanged_set_se_r; exact X1|].
           left. exists sv, ad, q. split; [exact A|]. split; [exact OP|]. split; [reflexivity|]. cbn [w_se set_se]. rewrite Xs. reflexivity.
        -- do 2 eexists. split; [reflexivity|]. split; [exact X1|]. right. split; [exact Xs|]. right; left.
           exists sv, ad, q. eexists. split; [exact A|]. split; [discriminate|]. split; [|reflexivity].
           intros sn vn os (rs & app & rest & F & Eq). eapply Nq; [| |exact Eq]; apply F.
    + do 2 eexists. split; [reflexivity|]. split; [exact X1|]. right. split; [exact Xs|]. right; right; left. auto.
    + do 2 eexists. split; [reflexivity|]. split; [exact X1|]. right. split; [exact Xs|]. right; right; right. eauto.
Qed.
Lemma close_connection_bad w n : nth_error (se_conns (w_se w)) (N.to_nat n) = None ->
  closeConnection n w = (Undef VecOutOfBounds, w).
Proof. intros H. unfold closeConnection, mbind, getConnection. rewrite H. reflexivity. Qed.

(** ** I/O *)
Lemma send_io w p xs : rbuf_ok w -> carries (w_mem w) (cpf_ser p) (cpf xs) ->
  exists o w', sendIOPacket p w = (o, w') /\ w_se w' = w_se w /\ w_rbuf w' = w_rbuf w /\ rbuf_ok w' /\ mem_kept w w' /\
   w_ctl w' = w_ctl w /\ w_io w' = next_send (w_io w) /\
   match sent (w_io w) (cpf xs) with
   | None => (exists s, o = Throw SystemError s) /\ w_net w' = w_net w ++ [ESend Io (cpf xs) None]
   | Some n => o = Ret tt /\ w_net w' = w_net w ++ [ESend Io (cpf xs) (Some n)]
   end.
Proof.
  intros B C. unfold sendIOPacket, mbind. rewrite (send_ser _ _ _ _ C).
  unfold sock_send, sent. cbn [get_sock].
  destruct (so_send (w_io w)) as [|[|n|] l] eqn:Sd; cbn [fst snd].
  all: unfold mret; match goal with |- exists o w', (?oo, ?ww) = _ /\ _ => exists oo, ww end; (split; [reflexivity|]);
    match goal with |- context [rbuf_ok ?w1] => destruct (rbuf_grow w w1 B eq_refl eq_refl) as [B1 K1] end;
    (split; [reflexivity|]); (split; [reflexivity|]); (split; [exact B1|]); (split; [exact K1|]); (split; [reflexivity|]); (split; [unfold next_send; cbn [w_io set_mem emit set_sock]; try rewrite Sd; reflexivity|]);
    (split; [|reflexivity]); try reflexivity; eexists; reflexivity.
Qed.
