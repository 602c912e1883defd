(** * PSays: what a session's log says about itself (C126, C127). *)
From Verif Require Export Vocab31 PLog3.
Local Open Scope N_scope.

(** ** Where a format is used *)
Lemma wf_app f a b : with_format f (a ++ b) = with_format f a ++ with_format f b.
Proof. apply filter_app. Qed.
Lemma wf_none f l : Forall (fun x => lg_fmt x <> f) l -> with_format f l = [].
Proof.
  induction 1 as [|x l N F IH]; [reflexivity|]. unfold with_format in *. cbn [filter]. destruct (String.eqb_spec (lg_fmt x) f) as [E|_]; [contradiction|exact IH].
Qed.
Lemma f_check f p cmd : In f own_formats -> each (fun c => lg_fmt c <> f) (l_check_packet p cmd).
Proof.
  intros I s o s' l H. unfold l_check_packet in H. cbv zeta in H.
  destruct (negb _); [|destruct (_ && _); [|destruct (_ && _)]]; (eapply e_bind; [| |exact H]); e; cbn [lg_fmt]; intros <-; cbn [In own_formats] in I;
    repeat (destruct I as [I|I]; [discriminate|]); exact I.
Qed.
Ltac fm I := cbn [lg_fmt]; let K := fresh in intros K; rewrite <- K in I; cbn [In own_formats] in I; repeat (destruct I as [I|I]; [discriminate I|]); exact I.
Lemma f_command f req : In f own_formats -> each (fun c => lg_fmt c <> f) (l_sendCommand req).
Proof. intros I. unfold l_sendCommand. e; first [apply f_check; exact I|fm I]. Qed.
Lemma f_rr f sv p d : In f own_formats -> each (fun c => lg_fmt c <> f) (l_sendRRDataCommand sv p d).
Proof.
  intros I. unfold l_sendRRDataCommand. e; try (apply f_command; exact I); try (fm I).
  unfold rr_log. destruct (m_copy _ _ _ _) as [[[u|c t|u|] pk] w1]; try constructor. destruct (_ <? _); repeat constructor; fm I.
Qed.
Lemma elsewhere f o w r w' l : In f own_formats -> ~ speaks f o -> l_step o w = (r, w', l) -> with_format f l = [].
Proof.
  intros I Ns H. apply wf_none. revert w r w' l H. change (each (fun c => lg_fmt c <> f) (l_step o)).
  destruct o as [h p i| |T c t x y z|x y z d|a b|n| |p]; cbn [l_step speaks] in *; unfold l_open, l_close, l_createConnection, l_closeConnection, l_receiveIOPacket, l_sendIOPacket; e;
    try (apply f_command; exact I); try (apply f_rr; exact I); try (fm I); try (intros K; apply Ns; symmetry; exact K).
  unfold verify_log. destruct (_ || _); [constructor|]. apply Forall_app. split; destruct (negb _); repeat constructor; intros K; apply Ns; [left|right]; symmetry; exact K.
Qed.

(** ** open *)
Lemma open_before f req : f = msg_opened -> each (fun c => lg_fmt c <> f)
    (lcatch (l_sendCommand req)
      (fun t => do! lift close_both in
                do! say Error "Could not parse response when registering session: %s" [AStr t] in
                lthrow RuntimeError "Invalid response received registering session")
      (fun t => do! lift close_both in
                do! say Error "Error in registration response: %s" [AStr t] in
                lthrow RuntimeError "Error in registration response")).
Proof. intros ->. e; try (apply f_command; left; reflexivity); discriminate. Qed.
Lemma wf_bind {A B} f (x : L world A) (k : A -> L world B) w r w' l : each (fun c => lg_fmt c <> f) x -> lbind x k w = (r, w', l) ->
  (exists a w1 l2, (exists l1, x w = (Ret a, w1, l1)) /\ k a w1 = (r, w', l2) /\ with_format f l = with_format f l2) \/ ((forall b, r <> Ret b) /\ with_format f l = []).
Proof.
  intros X. unfold lbind. destruct (x w) as [[[a|c t|u|] w1] l1] eqn:E.
  - destruct (k a w1) as [[o2 w2] l2] eqn:E2. intros H. injection H as <- <- <-. left. exists a, w1, l2. split; [eexists; reflexivity|]. split; [exact E2|]. rewrite wf_app, (wf_none f l1); [reflexivity|]. eapply X; exact E.
  - intros H. injection H as <- <- <-. right. split; [discriminate|]. apply wf_none. eapply X; exact E.
  - intros H. injection H as <- <- <-. right. split; [discriminate|]. apply wf_none. eapply X; exact E.
  - intros H. injection H as <- <- <-. right. split; [discriminate|]. apply wf_none. eapply X; exact E.
Qed.
Ltac wb H := eapply wf_bind in H; [destruct H as [(? & ? & ? & (? & ?) & H & ->)|[? ->]]|].
Lemma opened_says h p i w r w' l : l_step (OpOpen h p i) w = (r, w', l) ->
  ((exists v, r = Ret v) -> with_format msg_opened l = [mkLog Inform msg_opened [AU32 (se_id (w_se w'))]]) /\
  ((forall v, r <> Ret v) -> with_format msg_opened l = []).
Proof.
  cbn [l_step]. intros H.
  assert (K : forall r0 w0 l0, l_open h p i w = (r0, w0, l0) ->
    ((exists v, r0 = Ret v) /\ with_format msg_opened l0 = [mkLog Inform msg_opened [AU32 (se_id (w_se w0))]]) \/ ((forall v, r0 <> Ret v) /\ with_format msg_opened l0 = [])).
  { clear. intros r w' l H. unfold l_open in H.
    wb H; [|right; split; [assumption|reflexivity]|e; discriminate]. wb H; [|right; split; [assumption|reflexivity]|e].
    wb H; [|right; split; [assumption|reflexivity]|e]. wb H; [|right; split; [assumption|reflexivity]|e; discriminate].
    wb H; [|right; split; [assumption|reflexivity]|e]. wb H; [|right; split; [assumption|reflexivity]|apply open_before; reflexivity].
    wb H; [|right; split; [assumption|reflexivity]|e; discriminate]. wb H; [|right; split; [assumption|reflexivity]|e; discriminate].
    wb H; [|right; split; [assumption|reflexivity]|e; discriminate]. left.
    unfold lbind, lift, mupd_se, mupd, say, says in H. injection H as <- <- <-. split; [eexists; reflexivity|]. reflexivity. }
  unfold lbind in H. destruct (l_open h p i w) as [[o w1] l1]. destruct (K _ _ _ eq_refl) as [[(v & ->) F]|[N F]]; clear K.
  - unfold lret in H. injection H as <- <- <-. rewrite app_nil_r. split; [intros _; exact F|]. intros N. destruct (N _ eq_refl).
  - assert (l = l1 /\ forall v, r <> Ret v) as [-> N2].
    { destruct o as [a|c t|u|]; [destruct (N _ eq_refl)|injection H as <- <- <-; split; [reflexivity|discriminate]..]. }
    split; [intros (v & ->); destruct (N2 _ eq_refl)|intros _; exact F].
Qed.

Lemma l_catch_good {A} (x : L world A) h1 h2 w v w' l : lcatch x h1 h2 w = (Ret v, w', l) -> (forall t w0 v0 w1 l0, h1 t w0 <> (Ret v0, w1, l0)) -> (forall t w0 v0 w1 l0, h2 t w0 <> (Ret v0, w1, l0)) -> x w = (Ret v, w', l).
Proof.
  unfold lcatch. destruct (x w) as [[[a|c t|u|] s1] l1] eqn:E; intros H N1 N2; try exact H; try discriminate.
  destruct (is_a c LengthError); [destruct (h1 t s1) as [[o2 s2] l2] eqn:E2; injection H as -> -> _; destruct (N1 _ _ _ _ _ E2)|].
  destruct (is_a c LogicError); [destruct (h2 t s1) as [[o2 s2] l2] eqn:E2; injection H as -> -> _; destruct (N2 _ _ _ _ _ E2)|discriminate].
Qed.
Lemma close_never {A} f a t0 t1 (w0 : world) (v0 : A) w1 l0 : (do! lift close_both in do! say Error f a in @lthrow world A t0 t1) w0 <> (Ret v0, w1, l0).
Proof.
  unfold lbind, lift. destruct (close_both w0) as [[u|c t|u|] w2]; try discriminate.
Qed.
Lemma registration_says h p i w v w' l : rbuf_ok w -> l_step (OpOpen h p i) w = (Ret v, w', l) ->
  exists got rs ses st c0 c1 o payload after, so_recv (w_ctl w) = RxData got :: rs /\ registration_parts (take 4096 got) ses st c0 c1 o payload after /\
    se_id (w_se w') = ses /\ (logged Warn l <-> odd_registration st c0 c1 o payload after).
Proof.
  intros B H. cbn [l_step] in H. apply l_bind_ret in H. destruct H as ([] & w0 & l0 & l1 & H & E & ->). unfold lret in E. injection E as _ <- <-. rewrite app_nil_r.
  unfold l_open in H. apply l_bind_ret in H. destruct H as ([] & w1 & l2 & l3 & E & H & ->). injection E as <- <-.
  assert (K : forall id a b w w', sock_open id a b w = (Ret tt, w') -> rbuf_ok w -> rbuf_ok w' /\ so_recv (w_ctl w') = so_recv (w_ctl w)).
  { intros id a b v0 v' E (bl & Hb). unfold sock_open in E. destruct (so_open _) as [|[] rs]; try discriminate; injection E as <-; (split; [exists bl|]); destruct id; first [exact Hb|reflexivity]. }
  apply l_bind_ret in H. destruct H as ([] & w1 & l4 & l5 & E & H & ->). apply lift_ret in E. destruct E as [E ->]. destruct (K _ _ _ _ _ E B) as [B1 R1].
  apply l_bind_ret in H. destruct H as ([] & w2 & l6 & l7 & E2 & H & ->). apply lift_ret in E2. destruct E2 as [E2 ->]. destruct (K _ _ _ _ _ E2 B1) as [B2 R2]. clear K.
  apply l_bind_ret in H. destruct H as ([] & w3 & l8 & l9 & E3 & H & ->). injection E3 as <- <-.
  destruct (ep_make_carries (w_mem w2) EIP_CMD_REGISTER_SESSION 0 (Some (rg_ser rg_make)) (registration 1 0)) as (q & Eq & _ & Hh & Cq).
  { apply (rg_carries (w_mem w2) rg_make). }
  apply l_bind_ret in H. destruct H as (q' & w3 & l10 & l11 & E3 & H & ->). apply lift_ret in E3. unfold mout in E3. rewrite Eq in E3. destruct E3 as [E3 ->]. injection E3 as <- <-.
  apply l_bind_ret in H. destruct H as (resp & w3 & l12 & l13 & S & H & ->). apply l_catch_good in S; [|intros; apply close_never..].
  destruct (l_command _ _ _ _ _ _ B2 Cq S) as (got & rs & ses & st & c0 & c1 & o & pl & after & Rv & F & Eg & Hp & Hl & B3 & W). rewrite Hh in F, Eg, Hp.
  cbn [h_command] in F, Eg, Hp. rewrite R2, R1 in Rv.
  exists got, rs, ses, st, c0, c1, o, pl, after. split; [exact Rv|]. split; [split; [exact F|exact Eg]|].
  apply l_bind_ret in H. destruct H as ([] & w4 & l14 & l15 & E4 & H & ->). unfold say_if, says in E4. apply pair_equal_spec in E4. destruct E4 as [E4 <-]. injection E4 as <-.
  apply l_bind_ret in H. destruct H as (reg & w4 & l16 & l17 & E4 & H & ->).
  apply l_bind_ret in H. destruct H as ([] & w5 & l18 & l19 & E5 & H & ->).
  unfold lbind, lift, mupd_se, mupd, say, says in H. injection H as <- <-.
  split; [cbn [w_se set_se set_id se_id]; rewrite Hp; reflexivity|].
  rewrite !logged_app, W, logged_if. rewrite !logged_one. rewrite Hp. cbn [h_length]. unfold odd_registration. clear W Eg F S Eq Cq E E2.
  assert (Z : (negb (len pl =? rg_getLength) = true \/ logged Warn l16 \/ logged Warn l18) <-> pl <> registration 1 0).
  2: { pose proof (logged_nil Warn). assert (Inform <> Warn) by discriminate. tauto. }
  unfold lcatch, lbind, lift, m_copy_local in E4. destruct pl as [|b pl0].
  { destruct (ep_payload resp) as [x|]; [destruct Hl as [Hl _]; congruence|]. discriminate. }
  set (pl := b :: pl0) in *. destruct (copy_local_holds rg_cls (ep_payload resp) pl w3 rg_make Hl) as (vw & R & E6); [discriminate|reflexivity|]. rewrite E6 in E4. clear E6.
  unfold run_reader in E4. change (deserialize_len rg_cls (len pl)) with rg_deserialize in E4.
  destruct (rg_decode (w_mem w3) vw 0 rg_make pl R) as [[L (r & g & D)]|(ve & op & rest & Fv & Fo & Ep & D)]; rewrite D in E4; clear D.
  - cbn [is_a] in E4. unfold say, says, lret in E4. injection E4 as <- <- <-. split; [|intros _; right; left; eexists; split; [left; reflexivity|reflexivity]].
    intros _ Z. rewrite Z in L. unfold registration in L. lens. lia.
  - injection E4 as <- <- <-. cbn [rg_version rg_options] in E5. unfold EIP_PROTOCOL_VERSION in E5. destruct (N.eqb_spec ve 1) as [->|Nv]; cbn [negb] in E5.
    2: { unfold lbind, say, says, lift in E5. destruct (close_both _) as [[u|c t|u|] w6]; discriminate. }
    unfold say_if, says in E5. injection E5 as <- <-. rewrite logged_if, neq_true, neq_true. rewrite Ep. unfold rg_getLength.
    assert (L : len (registration 1 op ++ rest) = 4 + len rest) by (unfold registration; lens; lia). rewrite L. split.
    + intros [Z|[Z|[Z _]]]; [|destruct (logged_nil _ Z)|].
      * intros Q. apply (f_equal len) in Q. rewrite L in Q. unfold registration in Q. lens. lia.
      * intros Q. unfold registration in Q. rewrite <- !app_assoc in Q. apply le_app_inj in Q; [|reflexivity..]. destruct Q as [_ Q].
        assert (Q2 : le 2 op ++ rest = le 2 0 ++ []) by (rewrite app_nil_r; exact Q). apply le_app_inj in Q2; [|assumption|reflexivity]. destruct Q2; congruence.
    + intros N. destruct rest as [|x rest]; [|left; rewrite len_cons; lia]. right; right. split; [|reflexivity]. intros ->. apply N. apply app_nil_r.
Qed.

(** ** receiveIOPacket *)
Lemma io_says w r w' l : rbuf_ok w -> l_step OpReceiveIO w = (r, w', l) ->
  filter alarming l = with_format msg_leftover l /\
  match so_recv (w_io w) with
  | RxData d :: _ =>
      (exists xs rest, cpf_ok xs /\ take 4096 d = cpf xs ++ rest /\ (exists v, r = Ret v) /\ with_format msg_leftover l = leftover xs rest) \/
      ((forall xs rest, cpf_ok xs -> take 4096 d <> cpf xs ++ rest) /\ (forall v, r <> Ret v) /\ with_format msg_leftover l = [])
  | _ => (forall v, r <> Ret v) /\ with_format msg_leftover l = []
  end.
Proof.
  intros B. cbn [l_step]. unfold l_receiveIOPacket. destruct (so_recv (w_io w)) as [|[d|] rs] eqn:Rv.
  - unfold lbind, lift, say, says. rewrite (recv_block Io w) by exact Rv. intros H. injection H as <- <- <-. split; [reflexivity|]. split; [discriminate|reflexivity].
  - destruct (recv_data Io w d rs B Rv) as (m' & E & R & (bl & Hb & Lb) & Ko & Ln). unfold lbind, lift, say, says. rewrite E. unfold m_decode.
    set (w2 := emit _ _). change (w_mem w2) with m'. change (recv_view w2) with (recv_view w). 
    destruct (cpf_packet_decode m' _ 0 [] _ R) as [(xs & rest & p & O & Eb & D & F & _)|[N (s & r0 & p & D)]]; rewrite D; unfold say_if, says, lret; cbn [fst snd]; intros H.
    + apply pair_equal_spec in H. destruct H as [H Hl]. injection H as <- _. rewrite <- Hl. clear Hl.
      set (n := len (take 4096 d)). rewrite N.add_0_l. assert (Ln2 : n = len (cpf xs) + len rest) by (unfold n; rewrite Eb; apply len_app).
      assert (Z : negb (len (cpf xs) =? n) = match rest with [] => false | _ => true end).
      { rewrite Ln2. destruct rest as [|x rest]; [change (len (@nil byte)) with 0; rewrite N.add_0_r, N.eqb_refl; reflexivity|]. rewrite len_cons. destruct (N.eqb_spec (len (cpf xs)) (len (cpf xs) + (1 + len rest))); [lia|reflexivity]. }
      rewrite Z. split; [destruct rest; reflexivity|]. left. exists xs, rest. split; [exact O|]. split; [exact Eb|]. split; [eexists; reflexivity|]. unfold leftover. rewrite <- Eb. fold n. destruct rest; reflexivity.
    + injection H as <- _ <-. split; [reflexivity|]. right. split; [exact N|]. split; [discriminate|reflexivity].
  - unfold lbind, lift, say, says. rewrite (recv_fail Io w _ rs Rv). intros H. injection H as <- <- <-. split; [reflexivity|]. split; [discriminate|reflexivity].
Qed.

(** ** createConnection *)
Lemma verify_says conn r : with_format msg_o2t (verify_log conn r) = match cn_verify_open conn r with Some c => replaced msg_o2t (cn_o2t_id conn) (cn_o2t_id c) | None => [] end /\
  with_format msg_t2o (verify_log conn r) = match cn_verify_open conn r with Some c => replaced msg_t2o (cn_t2o_id conn) (cn_t2o_id c) | None => [] end.
Proof.
  unfold verify_log, cn_verify_open, replaced. destruct (_ || _); [split; reflexivity|]. cbn [cn_o2t_id cn_t2o_id].
  destruct (N.eqb_spec (fs_o2t_id r) (cn_o2t_id conn)) as [E1|E1], (N.eqb_spec (fs_t2o_id r) (cn_t2o_id conn)) as [E2|E2]; cbn [negb];
    rewrite ?N.eqb_refl; rewrite <- ?N.eqb_neq in *; rewrite 1?(N.eqb_sym (cn_o2t_id conn)), 1?(N.eqb_sym (cn_t2o_id conn)), ?E1, ?E2; rewrite ?N.eqb_refl; split; reflexivity.
Qed.
Lemma create_says a b w r w' l : l_step (OpCreate a b) w = (r, w', l) ->
  ((exists v, r = Ret v) -> exists c, se_conns (w_se w') = se_conns (w_se w) ++ [c] /\
     with_format msg_o2t l = replaced msg_o2t (se_next_id (w_se w)) (cn_o2t_id c) /\
     with_format msg_t2o l = replaced msg_t2o (u32 (se_next_id (w_se w) + 1)) (cn_t2o_id c)) /\
  ((forall v, r <> Ret v) -> with_format msg_o2t l = [] /\ with_format msg_t2o l = []).
Proof.
  intros H. set (s := w_se w). set (conn := cn_make (se_vendor s) (se_serial s) (se_next_sn s) (se_next_id s) (u32 (se_next_id s + 1)) a b).
  assert (K : forall f, f = msg_o2t \/ f = msg_t2o ->
    (exists v c g, r = Ret v /\ se_conns (w_se w') = se_conns s ++ [c] /\ cn_verify_open conn g = Some c /\ with_format f l = with_format f (verify_log conn g)) \/
    ((forall v, r <> Ret v) /\ with_format f l = [])).
  { intros f Hf. assert (I : In f own_formats) by (unfold own_formats; cbn [In]; destruct Hf as [->| ->]; tauto).
    cbn [l_step] in H. unfold lbind at 1 in H. destruct (l_createConnection a b w) as [[o w1] l1] eqn:E.
    assert (Q : (exists v c g, o = Ret v /\ se_conns (w_se w1) = se_conns s ++ [c] /\ cn_verify_open conn g = Some c /\ with_format f l1 = with_format f (verify_log conn g)) \/ ((forall v, o <> Ret v) /\ with_format f l1 = [])).
    2: { destruct Q as [(v & c & g & -> & X1 & X2 & X3)|[N X]].
      - unfold lret in H. injection H as <- <- <-. left. exists (RNumber v), c, g. rewrite app_nil_r. auto.
      - right. destruct o as [v|c t|u|]; [destruct (N _ eq_refl)|injection H as <- <- <-; split; [discriminate|exact X]..]. }
    clear H. unfold l_createConnection in E. unfold lbind at 1 in E. unfold lift at 1, mget in E. fold s conn in E. unfold lbind at 1, lift at 1, mupd_se, mupd in E.
    set (w2 := set_se _ w) in E. set (k := fun resp => _) in E.
    destruct (lbind (l_sendRRDataCommand 0x5B (path_ci 6 1) (Some (fo_ser (cn_open_request conn)))) k w2) as [[o2 w3] l2] eqn:E2. cbn [app] in E. injection E as <- <- <-.
    eapply wf_bind in E2; [|apply f_rr; exact I]. destruct E2 as [(resp & w4 & l4 & (l5 & S) & E2 & ->)|X]; [|right; exact X].
    assert (C4 : w_se w4 = w_se w2).
    { pose proof (q_rr 0x5B (path_ci 6 1) (Some (fo_ser (cn_open_request conn))) w2) as Q. unfold quietly in Q. rewrite S in Q. pose proof (calm_rr 0x5B (path_ci 6 1) (Some (fo_ser (cn_open_request conn))) w2) as C. rewrite <- Q in C. exact C. }
    unfold k in E2. clear k S. eapply wf_bind in E2; [|e]. destruct E2 as [(g & w5 & l6 & (l7 & S) & E2 & ->)|X]; [|right; exact X].
    assert (C5 : w_se w5 = w_se w4).
    { apply lift_ret in S. destruct S as [S _]. pose proof (calm_copy_local fs_cls (ms_data (rr_ext resp)) fs_make w4) as C. rewrite S in C. exact C. }
    unfold lbind at 1 in E2. unfold says in E2. destruct (cn_verify_open conn g) as [c|] eqn:V.
    - unfold lbind, lift, mupd_se, mupd, mget, lret in E2. cbn [app] in E2. apply pair_equal_spec in E2. destruct E2 as [E2 <-]. injection E2 as <- <-. left. eexists. exists c, g.
      split; [reflexivity|]. split; [cbn [w_se set_se set_conns se_conns]; rewrite C5, C4; reflexivity|]. split; [exact V|]. rewrite app_nil_r. reflexivity.
    - unfold lbind, say, says, lthrow in E2. apply pair_equal_spec in E2. destruct E2 as [E2 <-]. injection E2 as <- <-. right. split; [discriminate|].
      rewrite wf_app. pose proof (verify_says conn g) as [V1 V2]. rewrite V in V1, V2. destruct Hf as [->| ->]; rewrite ?V1, ?V2; reflexivity. }
  split.
  - intros (v & ->). destruct (K msg_o2t (or_introl eq_refl)) as [(v1 & c1 & g1 & _ & X1 & Y1 & Z1)|[N _]]; [|destruct (N _ eq_refl)].
    destruct (K msg_t2o (or_intror eq_refl)) as [(v2 & c2 & g2 & _ & X2 & Y2 & Z2)|[N _]]; [|destruct (N _ eq_refl)].
    rewrite X1 in X2. apply app_inj_tail in X2. destruct X2 as [_ <-]. exists c1. split; [exact X1|].
    pose proof (verify_says conn g1) as [V1 _]. pose proof (verify_says conn g2) as [_ V2]. rewrite Y1 in V1. rewrite Y2 in V2. split; [rewrite Z1; exact V1|rewrite Z2; exact V2].
  - intros N. split; [destruct (K msg_o2t (or_introl eq_refl)) as [(v & _ & _ & X & _)|[_ X]]|destruct (K msg_t2o (or_intror eq_refl)) as [(v & _ & _ & X & _)|[_ X]]];
      try exact X; destruct (N _ X).
Qed.

(** ** close *)
Lemma close_says w r w' l : rbuf_ok w -> l_step OpClose w = (r, w', l) ->
  match sent (w_ctl w) (unregister (se_id (w_se w))) with
  | Some _ => with_format msg_closed l = [mkLog Inform msg_closed []] /\
      if closed (w_ctl w) (w_io w) then r = Ret RUnit /\ se_id (w_se w') = 0 else (exists s, r = Throw SystemError s) /\ w_se w' = w_se w
  | None => with_format msg_closed l = [] /\ exists s, r = Throw SystemError s
  end.
Proof.
  intros B H. cbn [l_step] in H. pose proof (q_close w) as Q. unfold quietly in Q. unfold lbind at 1 in H. destruct (l_close w) as [[o w1] l1] eqn:E.
  destruct (session_close_spec w B) as (o2 & w2 & E2 & _ & _ & _ & X). rewrite E2 in Q. injection Q as <- <-. clear E2.
  unfold l_close in E. unfold lbind, lift, say, says, mget in E.
  rewrite (send_ctl _ (unregister (se_id (w_se w))) w) in E by apply ep_make0_carries.
  destruct (sent (w_ctl w) (unregister (se_id (w_se w)))) as [n|].
  - destruct X as [_ X]. assert (Hl : l1 = [mkLog Inform "Closing session" []; mkLog Inform msg_closed []]).
    { destruct (close_both _) as [[u|c t|u|] w3]; apply pair_equal_spec in E; destruct E as [_ <-]; reflexivity. }
    subst l1. clear E. destruct (closed _ _).
    + destruct X as [-> X]. unfold lret in H. injection H as <- <- <-. split; [reflexivity|]. split; [reflexivity|]. rewrite X. reflexivity.
    + destruct X as [(s & ->) X]. injection H as <- <- <-. split; [reflexivity|]. split; [eexists; reflexivity|exact X].
  - destruct X as ((s & ->) & _). injection H as <- <- <-. apply pair_equal_spec in E; destruct E as [_ <-]. split; [reflexivity|eexists; reflexivity].
Qed.
Lemma close_says_partial w r w' l : rbuf_ok w -> l_step OpClose w = (r, w', l) ->
  ((exists v, r = Ret v) -> with_format msg_closed l = [mkLog Inform msg_closed []] /\ se_id (w_se w') = 0) /\
  (sent (w_ctl w) (unregister (se_id (w_se w))) = None -> with_format msg_closed l = []).
Proof.
  intros B H. pose proof (close_says _ _ _ _ B H) as X. clear H. destruct (sent _ _) as [n|].
  - destruct X as [F X]. split; [|discriminate]. intros (v & ->). split; [exact F|]. destruct (closed _ _); [exact (proj2 X)|]. destruct X as [(s & X) _]. discriminate.
  - destruct X as [F (s & ->)]. split; [intros (v & X); discriminate|intros _; exact F].
Qed.
Lemma close_says_early w r w' l n : rbuf_ok w -> l_step OpClose w = (r, w', l) ->
  sent (w_ctl w) (unregister (se_id (w_se w))) = Some n -> closed (w_ctl w) (w_io w) = false ->
  with_format msg_closed l = [mkLog Inform msg_closed []] /\ (exists s, r = Throw SystemError s) /\ w_se w' = w_se w.
Proof. intros B H Sn Cl. pose proof (close_says _ _ _ _ B H) as X. rewrite Sn, Cl in X. exact X. Qed.
