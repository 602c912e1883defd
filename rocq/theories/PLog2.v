(** * PLog2: the log calls, continued (C92, C94, C95). *)
From Verif Require Export PLog.
Local Open Scope N_scope.

(** ** printf *)
Lemma o_check p cmd : each (fun c => lg_level c <> Out) (l_check_packet p cmd).
Proof.
  intros s o s' l H. unfold l_check_packet in H. cbv zeta in H.
  destruct (negb _); [|destruct (_ && _); [|destruct (_ && _)]]; (eapply e_bind; [| |exact H]); e; discriminate.
Qed.
Lemma o_command req : each (fun c => lg_level c <> Out) (l_sendCommand req).
Proof. unfold l_sendCommand. e; first [apply o_check|discriminate]. Qed.
Lemma o_rr sv p d : each (fun c => lg_level c <> Out) (l_sendRRDataCommand sv p d).
Proof.
  unfold l_sendRRDataCommand. e; try apply o_command; try discriminate.
  unfold rr_log. destruct (m_copy _ _ _ _) as [[[u|c t|u|] pk] w1]; try constructor. destruct (_ <? _); repeat constructor; discriminate.
Qed.
Lemma o_step o : (forall n, o <> OpCloseConnection n) -> each (fun c => lg_level c <> Out) (l_step o).
Proof.
  intros N. destruct o as [h p i| |T c t x y z|x y z d|a b|n| |p]; cbn [l_step]; unfold l_open, l_close, l_createConnection, l_receiveIOPacket, l_sendIOPacket; e;
    try apply o_command; try apply o_rr; try discriminate; [|destruct (N n eq_refl)].
  unfold verify_log. destruct (_ || _); [constructor|]. apply Forall_app. split; destruct (negb _); repeat constructor; discriminate.
Qed.

Lemma l_bind_ret {S A B} (x : L S A) (f : A -> L S B) s v s' l : lbind x f s = (Ret v, s', l) ->
  exists a s1 l1 l2, x s = (Ret a, s1, l1) /\ f a s1 = (Ret v, s', l2) /\ l = l1 ++ l2.
Proof.
  unfold lbind. destruct (x s) as [[[a|c t|u|] s2] l2]; try discriminate.
  destruct (f a s2) as [[o3 s3] l3] eqn:F. intros X. injection X as -> -> <-. do 4 eexists. split; [reflexivity|]. split; [exact F|reflexivity].
Qed.
Lemma l_catch_ret {S A} (x : L S A) h1 h2 s v s' l : (forall t, always (h1 t)) -> (forall t, always (h2 t)) -> lcatch x h1 h2 s = (Ret v, s', l) -> x s = (Ret v, s', l).
Proof.
  intros H1 H2. unfold lcatch. destruct (x s) as [[[a|c t|u|] s2] l2]; try (intros H; exact H).
  destruct (is_a c LengthError); [destruct (h1 t s2) as [[o3 s3] l3] eqn:F; intros X; injection X as -> _ _; destruct (H1 _ _ _ _ _ F) as (? & ? & ?); discriminate|].
  destruct (is_a c LogicError); [destruct (h2 t s2) as [[o3 s3] l3] eqn:F; intros X; injection X as -> _ _; destruct (H2 _ _ _ _ _ F) as (? & ? & ?); discriminate|]. discriminate.
Qed.
Lemma lift_ret {S A} (x : S -> outcome A * S) s r s' l : lift x s = (r, s', l) -> x s = (r, s') /\ l = [].
Proof. unfold lift. destruct (x s). intros H. injection H as -> -> <-. split; reflexivity. Qed.
(** A connection that is closed prints. *)
Lemma close_prints n w w' l : l_step (OpCloseConnection n) w = (Ret RUnit, w', l) -> logged Out l.
Proof.
  cbn [l_step]. intros H. apply l_bind_ret in H. destruct H as ([] & w1 & l1 & l2 & H & H2 & ->). injection H2 as <- <-.
  unfold l_closeConnection in H. apply l_bind_ret in H. destruct H as (c & ? & ? & ? & _ & H & ->).
  apply l_bind_ret in H. destruct H as (resp & ? & ? & ? & _ & H & ->). apply l_bind_ret in H. destruct H as (rs & ? & ? & ? & _ & H & ->).
  apply l_bind_ret in H. destruct H as (c' & ? & ? & ? & _ & H & ->). apply l_bind_ret in H. destruct H as ([] & ? & ? & ? & S & H & ->). injection S as <- <-.
  rewrite !logged_app. rewrite logged_one. tauto.
Qed.

(** ** runtime_error *)
Definition tells {A} (x : L world A) (w : world) : Prop := forall t w' l, x w = (Throw RuntimeError t, w', l) -> logged Error l.
Definition never {A} (x : L world A) (w : world) : Prop := forall t w' l, x w <> (Throw RuntimeError t, w', l).
Lemma never_tells {A} (x : L world A) w : never x w -> tells x w. Proof. intros N t w' l H. destruct (N _ _ _ H). Qed.
Lemma t_bind {A B} (x : L world A) (f : A -> L world B) w : tells x w -> (forall a w' l, x w = (Ret a, w', l) -> tells (f a) w') -> tells (lbind x f) w.
Proof.
  intros X F t w' l. unfold lbind. destruct (x w) as [[[a|c t1|u|] s1] l1] eqn:E; try discriminate.
  - destruct (f a s1) as [[o2 s2] l2] eqn:E2. intros H. injection H as -> -> <-. rewrite logged_app. right. exact (F _ _ _ eq_refl _ _ _ E2).
  - intros H. injection H as -> -> -> <-. exact (X _ _ _ E).
Qed.
Lemma t_error {A} f a (k : unit -> L world A) w : tells (lbind (say Error f a) k) w.
Proof.
  intros t w' l. unfold lbind, say, says. destruct (k tt w) as [[o s] l2]. intros H. injection H as _ _ <-. change (logged Error ([mkLog Error f a] ++ l2)).
  rewrite logged_app, logged_one. auto.
Qed.
Lemma t_lift {A} (x : M A) w : (forall c t w', x w = (Throw c t, w') -> c <> RuntimeError) -> tells (lift x) w.
Proof. intros X. apply never_tells. intros t w' l H. apply lift_ret in H. destruct H as [H _]. destruct (X _ _ _ H). reflexivity. Qed.
Lemma t_raises {A} P (x : M A) w : raises P x -> ~ P RuntimeError -> tells (lift x) w.
Proof. intros X N. apply t_lift. intros c t w' H ->. exact (N (X _ _ _ _ H)). Qed.
Lemma t_says l w : tells (says l) w. Proof. intros t w' l0 H. discriminate. Qed.
Lemma t_say v f a w : tells (say v f a) w. Proof. apply t_says. Qed.
Lemma t_ret {A} (a : A) w : tells (lret a) w. Proof. intros t w' l H. discriminate. Qed.
Lemma t_throw {A} c t w : c <> RuntimeError -> tells (@lthrow world A c t) w. Proof. intros N t' w' l H. injection H as H. contradiction. Qed.
Lemma t_catch {A} (x : L world A) h1 h2 w : tells x w -> (forall t w', tells (h1 t) w') -> (forall t w', tells (h2 t) w') -> tells (lcatch x h1 h2) w.
Proof.
  intros X H1 H2 t w' l. unfold lcatch. destruct (x w) as [[[a|c t1|u|] s1] l1] eqn:E; try discriminate.
  destruct (is_a c LengthError); [destruct (h1 t1 s1) as [[o2 s2] l2] eqn:E2; intros H; injection H as -> -> <-; rewrite logged_app; right; exact (H1 _ _ _ _ _ E2)|].
  destruct (is_a c LogicError); [destruct (h2 t1 s1) as [[o2 s2] l2] eqn:E2; intros H; injection H as -> -> <-; rewrite logged_app; right; exact (H2 _ _ _ _ _ E2)|].
  intros H. injection H as -> -> -> <-. exact (X _ _ _ E).
Qed.
Lemma t_close_say {A} f a (k : unit -> L world A) w : tells (do! lift close_both in lbind (say Error f a) k) w.
Proof. apply t_bind; [eapply t_raises; [apply m_close_both|discriminate]|]. intros; apply t_error. Qed.
Lemma t_command req bs w : rbuf_ok w -> carries (w_mem w) (ep_ser req) bs -> never (l_sendCommand req) w.
Proof.
  intros B C t w' l H. pose proof (q_command req w) as Q. unfold quietly in Q. rewrite H in Q. destruct (command w req bs B C) as (o & w1 & E & _ & O). rewrite E in Q. injection Q as <- <-.
  unfold command_outcome in O. destruct (reply_of _ _); [destruct O as [s O]; discriminate|discriminate|destruct O as [s O]; discriminate|].
  destruct O as [(? & ? & ? & _ & _ & X & _)|[_ (e0 & s & I & X)]]; [discriminate|]. injection X as <- _. discriminate.
Qed.

(** ** Warnings *)
Lemma ret1 {A} (a b : A) : Ret a = Ret b -> a = b. Proof. congruence. Qed.
Lemma orb3 a b : negb (a =? 0) || negb (b =? 0) = true <-> a <> 0 \/ b <> 0.
Proof. destruct (N.eqb_spec a 0), (N.eqb_spec b 0); cbn; intuition congruence. Qed.
Lemma neq_true a b : negb (a =? b) = true <-> a <> b.
Proof. destruct (N.eqb_spec a b); cbn; intuition congruence. Qed.
Lemma check_warns p cmd w w' l : l_check_packet p cmd w = (Ret tt, w', l) -> w' = w /\ h_command (ep_header p) = cmd /\
  (logged Warn l <-> h_status (ep_header p) <> 0 \/ h_ctx0 (ep_header p) <> 0 \/ h_ctx1 (ep_header p) <> 0 \/ h_options (ep_header p) <> 0).
Proof.
  unfold l_check_packet. cbv zeta. destruct (negb (h_command _ =? cmd)) eqn:E; [discriminate|]. destruct (_ && _); [discriminate|]. destruct (_ && _); [discriminate|].
  unfold lbind, say_if, says. intros H. apply pair_equal_spec in H. destruct H as [H Hl]. injection H as <-. split; [reflexivity|]. split.
  { destruct (N.eqb_spec (h_command (ep_header p)) cmd); [assumption|discriminate]. }
  rewrite <- Hl. clear Hl. rewrite !logged_app, !logged_if, orb3, !neq_true. intuition.
Qed.
Lemma l_command w req bs p w' l : rbuf_ok w -> carries (w_mem w) (ep_ser req) bs -> l_sendCommand req w = (Ret p, w', l) ->
  exists got rs ses st c0 c1 o pl after, so_recv (w_ctl w) = RxData got :: rs /\ frame_fits (h_command (ep_header req)) ses st c0 c1 o pl /\
    take 4096 got = frame (h_command (ep_header req)) ses st c0 c1 o pl ++ after /\
    ep_header p = mkHdr (h_command (ep_header req)) (len pl) ses st c0 c1 o /\ holds (w_mem w') (ep_payload p) pl /\ rbuf_ok w' /\
    (logged Warn l <-> odd_frame st c0 c1 o after).
Proof.
  intros B C H. unfold l_sendCommand in H. apply l_bind_ret in H. destruct H as ([] & w0 & l0 & l1 & S & H & ->). injection S as <- <-.
  apply l_bind_ret in H. destruct H as (k & w1 & l2 & l3 & S & H & ->). apply lift_ret in S. destruct S as [S ->]. unfold sc_send in S. rewrite (send_ctl _ _ _ C) in S.
  destruct (sent (w_ctl w) bs); [|discriminate]. injection S as <- <-. set (w1 := mkW _ _ _ _ _ _) in H. destruct (rbuf_grow w w1 B eq_refl eq_refl) as [B1 _].
  apply l_bind_ret in H. destruct H as ([] & w2 & l4 & l5 & S & H & ->). injection S as <- <-.
  apply l_bind_ret in H. destruct H as (k & w2 & l6 & l7 & S & H & ->). apply lift_ret in S. destruct S as [S ->]. unfold sc_recv in S.
  destruct (so_recv (w_ctl w)) as [|[got|] rs] eqn:Rv.
  1: { rewrite (recv_block Ctl w1) in S by reflexivity. discriminate. }
  2: { rewrite (recv_fail Ctl w1 _ rs) in S by reflexivity. discriminate. }
  destruct (recv_data Ctl w1 got rs B1) as (m' & E & R & (bl & Hb & Lb) & _ & _); [reflexivity|]. rewrite E in S. clear E. apply pair_equal_spec in S. destruct S as [Sk Sw].
  apply ret1 in Sk. subst w2 k. set (g := take 4096 got) in *. set (w2 := emit _ _) in H.
  apply l_bind_ret in H. destruct H as ([] & w3 & l8 & l9 & S & H & ->). injection S as <- <-.
  apply l_bind_ret in H. destruct H as (r & w3 & l10 & l11 & S & H & ->). apply lift_ret in S. destruct S as [S ->].
  unfold m_decode in S. change (recv_view w2) with (recv_view w1) in S. change (w_mem w2) with m' in S.
  destruct (packet_decode m' _ 0 (ep_make0 0 0) _ R) as [(cmd & ses & st & c0 & c1 & o & pl & rest & q & F & Eg & D & _ & Hh & Hp)|[_ (s & r0 & q & D)]]; rewrite D in S; [|discriminate].
  apply pair_equal_spec in S. destruct S as [Sr Sw]. apply ret1 in Sr. subst r w3. cbn [fst snd] in H.
  apply l_bind_ret in H. destruct H as ([] & w3 & l12 & l13 & S & H & ->). unfold say_if, says in S. apply pair_equal_spec in S. destruct S as [S Sl]. injection S as <-.
  apply l_bind_ret in H. destruct H as ([] & w3 & l14 & l15 & S & H & ->). apply check_warns in S. destruct S as (-> & Hc & W). injection H as <- <- <-.
  rewrite Hh in Hc. cbn [h_command] in Hc. subst cmd. rewrite Hh in W. cbn [h_status h_ctx0 h_ctx1 h_options] in W.
  exists got, rs, ses, st, c0, c1, o, pl, rest. split; [reflexivity|]. split; [exact F|]. split; [exact Eg|]. split; [exact Hh|]. split; [exact Hp|].
  split; [exists bl; split; assumption|]. rewrite !logged_app. rewrite <- Sl. rewrite logged_if, neq_true, W. unfold odd_frame.
  assert (Z : 0 + (24 + len pl) <> len g <-> rest <> []).
  { rewrite Eg, len_app, frame_len. destruct rest; [change (len (@nil byte)) with 0|rewrite len_cons]; split; intros; try congruence; lia. }
  pose proof (logged_nil Warn) as Nl. assert (Nd : Debug <> Warn) by discriminate. rewrite !logged_one. rewrite Z. clear - Nl Nd. intuition.
Qed.
Lemma dbind_eq {T A B} (x : D T A) (f : A -> D T B) m r t a m1 r1 t1 : x m r t = (Ret a, m1, r1, t1) -> dbind x f m r t = f a m1 r1 t1.
Proof. intros H. unfold dbind. rewrite H. reflexivity. Qed.
Lemma head_decode m v i to xs rest : reads m v (rr i to xs ++ rest) -> rr_ok i to xs ->
  exists r' pkt, rr_head m (RBuf v 0) [] = (Ret tt, m, r', pkt) /\ cpf_getItemCount pkt = len xs.
Proof.
  intros R (F1 & F2 & F3). unfold rr in R. rewrite <- !app_assoc in R. unfold rr_head.
  destruct (buf_uint 4 rr_iface rr_set_iface m v 0 (mkRR 0 0 tt) _ R) as [[K _]|(x & r1 & Eb & Fx & R1 & E)]; [rewrite len_app, len_le in K; lia|].
  apply le_app_inj in Eb; [|assumption..]. destruct Eb as [<- <-]. erewrite dbind_eq; [|exact E]. clear E.
  match goal with |- context [dbind (rd_uint 2 _ _) _ m (RBuf ?v1 ?c1) ?t1] => destruct (buf_uint 2 rr_timeout rr_set_timeout m v1 c1 t1 _ R1) as [[K _]|(x & r2 & Eb & Fx2 & R2 & E)] end;
    [rewrite len_app, len_le in K; lia|].
  apply le_app_inj in Eb; [|assumption..]. destruct Eb as [<- <-]. erewrite dbind_eq; [|exact E]. clear E. unfold dlocal.
  match goal with |- context [cpf_deserialize m (RBuf ?v1 ?c1) []] => destruct (cpf_decode m v1 c1 [] _ R2) as [[Nx _]|(ys & r3 & O & Eb & E)] end; [destruct (Nx _ _ F3 eq_refl)|].
  apply cpf_inj in Eb; [|assumption..]. destruct Eb as [<- <-]. rewrite E. do 2 eexists. split; [reflexivity|].
  unfold cpf_getItemCount. pose proof (cpf_windows_is _ _ xs rest R2) as W. unfold len at 1. rewrite (Forall2_len _ _ _ W). apply u16_small. apply F3.
Qed.
Lemma rr_log_holds p pl w i to xs rest : holds (w_mem w) p pl -> pl = rr i to xs ++ rest -> rr_ok i to xs -> (logged Warn (rr_log p w) <-> 2 < len xs).
Proof.
  intros H -> O. unfold rr_log. destruct (copy_local_holds rr_head_cls p _ w [] H) as (v & R & ->); [|reflexivity|].
  { intros X. apply (f_equal len) in X. unfold rr in X. rewrite !len_app, len_le, len_cpf in X. change (len (@nil byte)) with 0 in X. lia. }
  unfold run_reader. change (deserialize_len rr_head_cls _) with rr_head. destruct (head_decode _ _ _ _ _ _ R O) as (r' & pkt & -> & C). rewrite C. rewrite logged_if.
  destruct (N.ltb_spec 2 (len xs)); intuition (lia || discriminate).
Qed.
Lemma rr_warns sv pad ss d bs w r w' l : rbuf_ok w -> len ss < 256 -> carries_opt (w_mem w) d bs -> N.lor (u8 sv) 0x80 = sv + 0x80 ->
  l_sendRRDataCommand sv (path_of pad ss) d w = (Ret r, w', l) ->
  exists got rs st c0 c1 o after xs s, so_recv (w_ctl w) = RxData got :: rs /\ reply_parts (take 4096 got) st c0 c1 o after xs s /\
    (logged Warn l <-> odd_reply sv st c0 c1 o after xs s) /\ (s <> sv + 0x80 -> In (mkLog Warn wrong_service [AInt (u8 sv); AInt s]) l).
Proof.
  intros B Ls C Lor H. unfold l_sendRRDataCommand in H. apply l_bind_ret in H. destruct H as ([] & w0 & l0 & l1 & S & H & ->). injection S as <- <-.
  apply l_bind_ret in H. destruct H as (w0 & w1 & l2 & l3 & S & H & ->). injection S as <- <- <-.
  destruct (ep_make_carries (w_mem w) EIP_CMD_SEND_RR_DATA (se_id (w_se w)) (Some (rrq_ser (rrq_make sv (path_of pad ss) d)))
    (rr_request (u8 sv) (epath pad ss) bs)) as (q & Eq & _ & Hh & Cq); [apply rrq_carries; assumption|].
  apply l_bind_ret in H. destruct H as (q' & w1 & l2 & l4 & S & H & ->). apply lift_ret in S. destruct S as [S ->]. unfold mout in S. rewrite Eq in S. injection S as <- <-.
  apply l_bind_ret in H. destruct H as (p & w1 & l5 & l6 & S & H & ->). apply l_catch_ret in S; [|intros; al..].
  destruct (l_command _ _ _ _ _ _ B Cq S) as (got & rs & ses & st & c0 & c1 & o & pl & after & Rv & F & Eg & Hp & Hl & B1 & W). clear S.
  rewrite Hh in F, Eg. cbn [h_command] in F, Eg. change (u16 EIP_CMD_SEND_RR_DATA) with 0x6F in F, Eg.
  apply l_bind_ret in H. destruct H as ([] & w2 & l7 & l8 & S & H & ->). unfold says in S. apply pair_equal_spec in S. destruct S as [S Sl]. injection S as <-. subst l7.
  apply l_bind_ret in H. destruct H as (resp & w3 & l9 & l10 & S & H & ->). apply l_catch_ret in S; [|intros; al..]. apply lift_ret in S. destruct S as [S ->].
  unfold m_copy_local in S. destruct pl as [|b pl0].
  { destruct (ep_payload p) as [x|]; [destruct Hl as [Hl _]; congruence|]. discriminate. }
  set (pl := b :: pl0) in *. destruct (copy_local_holds rrs_cls (ep_payload p) pl w1 rrs_make Hl) as (v & R & E); [discriminate|reflexivity|]. rewrite E in S. clear E.
  unfold run_reader in S. change (deserialize_len rrs_cls (len pl)) with rrs_deserialize in S.
  destruct (rr_reply_decode (w_mem w1) v 0 rrs_make pl R)
    as [(i & to & xs & rest & dd & s & rs0 & gs & a & qq & t' & Ok & Ep & U & Or & Ed & D & I)|[N [(Ne & e1 & s & r1 & t' & Ie & D)|(i & to & xs & rest & r1 & t' & Ok & Ep & U & D)]]]; rewrite D in S; try discriminate.
  injection S as <- <-. destruct I as (_ & _ & I1 & _).
  apply l_bind_ret in H. destruct H as ([] & w4 & l11 & l12 & S & H & ->). unfold say_if, says in S. apply pair_equal_spec in S. destruct S as [S Sl]. subst l11.
  assert (E12 : l12 = []).
  { destruct (negb (ms_status _ =? 0)); [apply l_bind_ret in H; destruct H as (? & ? & ? & ? & _ & H & _); discriminate|]. injection H as _ _ <-. reflexivity. }
  subst l12. exists got, rs, st, c0, c1, o, after, xs, s. split; [exact Rv|]. split.
  { exists ses, pl, i, to, rest, rs0, gs, a, qq. split; [exact F|]. split; [exact Eg|]. split; [exact Ok|]. split; [exact Ep|]. split; [rewrite <- Ed; exact U|exact Or]. }
  pose proof (rr_log_holds _ _ _ _ _ _ _ Hl Ep Ok) as W2. rewrite I1.
  split; cycle 1.
  { intros Z. do 6 (apply in_or_app; right). apply in_or_app; left. rewrite Lor. destruct (N.eqb_spec s (sv + 128)); [contradiction|left; reflexivity]. }
  rewrite !logged_app, logged_one, logged_if, neq_true, W, W2, Lor. unfold odd_reply.
  pose proof (logged_nil Warn) as Nl. assert (Nd : Debug <> Warn) by discriminate. clear - Nl Nd. intuition.
Qed.
