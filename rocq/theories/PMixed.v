(** * Explicit messages and I/O do not disturb each other *)
From Verif Require Export Vocab30 PPlant PFresh3 PLocal2 PProcs PTarget.

(** ** Unlike memory is an equivalence *)
Lemma unlike_sym u w v : unlike_memory u w v -> unlike_memory u v w.
Proof. intros ((A1 & A2 & A3 & A4 & A5) & B & C & D & E). repeat split; try assumption; try congruence; solve [apply B|apply C|apply D|apply E]. Qed.
Lemma unlike_trans u w x v : unlike_memory u w x -> unlike_memory u x v -> unlike_memory u w v.
Proof.
  intros ((A1 & A2 & A3 & A4 & A5) & B & _ & D & _) ((C1 & C2 & C3 & C4 & C5) & _ & E & _ & F).
  split; [|auto]. repeat split; congruence.
Qed.
Lemma unlike_refl u w : session_ok w -> user_memory u w -> unlike_memory u w w.
Proof. intros A B. repeat split; try reflexivity; try apply A; apply B. Qed.
Definition any_g : garbage := gZ.
Lemma unlike_step u o w v : fresh_ok u o -> unlike_memory u w v -> exists r w' v', step o w = (r, w') /\ step o v = (r, v') /\ unlike_memory u w' v'.
Proof.
  intros F H. destruct (b_step u (w_rbuf w) 0 any_g o F w v (twin_any u w v H)) as (r & w' & v1 & l & E1 & E2 & T1 & _).
  assert (H' : unlike_memory u v v) by (apply unlike_refl; apply H).
  destruct (b_step u (w_rbuf v) 0 any_g o F v v (twin_any u v v H')) as (r' & v' & v2 & l' & E3 & E4 & T2 & _).
  rewrite E2 in E4. apply pair_equal_spec in E4 as [<- <-]. exists r, w', v'. split; [exact E1|]. split; [exact E3|].
  eapply unlike_trans; [eapply twin_unlike; exact T1|]. apply unlike_sym. eapply twin_unlike. exact T2.
Qed.
Lemma unlike_got u o w v r w' v' : fresh_ok u o -> unlike_memory u w v -> step o w = (r, w') -> step o v = (r, v') -> got_by o w r w' = got_by o v r v'.
Proof.
  intros [K C] H E1 E2. destruct o as [h p q| |T c t x y z|x y z d|a1 a2|n| |p]; try reflexivity.
  - destruct K as (Hx & Hy & Hz & _). destruct (b_get u (w_rbuf w) 0 c t x y z Hx Hy Hz C w v (twin_any u w v H)) as (o & t' & w1 & v1 & l & G1 & G2 & _).
    cbn [got_by]. rewrite G1, G2. reflexivity.
  - destruct (b_receive u (w_rbuf w) 0 w v (twin_any u w v H)) as (o & w1 & v1 & l & G1 & G2 & T & q). cbn [step] in E1, E2. unfold mbind in E1, E2. rewrite G1 in E1. rewrite G2 in E2.
    destruct o as [p|e s|ub|]; apply pair_equal_spec in E1 as [<- <-]; apply pair_equal_spec in E2 as [_ <-]; try reflexivity.
    cbn [got_by]. f_equal. apply map_ext_in. intros i Hi. specialize (q p eq_refl). rewrite Forall_forall in q. specialize (q i Hi).
    unfold item_bytes. f_equal. destruct q as [->|(sb & -> & (W1 & W2 & W3) & _)]; [reflexivity|]. cbn [s_sbuf ser_of_sbuf]. f_equal.
    unfold load_view. rewrite W1. apply (tw_buf _ _ _ _ _ T); assumption.
Qed.

(** ** Explicit messages in worlds that are alike but for I/O *)
Lemma run_locp {A} full u b (Q : A -> Prop) p : locp full u b Q p -> forall w v, alike full u b w v -> exists o w' v', run p w = (o, w') /\ run p v = (o, v') /\ alike full u b w' v'.
Proof.
  induction p as [o|C x k IH]; intros P w v L; [exists o, w, v; auto|]. destruct (P w v L) as (o & w' & v' & E1 & E2 & L' & _ & H).
  cbn [run]. rewrite E1, E2. exact (IH o H w' v' L').
Qed.
Lemma tight_local {T} (c : cls T) : tight_cls c -> local_cls c.
Proof.
  intros [_ H] n m m' v k t E. apply H. intros off j _ _. unfold load. rewrite E. reflexivity.
Qed.
Lemma fresh_call u o : fresh_ok u o -> call_ok u o.
Proof. intros [K C]. split; [exact K|]. destruct o; auto. destruct C as [C|C]; [left; exact C|right; apply tight_local; exact C]. Qed.
Lemma control_explicit o : on_control o = true -> explicit o.
Proof. destruct o; try discriminate; intros _; exact I. Qed.
Lemma alike_step u b o w v : fresh_ok u o -> on_control o = true -> alike false u b w v ->
  exists r w' v', step o w = (r, w') /\ step o v = (r, v') /\ alike false u b w' v' /\ got_by o w r w' = got_by o v r v'.
Proof.
  intros F C L. pose proof (fresh_call u o F) as F'. destruct (run_locp _ _ _ _ _ (p_op false u b o (or_intror (control_explicit o C)) F') w v L) as (r & w' & v' & E1 & E2 & L').
  rewrite run_op in E1, E2. exists r, w', v'. split; [exact E1|]. split; [exact E2|]. split; [exact L'|].
  destruct o as [h p q| |T c t x y z|x y z d|a1 a2|n| |p]; try discriminate; try reflexivity.
  destruct F' as [(Hx & Hy & Hz & _) Cl]. destruct (run_locp _ _ _ _ _ (p_get false u b c t x y z Hx Hy Hz Cl) w v L) as (o & w1 & v1 & G1 & G2 & _).
  rewrite run_get in G1, G2. cbn [step] in E1, E2. cbn [got_by].
  destruct (getSingleAttributeSerializable c x y z t w) as [[ow tw] ww]. destruct (getSingleAttributeSerializable c x y z t v) as [[ov tv] vv].
  destruct ow as [[]|e s|ub|]; apply pair_equal_spec in E1 as [<- <-]; try reflexivity.
  destruct ov as [[]|e s|ub|]; apply pair_equal_spec in E2 as [E2 <-]; try discriminate.
  apply pair_equal_spec in G1 as [<- _]. apply pair_equal_spec in G2 as [G2 _]. injection G2 as ->. reflexivity.
Qed.

(** ** A call on one side, a call on both *)
Definition rel_c (u : heap) (w v : world) : Prop := exists x, alike false u (w_rbuf w) w x /\ unlike_memory u x v.
Lemma c_both u o w v : fresh_ok u o -> on_control o = true -> rel_c u w v ->
  exists r w' v', step o w = (r, w') /\ step o v = (r, v') /\ rel_c u w' v' /\ got_by o w r w' = got_by o v r v'.
Proof.
  intros F C (x & L & U). destruct (alike_step u _ o w x F C L) as (r & w' & x' & E1 & E2 & L' & G). destruct (unlike_step u o x v F U) as (r2 & x2 & v' & E3 & E4 & U').
  rewrite E2 in E3. apply pair_equal_spec in E3 as [<- <-]. exists r, w', v'. split; [exact E1|]. split; [exact E4|]. split.
  - exists x'. split; [|exact U']. rewrite (al_b1 _ _ _ _ _ L'). exact L'.
  - rewrite G. eapply unlike_got; eassumption.
Qed.
Lemma ctl_talk_io es : Forall (fun e => match e with ESend Io _ _ | ERecv Io _ => True | _ => False end) es -> ctl_talk es = [].
Proof. induction 1 as [|e es H _ IH]; [reflexivity|]. cbn [ctl_talk flat_map]. destruct e as [[] ? ? ?|[] ? ?|[] ?|[] ?]; try contradiction; exact IH. Qed.
Lemma io_talk_app a b : io_talk (a ++ b) = io_talk a ++ io_talk b.
Proof. apply flat_map_app. Qed.
(** What an I/O call does, whatever the control socket, the members and the trace are. *)
Definition re_ctl (c : sock) (n : list event) (s : session) (w : world) : world := mkW (w_mem w) c (w_io w) n s (w_rbuf w).
Definition framed {A} (x : M A) : Prop := forall w o w', x w = (o, w') -> w_ctl w' = w_ctl w /\ w_se w' = w_se w /\ w_rbuf w' = w_rbuf w /\
  exists es, w_net w' = w_net w ++ es /\ Forall (fun e => match e with ESend Io _ _ | ERecv Io _ => True | _ => False end) es /\
    forall c n s, x (re_ctl c n s w) = (o, re_ctl c (n ++ es) s w').
Lemma f_none {A} (x : M A) : (forall w, exists o m, x w = (o, set_mem m w) /\ forall c n s, x (re_ctl c n s w) = (o, re_ctl c n s (set_mem m w))) -> framed x.
Proof.
  intros H w o w' E. destruct (H w) as (o1 & m & E1 & E2). rewrite E1 in E. apply pair_equal_spec in E as [<- <-]. repeat (split; [reflexivity|]).
  exists []. split; [cbn; now rewrite app_nil_r|]. split; [constructor|]. intros c n s. rewrite app_nil_r. apply E2.
Qed.
Lemma f_ret {A} (a : A) : framed (mret a).
Proof. apply f_none. intros w. exists (Ret a), (w_mem w). rewrite set_mem_same. split; reflexivity. Qed.
Lemma f_bind {A B} (x : M A) (f : A -> M B) : framed x -> (forall a, framed (f a)) -> framed (mbind x f).
Proof.
  intros X F w o w'. unfold mbind. destruct (x w) as [o1 w1] eqn:E1. destruct (X w o1 w1 E1) as (A1 & A2 & A3 & es & A4 & A5 & A6).
  destruct o1 as [a|e m|ub|].
  - intros E2. destruct (F a w1 o w' E2) as (B1 & B2 & B3 & es' & B4 & B5 & B6). repeat (split; [congruence|]). exists (es ++ es'). split; [rewrite B4, A4, app_assoc; reflexivity|].
    split; [apply Forall_app; auto|]. intros c n s. rewrite A6, B6, app_assoc. reflexivity.
  - intros E2. apply pair_equal_spec in E2 as [<- <-]. repeat (split; [assumption|]). exists es. split; [assumption|]. split; [assumption|]. intros c n s. rewrite A6. reflexivity.
  - intros E2. apply pair_equal_spec in E2 as [<- <-]. repeat (split; [assumption|]). exists es. split; [assumption|]. split; [assumption|]. intros c n s. rewrite A6. reflexivity.
  - intros E2. apply pair_equal_spec in E2 as [<- <-]. repeat (split; [assumption|]). exists es. split; [assumption|]. split; [assumption|]. intros c n s. rewrite A6. reflexivity.
Qed.
Lemma f_with {A} (f : world -> M A) (g : nat -> M A) : (forall w, f w = g (w_rbuf w)) -> (forall b, framed (g b)) -> framed (fun w => f w w).
Proof.
  intros E F w o w'. rewrite E. intros H. destruct (F _ w o w' H) as (A1 & A2 & A3 & es & A4 & A5 & A6). repeat (split; [assumption|]). exists es. split; [assumption|]. split; [assumption|].
  intros c n s. rewrite E. apply A6.
Qed.
Lemma f_recv v : framed (sock_recv Io v).
Proof.
  intros w o w'. unfold sock_recv. cbn [get_sock]. destruct (so_recv (w_io w)) as [|[d|] rs] eqn:R.
  - intros E. apply pair_equal_spec in E as [<- <-]. repeat (split; [reflexivity|]). exists []. split; [now rewrite app_nil_r|]. split; [constructor|]. intros c n s. cbn [re_ctl w_io]. rewrite R, app_nil_r. reflexivity.
  - cbn [set_sock w_mem]. destruct (store (w_mem w) (v_blk v) (v_off v) (take (v_len v) d)) eqn:X; intros E; apply pair_equal_spec in E as [<- <-]; repeat (split; [reflexivity|]).
    + eexists. split; [reflexivity|]. split; [repeat constructor|]. intros c' n s. cbn [re_ctl w_io w_mem]. rewrite R, X. reflexivity.
    + exists []. split; [now rewrite app_nil_r|]. split; [constructor|]. intros c' n s'. cbn [re_ctl w_io w_mem]. rewrite R, X, app_nil_r. reflexivity.
    + exists []. split; [now rewrite app_nil_r|]. split; [constructor|]. intros c' n s'. cbn [re_ctl w_io w_mem]. rewrite R, X, app_nil_r. reflexivity.
    + exists []. split; [now rewrite app_nil_r|]. split; [constructor|]. intros c' n s'. cbn [re_ctl w_io w_mem]. rewrite R, X, app_nil_r. reflexivity.
  - intros E. apply pair_equal_spec in E as [<- <-]. repeat (split; [reflexivity|]). eexists. split; [reflexivity|]. split; [repeat constructor|]. intros c n s. cbn [re_ctl w_io]. rewrite R. reflexivity.
Qed.
Lemma f_decode {T} (x : D T unit) v t : framed (m_decode x v t).
Proof.
  apply f_none. intros w. unfold m_decode. destruct (x (w_mem w) (RBuf v 0) t) as [[[o m] r] t'] eqn:X. destruct o as [[]|e s|ub|]; [destruct r| | |]; do 2 eexists;
    (split; [reflexivity|]); intros c' n' s'; cbn [re_ctl w_mem]; rewrite X; reflexivity.
Qed.
Lemma f_send bs : framed (sock_send Io bs).
Proof.
  intros w o w'. unfold sock_send. cbn [get_sock]. destruct (match so_send (w_io w) with [] => TxAll | x :: _ => x end) eqn:X; intros E; apply pair_equal_spec in E as [<- <-];
    repeat (split; [reflexivity|]); (eexists; split; [reflexivity|]; split; [repeat constructor|]; intros c n' s; cbn [re_ctl w_io]; rewrite X; reflexivity).
Qed.
Lemma f_heap {A} (f : heap -> outcome A * heap) : framed (mheap f).
Proof. apply f_none. intros w. unfold mheap. destruct (f (w_mem w)) as [o m] eqn:X. exists o, m. split; [reflexivity|]. intros c n s. cbn [re_ctl w_mem]. rewrite X. reflexivity. Qed.
Lemma f_out {A} (o : outcome A) : framed (mout o).
Proof. apply f_none. intros w. exists o, (w_mem w). rewrite set_mem_same. split; reflexivity. Qed.
Lemma f_finally {A} (x : M A) (y : M unit) : framed x -> framed y -> framed (mfinally x y).
Proof.
  intros X Y w o w'. unfold mfinally. destruct (x w) as [o1 w1] eqn:E1. destruct (X w o1 w1 E1) as (A1 & A2 & A3 & es & A4 & A5 & A6).
  assert (K : forall z : M A, framed z -> z w1 = (o, w') -> (forall c n s, match x (re_ctl c n s w) with (_, v) => z v end = z (re_ctl c (n ++ es) s w1)) /\
    w_ctl w' = w_ctl w /\ w_se w' = w_se w /\ w_rbuf w' = w_rbuf w /\ exists es', w_net w' = w_net w ++ es ++ es' /\
    Forall (fun e => match e with ESend Io _ _ | ERecv Io _ => True | _ => False end) (es ++ es') /\ forall c n s, z (re_ctl c (n ++ es) s w1) = (o, re_ctl c (n ++ es ++ es') s w')).
  { intros z Z E2. destruct (Z w1 o w' E2) as (B1 & B2 & B3 & es' & B4 & B5 & B6). split; [intros c n s; rewrite A6; reflexivity|]. repeat (split; [congruence|]). exists es'.
    split; [rewrite B4, A4, app_assoc; reflexivity|]. split; [apply Forall_app; auto|]. intros c n s. rewrite B6, app_assoc. reflexivity. }
  destruct o1 as [a|e m|ub|].
  - intros E2. destruct (K _ (f_bind _ _ Y (fun _ => f_ret a)) E2) as (K1 & K2 & K3 & K4 & es' & K5 & K6 & K7). repeat (split; [assumption|]). exists (es ++ es'). split; [assumption|]. split; [assumption|].
    intros c n s. rewrite A6. apply K7.
  - intros E2. destruct (K _ (f_bind _ _ Y (fun _ => f_out (Throw e m))) E2) as (K1 & K2 & K3 & K4 & es' & K5 & K6 & K7). repeat (split; [assumption|]). exists (es ++ es'). split; [assumption|]. split; [assumption|].
    intros c n s. rewrite A6. apply K7.
  - intros E2. apply pair_equal_spec in E2 as [<- <-]. repeat (split; [assumption|]). exists es. split; [assumption|]. split; [assumption|]. intros c n s. rewrite A6. reflexivity.
  - intros E2. apply pair_equal_spec in E2 as [<- <-]. repeat (split; [assumption|]). exists es. split; [assumption|]. split; [assumption|]. intros c n s. rewrite A6. reflexivity.
Qed.
Lemma f_io o : on_io o = true -> framed (step o).
Proof.
  destruct o; try discriminate; intros _; cbn [step].
  - apply f_bind; [|intros; apply f_ret]. unfold receiveIOPacket.
    apply (f_with (fun w => let* n := sock_recv Io (recv_view w) in let* r := m_decode cpf_deserialize (view_take (recv_view w) n) [] in mret (fst r))
                  (fun b => let* n := sock_recv Io (mkV b 0 4096) in let* r := m_decode cpf_deserialize (view_take (mkV b 0 4096) n) [] in mret (fst r))).
    + reflexivity.
    + intros b. apply f_bind; [apply f_recv|]. intros n. apply f_bind; [apply f_decode|]. intros r. apply f_ret.
  - apply f_bind; [|intros; apply f_ret]. unfold sendIOPacket. apply f_bind; [|intros; apply f_ret]. unfold sock_send_ser.
    apply f_bind; [apply f_out|intros n]. apply f_bind; [apply f_heap|intros b]. apply f_finally; [|apply f_heap].
    apply f_bind; [apply f_heap|intros _]. apply f_bind; [apply f_heap|intros bs]. apply f_send.
Qed.
Lemma io_talk_events k bs : io_talk (events k bs) = [].
Proof. unfold events, talk. destruct (sent k bs) as [n|]; [|reflexivity]. destruct (so_recv k) as [|[d|] r]; reflexivity. Qed.
(** What an explicit message leaves alone. *)
Lemma control_frame u o w r w' : on_control o = true -> session_ok w -> user_memory u w -> op_ok u o -> step o w = (r, w') ->
  w_io w' = w_io w /\ w_rbuf w' = w_rbuf w /\ exists es, w_net w' = w_net w ++ es /\ io_talk es = [].
Proof.
  intros C SO UM OK E. destruct SO as (RB & FI & TK). destruct o as [h p q| |T c v x y z|x y z d|a b|n| |p]; try discriminate; cbn [op_ok] in OK.
  - destruct OK as (X & Y & Z & K). destruct (get_any c v w x y z RB X Y Z K) as (ro & v' & w1 & E1 & EX & _). cbn [step] in E. rewrite E1 in E.
    assert (w1 = w') by (destruct ro; congruence). subst w1. destruct EX as (_ & X1 & X2 & _ & _ & Nt & _). split; [exact X2|]. split; [exact X1|]. eexists. split; [exact Nt|apply io_talk_events].
  - destruct OK as (X & Y & Z & data & CA & L). assert (CA' := carries_opt_hext _ _ _ _ (proj1 UM) CA).
    destruct (set_attribute w x y z d data RB X Y Z CA') as (ro & w1 & E1 & EX & _). cbn [step] in E. rewrite (mbind_unit _ (fun _ => RUnit) _ _ _ E1) in E.
    assert (w1 = w') by congruence. subst w1. destruct EX as (_ & X1 & X2 & _ & _ & Nt & _). split; [exact X2|]. split; [exact X1|]. eexists. split; [exact Nt|apply io_talk_events].
  - destruct OK as (X & Y). destruct (create_connection w a b RB X Y) as (ro & w1 & E1 & EX & _). cbn [step] in E. rewrite (mbind_unit _ RNumber _ _ _ E1) in E.
    assert (w1 = w') by congruence. subst w1. destruct EX as (X1 & X2 & _ & _ & Nt & _). split; [exact X2|]. split; [exact X1|]. eexists. split; [exact Nt|apply io_talk_events].
  - destruct (nth_error (se_conns (w_se w)) (N.to_nat n)) as [c|] eqn:Hn.
    + assert (Tc : cn_tick_size c < 256 /\ cn_ticks c < 256) by (rewrite Forall_forall in TK; apply TK; eapply nth_error_In; exact Hn).
      destruct (close_connection w n c RB Hn (proj1 Tc) (proj2 Tc)) as (ro & w1 & E1 & EX & _).
      cbn [step] in E. rewrite (mbind_unit _ (fun _ => RUnit) _ _ _ E1) in E.
      assert (w1 = w') by congruence. subst w1. destruct EX as (X1 & X2 & _ & _ & Nt & _). split; [exact X2|]. split; [exact X1|]. eexists. split; [exact Nt|apply io_talk_events].
    + cbn [step] in E. rewrite (mbind_unit _ (fun _ => RUnit) _ _ _ (close_connection_bad w n Hn)) in E. assert (w' = w) by congruence. subst w'.
      split; [reflexivity|]. split; [reflexivity|]. exists []. split; [now rewrite app_nil_r|reflexivity].
Qed.
Lemma io_not_control o : on_io o = true -> on_control o = false.
Proof. destruct o; (discriminate || reflexivity). Qed.
Lemma control_not_io o : on_control o = true -> on_io o = false.
Proof. destruct o; (discriminate || reflexivity). Qed.

Lemma c_idle u o w v r w' : op_ok u o -> on_io o = true -> rel_c u w v -> step o w = (r, w') -> rel_c u w' v.
Proof.
  intros K C (x & L & U) E. pose proof (al_ok _ _ _ _ _ L) as SO. pose proof (al_u1 _ _ _ _ _ L) as UM. destruct (step_kept u o w r w' SO UM K E) as (SO' & UM' & _).
  destruct (f_io o C w r w' E) as (A1 & A2 & A3 & es & A4 & A5 & _). destruct L as [L1 L2 L3 L4 L5 L6 L7 L8 L9]. destruct U as ((B1 & B2 & B3 & B4 & B5) & B6 & B7 & B8 & B9).
  exists (mkW (w_mem w') (w_ctl w') (w_io v) (w_net v) (w_se w') (w_rbuf w')). split.
  - constructor; try reflexivity; try assumption. cbn [w_net]. rewrite A4, ctl_talk_app, (ctl_talk_io _ A5), app_nil_r, L9, B3. reflexivity.
  - split; [|auto]. repeat split; cbn; congruence.
Qed.
Definition rel_i (u : heap) (w v : world) : Prop :=
  unlike_memory u (re_ctl (w_ctl v) (w_net v) (w_se v) w) v /\ io_talk (w_net w) = io_talk (w_net v) /\ session_ok w /\ user_memory u w.
Lemma got_io o w v r w' v' : on_io o = true -> w_mem w' = w_mem v' -> got_by o w r w' = got_by o v r v'.
Proof. intros C E. destruct o; try discriminate; cbn [got_by]; [rewrite E; reflexivity|reflexivity]. Qed.
Lemma i_both u o w v : fresh_ok u o -> on_io o = true -> rel_i u w v ->
  exists r w' v', step o w = (r, w') /\ step o v = (r, v') /\ rel_i u w' v' /\ got_by o w r w' = got_by o v r v'.
Proof.
  intros F C (U & N1 & SO & UM). destruct (step o w) as [r w'] eqn:E. destruct (f_io o C w r w' E) as (A1 & A2 & A3 & es & A4 & A5 & A6).
  specialize (A6 (w_ctl v) (w_net v) (w_se v)). destruct (unlike_step u o _ v F U) as (r1 & x' & v' & E1 & E2 & U'). rewrite A6 in E1. apply pair_equal_spec in E1 as [<- <-].
  exists r, w', v'. split; [reflexivity|]. split; [exact E2|]. destruct (step_kept u o w r w' SO UM (proj1 F) E) as (SO' & UM' & _).
  pose proof U' as ((B1 & B2 & B3 & B4 & B5) & _). cbn [re_ctl w_ctl w_net w_se] in B1, B3, B4. split.
  - split; [|split; [|auto]].
    + rewrite <- B1, <- B3, <- B4. exact U'.
    + rewrite <- B3, A4, !io_talk_app, N1. reflexivity.
  - rewrite (got_io o w (re_ctl (w_ctl v) (w_net v) (w_se v) w) r w' (re_ctl (w_ctl v) (w_net v ++ es) (w_se v) w') C eq_refl). eapply unlike_got; eassumption.
Qed.
Lemma i_idle u o w v r w' : op_ok u o -> on_control o = true -> rel_i u w v -> step o w = (r, w') -> rel_i u w' v.
Proof.
  intros K C (U & N1 & SO & UM) E. destruct (control_frame u o w r w' C SO UM K E) as (A1 & A2 & es & A3 & A4). destruct (step_kept u o w r w' SO UM K E) as (SO' & UM' & _).
  destruct U as ((B1 & B2 & B3 & B4 & B5) & B6 & B7 & B8 & B9). split; [|split; [rewrite A3, io_talk_app, A4, app_nil_r; exact N1|auto]].
  split; [|split; [|split; [exact B7|split; [exact UM'|exact B9]]]].
  - repeat split; cbn in *; congruence.
  - split; [exact (proj1 SO')|exact (proj2 B6)].
Qed.

(** ** Histories *)

Lemma made_cons o ops w r w' : step o w = (r, w') -> all_made (o :: ops) w -> (exists a, r = Ret a) \/ (exists e s, r = Throw e s).
Proof. intros E [_ H]. cbn [calls] in H. rewrite E in H. inversion H as [|? ? H1 _]; subst. destruct r; try contradiction; eauto. Qed.
Lemma made_tail o ops w r w' : step o w = (r, w') -> no_ub r -> all_made (o :: ops) w <-> all_made ops w'.
Proof.
  intros E N1. unfold all_made. cbn [calls]. rewrite E. destruct r; try contradiction; cbn [List.length]; (split; intros [H1 H2]; [inversion H2; split; [congruence|assumption]|split; [congruence|constructor; [exact I|assumption]]]).
Qed.
Lemma after_cons o ops w r w' : step o w = (r, w') -> no_ub r -> after_calls (o :: ops) w = after_calls ops w'.
Proof. intros E N1. unfold after_calls. cbn [exec]. rewrite E. destruct r; try contradiction; destruct (exec ops w'); reflexivity. Qed.
Lemma record_cons o ops w r w' : step o w = (r, w') -> record (o :: ops) w = (o, r, got_by o w r w') :: match r with Ret _ | Throw _ _ => record ops w' | _ => [] end.
Proof. intros E. unfold record. cbn [calls]. rewrite E. cbn [map]. destruct r; reflexivity. Qed.
Section side.
  Context (u : heap) (mine other : op -> bool) (rel : world -> world -> Prop).
  Context (both_ : forall o w v, fresh_ok u o -> mine o = true -> rel w v -> exists r w' v', step o w = (r, w') /\ step o v = (r, v') /\ rel w' v' /\ got_by o w r w' = got_by o v r v').
  Context (idle_ : forall o w v r w', op_ok u o -> other o = true -> rel w v -> step o w = (r, w') -> rel w' v).
  Context (apart : forall o, other o = true -> mine o = false).
  Lemma side_history ops : Forall (fun o => mine o = true \/ other o = true) ops -> Forall (fresh_ok u) ops -> forall w v, rel w v ->
    (exists rest, record (filter mine ops) v = filter (fun x => mine (fst (fst x))) (record ops w) ++ rest) /\
    (all_made ops w -> record (filter mine ops) v = filter (fun x => mine (fst (fst x))) (record ops w) /\ all_made (filter mine ops) v /\
       rel (after_calls ops w) (after_calls (filter mine ops) v)).
  Proof.
    induction ops as [|o ops IH]; intros S1 F w v R.
    - split; [exists []; reflexivity|]. intros _. split; [reflexivity|]. split; [split; [reflexivity|constructor]|exact R].
    - inversion_clear S1 as [|? ? S0 S2]. inversion_clear F as [|? ? F1 F2]. destruct S0 as [C|C].
      + cbn [filter]. rewrite C. destruct (both_ o w v F1 C R) as (r & w' & v' & E1 & E2 & R' & G). rewrite (record_cons o ops w r w' E1), (record_cons o _ v r v' E2), G.
        cbn [filter fst]. rewrite C. destruct (IH S2 F2 w' v' R') as ((rest & H1) & H2). split.
        * destruct r; [exists rest|exists rest|exists []|exists []]; cbn [app]; f_equal; assumption || (rewrite app_nil_r; reflexivity) || reflexivity.
        * intros M. assert (N1 : no_ub r) by (destruct (made_cons _ _ _ _ _ E1 M) as [(a & ->)|(e & s & ->)]; exact I).
          apply (made_tail _ _ _ _ _ E1 N1) in M. destruct (H2 M) as (H3 & H4 & H5). rewrite (after_cons _ _ _ _ _ E1 N1), (after_cons _ _ _ _ _ E2 N1).
          split; [|split; [apply (made_tail _ _ _ _ _ E2 N1); exact H4|exact H5]]. destruct r; try contradiction; f_equal; exact H3.
      + pose proof (apart o C) as C'. cbn [filter]. rewrite C'. destruct (step o w) as [r w'] eqn:E1. pose proof (idle_ o w v r w' (proj1 F1) C R E1) as R'.
        rewrite (record_cons o ops w r w' E1). cbn [filter fst]. rewrite C'. destruct (IH S2 F2 w' v R') as ((rest & H1) & H2). split.
        * destruct r; [exists rest; exact H1|exists rest; exact H1|eexists; reflexivity|eexists; reflexivity].
        * intros M. assert (N1 : no_ub r) by (destruct (made_cons _ _ _ _ _ E1 M) as [(a & ->)|(e & s & ->)]; exact I).
          apply (made_tail _ _ _ _ _ E1 N1) in M. destruct (H2 M) as (H3 & H4 & H5). rewrite (after_cons _ _ _ _ _ E1 N1).
          split; [|split; [exact H4|exact H5]]. destruct r; try contradiction; exact H3.
  Qed.
End side.
Lemma rel_c_refl u w : session_ok w -> user_memory u w -> rel_c u w w.
Proof. intros A B. exists w. split; [constructor; try reflexivity; assumption|apply unlike_refl; assumption]. Qed.
Lemma rel_i_refl u w : session_ok w -> user_memory u w -> rel_i u w w.
Proof. intros A B. split; [|auto]. replace (re_ctl _ _ _ w) with w by (destruct w; reflexivity). apply unlike_refl; assumption. Qed.
Lemma rel_c_same u w v : rel_c u w v -> same_control w v.
Proof. intros (x & L & ((B1 & B2 & B3 & B4 & B5) & _)). destruct L as [L1 L2 L3 L4 L5 L6 L7 L8 L9]. repeat split; congruence. Qed.
Lemma rel_i_same u w v : rel_i u w v -> same_io w v.
Proof. intros (((B1 & B2 & B3 & B4 & B5) & _) & N1 & _). split; [exact B2|exact N1]. Qed.
Lemma mixed_commands u ops w : session_ok w -> user_memory u w -> Forall mixed ops -> Forall (fresh_ok u) ops ->
  (exists rest, record (filter on_control ops) w = filter of_control (record ops w) ++ rest) /\
  (all_made ops w -> record (filter on_control ops) w = filter of_control (record ops w) /\ all_made (filter on_control ops) w /\
     same_control (after_calls ops w) (after_calls (filter on_control ops) w)).
Proof.
  intros SO UM S1 F. destruct (side_history u on_control on_io (rel_c u)) with (ops := ops) (w := w) (v := w) as [H1 H2]; try assumption.
  - intros o x v F1 C R. exact (c_both u o x v F1 C R).
  - intros o x v r x' K C R E. exact (c_idle u o x v r x' K C R E).
  - apply io_not_control.
  - apply rel_c_refl; assumption.
  - split; [exact H1|]. intros M. destruct (H2 M) as (A & B & C). split; [exact A|]. split; [exact B|]. eapply rel_c_same. exact C.
Qed.
Lemma mixed_io u ops w : session_ok w -> user_memory u w -> Forall mixed ops -> Forall (fresh_ok u) ops ->
  (exists rest, record (filter on_io ops) w = filter of_io (record ops w) ++ rest) /\
  (all_made ops w -> record (filter on_io ops) w = filter of_io (record ops w) /\ all_made (filter on_io ops) w /\
     same_io (after_calls ops w) (after_calls (filter on_io ops) w)).
Proof.
  intros SO UM S1 F. destruct (side_history u on_io on_control (rel_i u)) with (ops := ops) (w := w) (v := w) as [H1 H2]; try assumption.
  - intros o x v F1 C R. exact (i_both u o x v F1 C R).
  - intros o x v r x' K C R E. exact (i_idle u o x v r x' K C R E).
  - apply control_not_io.
  - eapply Forall_impl; [|exact S1]. intros o [C|C]; auto.
  - apply rel_i_refl; assumption.
  - split; [exact H1|]. intros M. destruct (H2 M) as (A & B & C). split; [exact A|]. split; [exact B|]. eapply rel_i_same. exact C.
Qed.
Lemma mixed_made u ops : Forall mixed ops -> Forall (fresh_ok u) ops -> forall w vc vi, rel_c u w vc -> rel_i u w vi ->
  all_made (filter on_control ops) vc -> all_made (filter on_io ops) vi -> all_made ops w.
Proof.
  induction ops as [|o ops IH]; intros S1 F w vc vi Rc Ri Mc Mi; [split; [reflexivity|constructor]|].
  inversion_clear S1 as [|? ? S0 S2]. inversion_clear F as [|? ? F1 F2]. cbn [filter] in Mc, Mi. destruct S0 as [C|C].
  - rewrite C in Mc. rewrite (control_not_io o C) in Mi. destruct (c_both u o w vc F1 C Rc) as (r & w' & v' & E1 & E2 & R' & _).
    assert (N1 : no_ub r) by (destruct (made_cons _ _ _ _ _ E2 Mc) as [(a & ->)|(e & s & ->)]; exact I).
    apply (made_tail _ _ _ _ _ E1 N1). apply (made_tail _ _ _ _ _ E2 N1) in Mc. eapply IH; [exact S2|exact F2|exact R'|eapply i_idle; [exact (proj1 F1)|exact C|exact Ri|exact E1]|exact Mc|exact Mi].
  - rewrite C in Mi. rewrite (io_not_control o C) in Mc. destruct (i_both u o w vi F1 C Ri) as (r & w' & v' & E1 & E2 & R' & _).
    assert (N1 : no_ub r) by (destruct (made_cons _ _ _ _ _ E2 Mi) as [(a & ->)|(e & s & ->)]; exact I).
    apply (made_tail _ _ _ _ _ E1 N1). apply (made_tail _ _ _ _ _ E2 N1) in Mi. eapply IH; [exact S2|exact F2|eapply c_idle; [exact (proj1 F1)|exact C|exact Rc|exact E1]|exact R'|exact Mc|exact Mi].
Qed.
Lemma mixed_order u ops ops' w : session_ok w -> user_memory u w -> Forall mixed ops -> Forall mixed ops' -> Forall (fresh_ok u) ops -> Forall (fresh_ok u) ops' ->
  filter on_control ops' = filter on_control ops -> filter on_io ops' = filter on_io ops -> all_made ops w ->
  all_made ops' w /\ filter of_control (record ops' w) = filter of_control (record ops w) /\ filter of_io (record ops' w) = filter of_io (record ops w) /\
  same_control (after_calls ops' w) (after_calls ops w) /\ same_io (after_calls ops' w) (after_calls ops w).
Proof.
  intros SO UM S1 S2 F1 F2 E1 E2 M1. destruct (mixed_commands u ops w SO UM S1 F1) as [_ A1]. destruct (A1 M1) as (A2 & A0 & A3 & A4 & A5). clear A1.
  destruct (mixed_io u ops w SO UM S1 F1) as [_ C1]. destruct (C1 M1) as (C2 & C0 & C3 & C4). clear C1.
  assert (M2 : all_made ops' w). { apply (mixed_made u ops' S2 F2 w w w); [apply rel_c_refl; assumption|apply rel_i_refl; assumption|rewrite E1; exact A0|rewrite E2; exact C0]. }
  split; [exact M2|]. destruct (mixed_commands u ops' w SO UM S2 F2) as [_ B1]. destruct (B1 M2) as (B2 & _ & B3 & B4 & B5). clear B1.
  destruct (mixed_io u ops' w SO UM S2 F2) as [_ D1]. destruct (D1 M2) as (D2 & _ & D3 & D4). clear D1.
  rewrite E1 in B2, B3, B4, B5. rewrite E2 in D2, D3, D4. unfold same_control, same_io. repeat split; congruence.
Qed.

(** ** A case *)
Definition ops_mixed : list op := [OpGet N (prim_cls 2) 0 1 2 3; OpReceiveIO; OpCreate ci0 ci0; OpSendIO []; OpReceiveIO; OpGet N (prim_cls 2) 0 1 2 4].
Definition ops_moved : list op := [OpReceiveIO; OpSendIO []; OpGet N (prim_cls 2) 0 1 2 3; OpCreate ci0 ci0; OpGet N (prim_cls 2) 0 1 2 4; OpReceiveIO].
Definition w_mixed : world := let w := session_make []
  (mkSock [] [] [RxData (explicit_reply 9 0x8E 0 (le 2 513)); RxData (fo_reply 7); RxData (explicit_reply 9 0x8E 0 (le 2 772))] [])
  (mkSock [] [] [RxData two_items; RxFail] []) 0x195 0x4321 7 100 in set_se (set_id 9 (w_se w)) w.
Lemma ops_mixed_ok : Forall mixed ops_mixed /\ Forall mixed ops_moved /\ Forall (fresh_ok []) ops_mixed /\ Forall (fresh_ok []) ops_moved.
Proof.
  assert (G : forall x y z, x < 256 -> y < 256 -> z < 256 -> fresh_ok [] (OpGet N (prim_cls 2) 0 x y z)).
  { intros x y z Hx Hy Hz. split; [split; [exact Hx|split; [exact Hy|split; [exact Hz|right; apply prim_keeps]]]|]. right. apply tight_prim. }
  assert (C : fresh_ok [] (OpCreate ci0 ci0)) by (split; [split; reflexivity|exact I]).
  assert (S1 : fresh_ok [] (OpSendIO [])). { split; [|exact I]. exists []. eapply cpf_carries with (xs := []); constructor. }
  assert (R : fresh_ok [] OpReceiveIO) by (split; exact I).
  unfold ops_mixed, ops_moved. repeat split; repeat (apply Forall_cons; [first [left; reflexivity|right; reflexivity|exact R|exact C|exact S1|apply G; reflexivity]|]); apply Forall_nil.
Qed.
Lemma mixed_example : session_ok w_mixed /\ user_memory [] w_mixed /\ all_made ops_mixed w_mixed /\
  filter on_control ops_moved = filter on_control ops_mixed /\ filter on_io ops_moved = filter on_io ops_mixed /\
  map (fun x => (snd (fst x), snd x)) (filter of_control (record ops_mixed w_mixed)) = [(Ret RUnit, Value N 513); (Ret (RNumber 0), Nothing); (Ret RUnit, Value N 772)] /\
  map snd (filter of_io (record ops_mixed w_mixed)) = [Items [(0x8002, Some (Ret (seq_address 7 1))); (0x00B1, Some (Ret [x01; x02; x03]))]; Nothing; Nothing].
Proof.
  assert (X : session_ok w_mixed /\ user_memory [] w_mixed) by 
    (split; [split; [exists (zeros 4096); split; reflexivity|split; [reflexivity|constructor]]|split; [intros [] ? [=]|intros ? [=]]]).
  split; [apply X|]. split; [apply X|].
  split; [split; [vm_compute; reflexivity|]|]. 
  { vm_compute. repeat constructor. }
  split; [reflexivity|]. split; [reflexivity|]. split; vm_compute; reflexivity.
Qed.
