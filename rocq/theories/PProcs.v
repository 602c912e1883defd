(** * The programs of Procs.v are the calls of Session.v *)
From Verif Require Export Procs PObjects.

Lemma run_bind {A B} (p : prog A) (f : A -> prog B) w : run (pbind p f) w = mbind (run p) (fun a => run (f a)) w.
Proof.
  revert w. induction p as [o|C x k IH]; intros w.
  - destruct o; reflexivity.
  - cbn [pbind run]. unfold mbind. cbn [run]. destruct (x w) as [o w']. exact (IH o w').
Qed.
Lemma run_catch {A} (p h1 h2 : prog A) w : run (pcatch p h1 h2) w = mcatch (run p) (run h1) (run h2) w.
Proof.
  revert w. induction p as [o|C x k IH]; intros w.
  - destruct o as [a|c s|ub|]; try reflexivity. cbn [pcatch run]. unfold mcatch. cbn [run]. destruct (is_a c LengthError); [reflexivity|].
    destruct (is_a c LogicError); reflexivity.
  - cbn [pcatch run]. unfold mcatch. cbn [run]. destruct (x w) as [o w']. exact (IH o w').
Qed.
Lemma run_step1 {A} (x : M A) w : run (step1 x) w = x w.
Proof. unfold step1. cbn [run]. destruct (x w); reflexivity. Qed.
Lemma run_all {A} (p : prog A) f w : run (pall p f) w = let (o, w') := run p w in run (f o) w'.
Proof.
  revert w. induction p as [o|C x k IH]; intros w; [reflexivity|]. cbn [pall run]. destruct (x w) as [o w']. exact (IH o w').
Qed.
Lemma run_ret {A} (a : A) w : run (pret a) w = (Ret a, w). Proof. reflexivity. Qed.
Lemma run_throw {A} c e w : run (@pthrow A c e) w = (Throw c e, w). Proof. reflexivity. Qed.
Lemma run_end {A} (o : outcome A) w : run (PEnd o) w = (o, w). Proof. reflexivity. Qed.
(** Equal computations, step by step. *)
Lemma mbind_eq {A B} (x y : M A) (f g : A -> M B) w : x w = y w -> (forall a w', f a w' = g a w') -> mbind x f w = mbind y g w.
Proof. intros E H. unfold mbind. rewrite E. destruct (y w) as [[a|c s|ub|] w']; auto. Qed.
Lemma mcatch_eq {A} (x y h1 h2 g1 g2 : M A) w : x w = y w -> (forall w, h1 w = g1 w) -> (forall w, h2 w = g2 w) -> mcatch x h1 h2 w = mcatch y g1 g2 w.
Proof. intros E H1 H2. unfold mcatch. rewrite E. destruct (y w) as [[a|c s|ub|] w']; auto. rewrite H1, H2. reflexivity. Qed.

Lemma run_command req w : run (sendCommand_p req) w = sendCommand req w.
Proof.
  unfold sendCommand_p, sendCommand. rewrite run_bind. apply mbind_eq; [apply run_step1|]. intros _ w1.
  rewrite run_bind. apply mbind_eq; [apply run_step1|]. intros n w2.
  rewrite run_bind. unfold mbind. rewrite run_step1. unfold decode_reply, sc_parse, mbind.
  destruct (m_decode ep_deserialize (view_take (recv_view w2) n) (ep_make0 0 0) w2) as [[r|c s|ub|] w3]; try reflexivity.
  cbn [mret]. unfold mret. rewrite run_bind. unfold mbind. rewrite run_step1. reflexivity.
Qed.
Lemma run_close_both w : run close_both_p w = close_both w.
Proof. unfold close_both_p, close_both. rewrite run_bind. apply mbind_eq; [apply run_step1|]. intros _ w1. apply run_step1. Qed.
Ltac known :=
  repeat first
    [ rewrite run_bind; apply mbind_eq; [|intros ? ?]
    | rewrite run_catch; apply mcatch_eq; [|intros ?|intros ?]
    | apply run_step1 | apply run_command | apply run_close_both | reflexivity ].
Lemma run_open h p q w : run (session_open_p h p q) w = session_open h p q w.
Proof. unfold session_open_p, session_open. known. destruct a3; [|reflexivity]. destruct (negb _); known. Qed.
Lemma bind_read {B} (f : session -> M B) (g : world -> M B) w : (forall w, f (w_se w) w = g w w) -> mbind (run (step1 read_se)) f w = mbind mget g w.
Proof. intros H. unfold mbind. rewrite run_step1. apply H. Qed.
Lemma run_close w : run session_close_p w = session_close w.
Proof. unfold session_close_p, session_close. rewrite run_bind. apply bind_read. intros w1. known. Qed.
Lemma run_rr sv p d w : run (sendRR_p sv p d) w = sendRRDataCommand sv p d w.
Proof. unfold sendRR_p, sendRRDataCommand. rewrite run_bind. apply bind_read. intros w1. known. destruct (negb _); reflexivity. Qed.
Lemma run_get {T} (c : cls T) t x y z w : run (get_p c t x y z) w =
  match getSingleAttributeSerializable c x y z t w with
  | (Ret _, t', w') => (Ret t', w') | (Throw e s, _, w') => (Throw e s, w') | (Undef ub, _, w') => (Undef ub, w') | (Stuck, _, w') => (Stuck, w')
  end.
Proof.
  unfold get_p, getSingleAttributeSerializable. rewrite run_bind. unfold mbind. rewrite run_rr.
  destruct (sendRRDataCommand 0x0E (path_cia x y z false) None w) as [[r|e s|ub|] w1]; try reflexivity. rewrite run_step1. reflexivity.
Qed.
Lemma run_set x y z d w : run (set_p x y z d) w = setSingleAttributeSerializable x y z d w.
Proof. unfold set_p, setSingleAttributeSerializable. rewrite run_bind. apply mbind_eq; [apply run_rr|reflexivity]. Qed.
Lemma run_next_sn w : run next_sn_p w = (Ret (se_next_sn (w_se w)), set_se (set_counters (u16 (se_next_sn (w_se w) + 1)) (se_next_id (w_se w)) (w_se w)) w).
Proof. reflexivity. Qed.
Lemma run_next_id w : run next_id_p w = (Ret (se_next_id (w_se w)), set_se (set_counters (se_next_sn (w_se w)) (u32 (se_next_id (w_se w) + 1)) (w_se w)) w).
Proof. reflexivity. Qed.
Lemma u32_again n : u32 (u32 (n + 1) + 1) = u32 (n + 2).
Proof. unfold u32. rewrite N.add_mod_idemp_l by discriminate. f_equal. lia. Qed.
Lemma run_create a b w : run (create_p a b) w = createConnection a b w.
Proof.
  unfold create_p, createConnection. rewrite run_bind. apply bind_read. intros w1.
  rewrite run_bind. unfold mbind at 1. rewrite run_next_sn.
  rewrite run_bind. unfold mbind at 1. rewrite run_next_id. cbn [w_se set_se se_next_id set_counters].
  rewrite run_bind. unfold mbind at 1. rewrite run_next_id. cbn [w_se set_se se_next_id se_next_sn set_counters].
  cbv zeta. match goal with |- ?l = mbind (mupd_se ?f) ?g ?w => change (l = g tt (set_se (f (w_se w)) w)) end. cbv beta.
  replace (set_se (set_counters (u16 (se_next_sn (w_se w1) + 1)) (u32 (u32 (se_next_id (w_se w1) + 1) + 1)) _) _)
    with (set_se (set_counters (u16 (se_next_sn (w_se w1) + 1)) (u32 (se_next_id (w_se w1) + 2)) (w_se w1)) w1) by (rewrite u32_again; reflexivity).
  rewrite run_bind. apply mbind_eq; [apply run_rr|]. intros r w2.
  rewrite run_bind. apply mbind_eq; [apply run_step1|]. intros s w3.
  destruct (cn_verify_open _ s) as [c|]; [|reflexivity].
  rewrite run_bind. apply mbind_eq; [apply run_step1|]. intros _ w4. rewrite run_bind. apply bind_read. reflexivity.
Qed.
Lemma run_drop n w : run (drop_p n) w = closeConnection n w.
Proof.
  unfold drop_p, closeConnection. rewrite run_bind. apply mbind_eq; [apply run_step1|]. intros c w1.
  rewrite run_bind. apply mbind_eq; [apply run_rr|]. intros r w2. known. destruct (negb _); known.
Qed.
Lemma recv_keeps_rbuf i v w o w' : sock_recv i v w = (o, w') -> w_rbuf w' = w_rbuf w.
Proof.
  unfold sock_recv. destruct (so_recv (get_sock i w)) as [|[bs|] rs]; [intros [= <- <-]; reflexivity| |intros [= <- <-]; destruct i; reflexivity].
  destruct (store _ _ _ _); intros [= <- <-]; destruct i; reflexivity.
Qed.
Lemma run_receive w : run receive_p w = receiveIOPacket w.
Proof.
  unfold receive_p, receiveIOPacket. rewrite run_bind. unfold mbind. rewrite run_step1. unfold recv_io.
  destruct (sock_recv Io (recv_view w) w) as [[n|e s|ub|] w1] eqn:E; try reflexivity. apply recv_keeps_rbuf in E.
  rewrite run_step1. unfold decode_io, mbind. unfold recv_view. rewrite E. reflexivity.
Qed.
Lemma run_send p w : run (send_p p) w = sendIOPacket p w.
Proof. unfold send_p, sendIOPacket. rewrite run_bind. apply mbind_eq; [apply run_step1|reflexivity]. Qed.

Lemma run_op o w : run (op_p o) w = step o w.
Proof.
  destruct o; cbn [op_p step]; rewrite run_bind; try (apply mbind_eq; [|reflexivity]).
  - apply run_open.
  - apply run_close.
  - unfold mbind. rewrite run_get. destruct (getSingleAttributeSerializable c class_id inst attr t w) as [[[r|e s|ub|] t'] w']; reflexivity.
  - apply run_set.
  - apply run_create.
  - apply run_drop.
  - apply run_receive.
  - apply run_send.
Qed.
Lemma run_exec ops : forall w, run (exec_p ops) w = let (rs, w') := exec ops w in (Ret rs, w').
Proof.
  induction ops as [|o ops IH]; intros w; [reflexivity|]. cbn [exec_p exec]. rewrite run_all, run_op.
  destruct (step o w) as [[r|c s|ub|] w1]; try reflexivity; rewrite run_bind; unfold mbind; rewrite IH; destruct (exec ops w1); reflexivity.
Qed.
