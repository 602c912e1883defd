(** * Abandoned calls *)
From Verif Require Export Vocab16 PProcs PLocal2 PTurns PTarget.
From Coq Require Import Lia.

(** ** What holds whenever a program is not finished *)
Fixpoint before {A} (R : world -> Prop) (p : prog A) (w : world) : Prop :=
  match p with
  | PEnd _ => True
  | PDo x k => R w /\ let (o, w') := x w in before R (k o) w'
  end.
Lemma cut_before {A} R k : forall (p : prog A) w w', before R p w -> cut k p w = (None, w') -> R w'.
Proof.
  induction k as [|k IH]; intros [o|B x f] w w' H E; cbn in H, E; try discriminate.
  - injection E as <-. apply H.
  - destruct H as [_ H]. destruct (x w) as [o w1]. eapply IH; eassumption.
Qed.
Lemma cut_run {A} k : forall (p : prog A) w o w', cut k p w = (Some o, w') -> run p w = (o, w').
Proof.
  induction k as [|k IH]; intros [o1|B x f] w o w' E; cbn in E |- *; try discriminate; try (injection E as <- <-; reflexivity).
  destruct (x w) as [o2 w1]. apply IH, E.
Qed.
Lemma before_bind {A B} R (p : prog A) (f : A -> prog B) w : before R p w -> (forall a w1, run p w = (Ret a, w1) -> before R (f a) w1) -> before R (pbind p f) w.
Proof.
  revert w. induction p as [o|C x k IH]; intros w H F.
  - destruct o; cbn [pbind before]; try exact Logic.I. apply F. reflexivity.
  - cbn [pbind before run] in *. destruct H as [H1 H2]. split; [exact H1|]. destruct (x w) as [o w1]. apply IH; [exact H2|exact F].
Qed.
Lemma before_catch {A} R (p h1 h2 : prog A) w : before R p w -> (forall c s w1, run p w = (Throw c s, w1) -> before R h1 w1 /\ before R h2 w1) -> before R (pcatch p h1 h2) w.
Proof.
  revert w. induction p as [o|C x k IH]; intros w H F.
  - destruct o as [a|c s|ub|]; cbn [pcatch before]; try exact Logic.I. destruct (F c s w eq_refl). destruct (is_a c LengthError); [assumption|]. destruct (is_a c LogicError); [assumption|exact Logic.I].
  - cbn [pcatch before run] in *. destruct H as [H1 H2]. split; [exact H1|]. destruct (x w) as [o w1]. apply IH; [exact H2|exact F].
Qed.
Lemma before_step1 {A} (R : world -> Prop) (x : M A) w : R w -> before R (step1 x) w.
Proof. intros H. unfold step1. cbn [before]. split; [exact H|]. destruct (x w). exact Logic.I. Qed.
Lemma before_weaken {A} (R R' : world -> Prop) (p : prog A) : (forall w, R w -> R' w) -> forall w, before R p w -> before R' p w.
Proof.
  intros W. induction p as [o|C x k IH]; intros w H; [exact Logic.I|]. cbn [before] in *. destruct H as [H1 H2]. split; [apply W, H1|].
  destruct (x w) as [o w1]. apply IH, H2.
Qed.

(** ** Members *)
(** No step changes the members. *)
Fixpoint quiet {A} (p : prog A) : Prop := match p with PEnd _ => True | PDo x k => calm x /\ forall o, quiet (k o) end.
(** ... but perhaps the last. *)
Fixpoint almost {A} (p : prog A) : Prop :=
  match p with PEnd _ => True | PDo x k => (calm x /\ forall o, almost (k o)) \/ forall o, exists r, k o = PEnd r end.
Lemma quiet_almost {A} (p : prog A) : quiet p -> almost p.
Proof. induction p as [o|C x k IH]; cbn; [trivial|]. intros [H1 H2]. left. auto. Qed.
Lemma quiet_step {A} (x : M A) : calm x -> quiet (step1 x).
Proof. intros C. cbn. auto. Qed.
Lemma quiet_bind {A B} (p : prog A) (f : A -> prog B) : quiet p -> (forall a, quiet (f a)) -> quiet (pbind p f).
Proof.
  intros H F. induction p as [o|C x k IH]; cbn in *; [destruct o; cbn; auto|]. destruct H as [H1 H2]. auto.
Qed.
Lemma quiet_catch {A} (p h1 h2 : prog A) : quiet p -> quiet h1 -> quiet h2 -> quiet (pcatch p h1 h2).
Proof.
  intros H H1 H2. induction p as [o|C x k IH]; cbn in *; [|destruct H; auto].
  destruct o as [a|c s|ub|]; cbn; auto. destruct (is_a c LengthError); [assumption|]. destruct (is_a c LogicError); [assumption|exact Logic.I].
Qed.
Lemma quiet_then {A B} (p : prog A) (f : A -> prog B) : quiet p -> (forall a, almost (f a)) -> almost (pbind p f).
Proof.
  intros H F. induction p as [o|C x k IH]; cbn in *; [destruct o; cbn; auto|]. destruct H as [H1 H2]. left. auto.
Qed.
Lemma almost_end {A B} (p : prog A) (f : A -> prog B) : almost p -> (forall a, exists r, f a = PEnd r) -> almost (pbind p f).
Proof.
  intros H F. induction p as [o|C x k IH]; cbn in *.
  - destruct o; cbn; auto. destruct (F a) as [r ->]. exact Logic.I.
  - destruct H as [[H1 H2]|H]; [left; auto|]. right. intros o. destruct (H o) as [r ->]. destruct r; cbn; eauto.
Qed.
Lemma almost_before {A} (p : prog A) : forall w, almost p -> before (fun w' => w_se w' = w_se w) p w.
Proof.
  induction p as [o|C x k IH]; intros w H; [exact Logic.I|]. cbn [before]. split; [reflexivity|].
  destruct (x w) as [o w1] eqn:E. cbn in H. destruct H as [[H1 H2]|H].
  - specialize (H1 w). rewrite E in H1. cbn in H1. eapply before_weaken; [|apply IH, H2]. cbv beta. intros w2 ->. exact H1.
  - destruct (H o) as [r ->]. exact Logic.I.
Qed.

Lemma calm_read : calm read_se. Proof. intros w. reflexivity. Qed.
Lemma calm_reply n : calm (decode_reply n).
Proof. intros w. unfold decode_reply. apply calm_bind; [apply calm_decode|intros r; apply calm_ret]. Qed.
Lemma calm_io n : calm (decode_io n).
Proof. intros w. unfold decode_io. apply calm_bind; [apply calm_decode|intros r; apply calm_ret]. Qed.
Lemma calm_conn n : calm (getConnection n).
Proof. intros w. unfold getConnection. destruct (nth_error _ _); reflexivity. Qed.
Lemma calm_sc_recv : calm sc_recv.
Proof. intros w. apply calm_recv. Qed.
Lemma quiet_command req : quiet (sendCommand_p req).
Proof.
  unfold sendCommand_p. apply quiet_bind; [apply quiet_step, calm_send_ser|intros _]. apply quiet_bind; [apply quiet_step, calm_sc_recv|intros n].
  apply quiet_bind; [apply quiet_step, calm_reply|intros r]. apply quiet_bind; [apply quiet_step, calm_check|intros _]. exact Logic.I.
Qed.
Lemma quiet_close_both : quiet close_both_p.
Proof. unfold close_both_p. apply quiet_bind; [apply quiet_step, calm_close|intros _; apply quiet_step, calm_close]. Qed.
Lemma quiet_rr sv p d : quiet (sendRR_p sv p d).
Proof.
  unfold sendRR_p. apply quiet_bind; [apply quiet_step, calm_read|intros s]. apply quiet_bind; [exact Logic.I|intros pkt].
  apply quiet_bind; [apply quiet_catch; [apply quiet_command|exact Logic.I..]|intros r].
  apply quiet_bind; [apply quiet_catch; [apply quiet_step, calm_copy_local|exact Logic.I..]|intros r']. destruct (negb _); exact Logic.I.
Qed.
Lemma almost_open h p q : almost (session_open_p h p q).
Proof.
  unfold session_open_p. apply quiet_then; [apply quiet_step, calm_open|intros _]. apply quiet_then; [apply quiet_step, calm_open|intros _].
  apply quiet_then; [exact Logic.I|intros m]. apply quiet_then.
  { apply quiet_catch; [apply quiet_command|apply quiet_bind; [apply quiet_close_both|intros _; exact Logic.I]..]. }
  intros r. apply quiet_then. { apply quiet_catch; [|exact Logic.I..]. apply quiet_bind; [apply quiet_step, calm_copy_local|intros g; exact Logic.I]. }
  intros g. apply quiet_then. { destruct g as [g|]; [|exact Logic.I]. destruct (negb _); [|exact Logic.I]. apply quiet_bind; [apply quiet_close_both|intros _; exact Logic.I]. }
  intros _. right. intros o. eauto.
Qed.
Lemma almost_close : almost session_close_p.
Proof.
  unfold session_close_p. apply quiet_then; [apply quiet_step, calm_read|intros s]. apply quiet_then; [apply quiet_step, calm_send_ser|intros _].
  apply quiet_then; [apply quiet_close_both|intros _]. right. intros o. eauto.
Qed.
Lemma almost_drop n : almost (drop_p n).
Proof.
  unfold drop_p. apply quiet_then; [apply quiet_step, calm_conn|intros c]. apply quiet_then; [apply quiet_rr|intros r].
  apply quiet_then; [apply quiet_step, calm_copy_local|intros g]. apply quiet_then; [apply quiet_step, calm_conn|intros c'].
  destruct (negb _); [exact Logic.I|]. right. intros o. eauto.
Qed.
Lemma quiet_get {T} (c : cls T) t x y z : quiet (get_p c t x y z).
Proof. unfold get_p. apply quiet_bind; [apply quiet_rr|intros r; apply quiet_step, calm_copy_local]. Qed.
Lemma quiet_set x y z d : quiet (set_p x y z d).
Proof. unfold set_p. apply quiet_bind; [apply quiet_rr|intros r; exact Logic.I]. Qed.
Lemma quiet_receive : quiet receive_p.
Proof. unfold receive_p. apply quiet_bind; [apply quiet_step; intros w; apply calm_recv|intros n; apply quiet_step, calm_io]. Qed.
Lemma quiet_send p : quiet (send_p p).
Proof. unfold send_p. apply quiet_bind; [apply quiet_step, calm_send_ser|intros n; exact Logic.I]. Qed.

Definition creating (a b : conn_info) (w w' : world) : Prop :=
  let s := w_se w in
  w_se w' = s \/
  w_se w' = set_counters (u16 (se_next_sn s + 1)) (se_next_id s) s \/
  w_se w' = set_counters (u16 (se_next_sn s + 1)) (u32 (se_next_id s + 1)) s \/
  w_se w' = set_counters (u16 (se_next_sn s + 1)) (u32 (se_next_id s + 2)) s \/
  exists n, createConnection a b w = (Ret n, w').
Lemma run_next {A B} (p : prog A) (f : A -> prog B) w r a w1 : run (pbind p f) w = r -> run p w = (Ret a, w1) -> run (f a) w1 = r.
Proof. rewrite run_bind. unfold mbind. intros H E. rewrite E in H. exact H. Qed.
Lemma before_next {A B} R (p : prog A) (f : A -> prog B) w r : run (pbind p f) w = r -> before R p w ->
  (forall a w1, run p w = (Ret a, w1) -> run (f a) w1 = r -> before R (f a) w1) -> before R (pbind p f) w.
Proof. intros H P F. apply before_bind; [exact P|]. intros a w1 E. apply F; [exact E|]. eapply run_next; eassumption. Qed.
Lemma before_quiet {A} (R : world -> Prop) (p : prog A) w : quiet p -> (forall w', w_se w' = w_se w -> R w') -> before R p w.
Proof. intros Q H. eapply before_weaken; [|apply almost_before, quiet_almost, Q]. exact H. Qed.
Lemma run_quiet {A} (p : prog A) : quiet p -> forall w, w_se (snd (run p w)) = w_se w.
Proof.
  induction p as [o|C x k IH]; intros Q w; [reflexivity|]. cbn [run]. destruct Q as [Q1 Q2]. specialize (Q1 w). destruct (x w) as [o w1]. cbn in Q1.
  rewrite IH by apply Q2. exact Q1.
Qed.
Lemma before_sn (R : world -> Prop) w : (forall w', w_se w' = w_se w -> R w') -> before R next_sn_p w.
Proof.
  intros H. unfold next_sn_p. apply before_bind; [apply before_step1, H; reflexivity|]. intros s w1 E. rewrite run_step1 in E. injection E as <- <-.
  apply before_bind; [apply before_step1, H; reflexivity|]. intros; exact Logic.I.
Qed.
Lemma before_id (R : world -> Prop) w : (forall w', w_se w' = w_se w -> R w') -> before R next_id_p w.
Proof.
  intros H. unfold next_id_p. apply before_bind; [apply before_step1, H; reflexivity|]. intros s w1 E. rewrite run_step1 in E. injection E as <- <-.
  apply before_bind; [apply before_step1, H; reflexivity|]. intros; exact Logic.I.
Qed.
Lemma create_half a b w : before (creating a b w) (create_p a b) w.
Proof.
  pose proof (run_create a b w) as RUN. unfold creating. set (res := createConnection a b w) in *. clearbody res.
  unfold create_p in *. eapply before_next; [exact RUN|apply before_step1; left; reflexivity|]. clear RUN. intros s w0 E RUN. rewrite run_step1 in E. injection E as <- <-.
  eapply before_next; [exact RUN|apply before_sn; intros w' H; left; exact H|]. clear RUN. intros sn w1 E1 RUN.
  rewrite run_next_sn in E1. apply pair_equal_spec in E1 as [_ E1].
  eapply before_next; [exact RUN|apply before_id; intros w' H; right; left; rewrite H, <- E1; reflexivity|]. clear RUN. intros i w2 E2 RUN.
  rewrite run_next_id in E2. apply pair_equal_spec in E2 as [_ E2].
  eapply before_next; [exact RUN|apply before_id; intros w' H; right; right; left; rewrite H, <- E2, <- E1; reflexivity|]. clear RUN. intros j w3 E3 RUN.
  rewrite run_next_id in E3. apply pair_equal_spec in E3 as [_ E3].
  assert (S3 : w_se w3 = set_counters (u16 (se_next_sn (w_se w) + 1)) (u32 (se_next_id (w_se w) + 2)) (w_se w)).
  { rewrite <- E3, <- E2, <- E1. cbn [w_se set_se set_counters se_next_sn se_next_id se_id se_vendor se_serial se_conns]. rewrite u32_again. reflexivity. }
  clear E1 E2 E3. cbv zeta in *. eapply before_next; [exact RUN|apply before_quiet; [apply quiet_rr|intros w' H; do 3 right; left; congruence]|]. clear RUN. intros resp w4 E4 RUN.
  pose proof (run_quiet _ (quiet_rr 91 (path_ci 6 1) (Some (fo_ser (cn_open_request (cn_make (se_vendor (w_se w)) (se_serial (w_se w)) sn i j a b)))) ) w3) as Q4.
  rewrite E4 in Q4. cbn [snd] in Q4. rewrite S3 in Q4. clear E4.
  eapply before_next; [exact RUN|apply before_step1; do 3 right; left; exact Q4|]. clear RUN. intros fs w5 E5 RUN. rewrite run_step1 in E5.
  pose proof (calm_copy_local fs_cls (ms_data (rr_ext resp)) fs_make w4) as Q5. rewrite E5 in Q5. cbn [snd] in Q5. rewrite Q4 in Q5. clear E5.
  destruct (cn_verify_open _ fs) as [c'|]; [|exact Logic.I].
  eapply before_next; [exact RUN|apply before_step1; do 3 right; left; exact Q5|]. clear RUN. intros [] w6 E6 RUN. rewrite run_step1 in E6.
  eapply before_next; [exact RUN|apply before_step1; do 4 right; eexists|intros; exact Logic.I].
  rewrite run_bind in RUN. unfold mbind in RUN. rewrite run_step1 in RUN. unfold read_se in RUN. rewrite run_ret in RUN. symmetry. exact RUN.
Qed.
Lemma before_pret {A B} R (p : prog A) (f : A -> B) w : before R p w -> before R (pbind p (fun a => pret (f a))) w.
Proof. intros H. apply before_bind; [exact H|]. intros; exact Logic.I. Qed.
Lemma u16_mod n : u16 n = n mod 65536. Proof. reflexivity. Qed.
Lemma u32_mod n : u32 n = n mod 4294967296. Proof. reflexivity. Qed.
Lemma cut_members k o w w' : cut k (op_p o) w = (None, w') -> half_way o w w'.
Proof.
  intros E. revert E. apply cut_before. destruct o as [h p q| |T c t x y z|x y z d|a1 a2|n| |p]; cbn [op_p]; apply before_pret; unfold half_way.
  - apply almost_before, almost_open.
  - apply almost_before, almost_close.
  - apply almost_before, quiet_almost, quiet_get.
  - apply almost_before, quiet_almost, quiet_set.
  - eapply before_weaken; [|apply create_half]. unfold creating. cbv zeta. intros w1 [H|[H|[H|[H|[n H]]]]]; rewrite ?u16_mod, ?u32_mod in H; auto.
    do 4 right. exists n. unfold step, mbind. rewrite H. reflexivity.
  - apply almost_before, almost_drop.
  - apply almost_before, quiet_almost, quiet_receive.
  - apply almost_before, quiet_almost, quiet_send.
Qed.

(** ** Memory *)
Lemma alike_refl u w : session_ok w -> user_memory u w -> alike true u (w_rbuf w) w w.
Proof. intros O U. constructor; auto. Qed.
Lemma cut_loc {A} u b (Q : A -> Prop) k : forall p w r w', locp true u b Q p -> alike true u b w w -> cut k p w = (r, w') -> alike true u b w' w' /\ mem_kept w w'.
Proof.
  induction k as [|k IH]; intros [o|B x f] w r w' H L E; cbn in E.
  - injection E as <- <-. split; [exact L|]. intros c y _ X. exact X.
  - injection E as <- <-. split; [exact L|]. intros c y _ X. exact X.
  - injection E as <- <-. split; [exact L|]. intros c y _ X. exact X.
  - destruct (H w w L) as (o & w1 & v1 & E1 & E2 & L' & K & H'). rewrite E1 in E2. apply pair_equal_spec in E2 as [_ <-]. rewrite E1 in E.
    destruct (IH _ _ _ _ H' L' E) as [A1 A2]. split; [exact A1|]. intros c y N X. apply A2; [|apply K; assumption].
    rewrite (al_b1 _ _ _ _ _ L'). rewrite (al_b1 _ _ _ _ _ L) in N. exact N.
Qed.
Lemma cut_memory u k o w r w' : session_ok w -> user_memory u w -> call_ok u o -> cut k (op_p o) w = (r, w') ->
  session_ok w' /\ user_memory u w' /\ w_rbuf w' = w_rbuf w /\ mem_kept w w'.
Proof.
  intros O U C E. destruct (cut_loc u (w_rbuf w) yes k _ _ _ _ (p_op true u (w_rbuf w) o (or_introl eq_refl) C) (alike_refl u w O U) E) as [L K].
  split; [exact (al_ok _ _ _ _ _ L)|]. split; [exact (al_u1 _ _ _ _ _ L)|]. split; [exact (al_b1 _ _ _ _ _ L)|exact K].
Qed.
Lemma exec_cut_memory u l : forall w rs w', session_ok w -> user_memory u w -> Forall (fun x => call_ok u (snd x)) l -> exec_cut l w = (rs, w') ->
  session_ok w' /\ user_memory u w' /\ mem_kept w w'.
Proof.
  induction l as [|[k o] l IH]; intros w rs w' O U F E; cbn [exec_cut] in E.
  - injection E as <- <-. split; [exact O|]. split; [exact U|]. intros c y _ X. exact X.
  - apply Forall_cons_iff in F as [F1 F2]. destruct (cut k (op_p o) w) as [r w1] eqn:E1.
    destruct (cut_memory u k o w r w1 O U F1 E1) as (O1 & U1 & B1 & K1).
    assert (G : forall rs w', exec_cut l w1 = (rs, w') -> session_ok w' /\ user_memory u w' /\ mem_kept w w').
    { intros rs0 w2 E2. destruct (IH _ _ _ O1 U1 F2 E2) as (O2 & U2 & K2). split; [exact O2|]. split; [exact U2|].
      intros c y N X. apply K2; [rewrite B1; exact N|]. apply K1; assumption. }
    destruct r as [[a|c s|ub|]|]; try (destruct (exec_cut l w1) as [rs1 w2] eqn:E2; injection E as <- <-; eapply G; reflexivity);
      injection E as <- <-; auto.
Qed.

(** ** The control socket *)
Definition at_point (w : world) (bs : list byte) (w' : world) : Prop := w_io w' = w_io w /\ (unsent w w' \/ interrupted w bs w').
Definition same_net (w w' : world) : Prop := w_ctl w' = w_ctl w /\ w_io w' = w_io w /\ w_net w' = w_net w.
Definition mute {A} (x : M A) : Prop := forall w, same_net w (snd (x w)).
Fixpoint mutep {A} (p : prog A) : Prop := match p with PEnd _ => True | PDo x k => mute x /\ forall o, mutep (k o) end.
Lemma same_refl w : same_net w w. Proof. repeat split. Qed.
Lemma same_trans a b c : same_net a b -> same_net b c -> same_net a c.
Proof. intros (A1 & A2 & A3) (B1 & B2 & B3). repeat split; congruence. Qed.
Lemma point_mute w bs w1 w2 : at_point w bs w1 -> same_net w1 w2 -> at_point w bs w2.
Proof.
  intros [I P] (C & I' & N). split; [congruence|]. destruct P as [[P1 P2]|[n P1 P2 P3|got P1 P2 P3]].
  - left. split; congruence.
  - right. eapply awaiting; [exact P1|congruence..].
  - right. eapply answered; [exact P1|congruence..].
Qed.
Lemma mute_step {A} (x : M A) : mute x -> mutep (step1 x). Proof. intros C. cbn. auto. Qed.
Lemma mute_bind {A B} (p : prog A) (f : A -> prog B) : mutep p -> (forall a, mutep (f a)) -> mutep (pbind p f).
Proof. intros H F. induction p as [o|C x k IH]; cbn in *; [destruct o; cbn; auto|]. destruct H as [H1 H2]. auto. Qed.
Lemma mute_catch {A} (p h1 h2 : prog A) : mutep p -> mutep h1 -> mutep h2 -> mutep (pcatch p h1 h2).
Proof.
  intros H H1 H2. induction p as [o|C x k IH]; cbn in *; [|destruct H; auto].
  destruct o as [a|c s|ub|]; cbn; auto. destruct (is_a c LengthError); [assumption|]. destruct (is_a c LogicError); [assumption|exact Logic.I].
Qed.
Lemma mute_before {A} (p : prog A) : mutep p -> forall w, before (same_net w) p w.
Proof.
  induction p as [o|C x k IH]; intros H w; [exact Logic.I|]. cbn [before]. split; [apply same_refl|]. destruct H as [H1 H2]. specialize (H1 w). destruct (x w) as [o w1]. cbn [snd] in H1.
  eapply before_weaken; [|apply IH, H2]. intros w2. apply same_trans, H1.
Qed.
Lemma mute_run {A} (p : prog A) : mutep p -> forall w, same_net w (snd (run p w)).
Proof.
  induction p as [o|C x k IH]; intros H w; [apply same_refl|]. cbn [run]. destruct H as [H1 H2]. specialize (H1 w). destruct (x w) as [o w1]. cbn [snd] in H1.
  eapply same_trans; [exact H1|apply IH, H2].
Qed.
Lemma mute_read : mute read_se. Proof. intros w. apply same_refl. Qed.
Lemma mute_upd f : mute (mupd_se f). Proof. intros w. repeat split. Qed.
Lemma mute_conn n : mute (getConnection n). Proof. intros w. unfold getConnection. destruct (nth_error _ _); apply same_refl. Qed.
Lemma mute_check p c : mute (check_packet p c).
Proof. intros w. unfold check_packet. repeat (destruct (_ : bool); [apply same_refl|]). apply same_refl. Qed.
Lemma mute_copy {U} (c : cls U) p t : mute (m_copy_local c p t).
Proof.
  intros w. unfold m_copy_local, m_copy. destruct p as [s|]; [|apply same_refl]. destruct (copy_serializable c s (w_mem w) t) as [[o m] t']. destruct o; repeat split.
Qed.
Lemma mute_decode {T} (x : D T unit) v t : mute (m_decode x v t).
Proof. intros w. unfold m_decode. destruct (x (w_mem w) (RBuf v 0) t) as [[[[|c s|u|] m] [? ?|? ? ?]] t']; repeat split. Qed.
Lemma mute_reply n : mute (decode_reply n).
Proof.
  intros w. unfold decode_reply, mbind. pose proof (mute_decode ep_deserialize (view_take (recv_view w) n) (ep_make0 0 0) w) as H.
  destruct (m_decode _ _ _ w) as [[a|c s|u|] w1]; exact H.
Qed.
Lemma mute_sn : mutep next_sn_p.
Proof. unfold next_sn_p. apply mute_bind; [apply mute_step, mute_read|intros s]. apply mute_bind; [apply mute_step, mute_upd|intros; exact Logic.I]. Qed.
Lemma mute_id : mutep next_id_p.
Proof. unfold next_id_p. apply mute_bind; [apply mute_step, mute_read|intros s]. apply mute_bind; [apply mute_step, mute_upd|intros; exact Logic.I]. Qed.

Lemma before_mute {A} w bs (p : prog A) w1 : mutep p -> at_point w bs w1 -> before (at_point w bs) p w1.
Proof. intros H P. eapply before_weaken; [|apply mute_before, H]. intros w2. apply point_mute, P. Qed.
Lemma command_half w req bs : rbuf_ok w -> carries (w_mem w) (ep_ser req) bs -> before (at_point w bs) (sendCommand_p req) w.
Proof.
  intros B C. unfold sendCommand_p. apply before_bind; [apply before_step1; split; [reflexivity|left; split; reflexivity]|].
  intros n w1 E. rewrite run_step1 in E. unfold sc_send in E. rewrite (send_ctl _ _ _ C) in E. destruct (sent (w_ctl w) bs) as [n'|] eqn:Sn; [|discriminate].
  apply pair_equal_spec in E as [_ E].
  assert (P1 : at_point w bs w1). { rewrite <- E. split; [reflexivity|]. right. eapply awaiting; [exact Sn|reflexivity..]. }
  apply before_bind; [apply before_step1; exact P1|]. intros n2 w2 E2. rewrite run_step1 in E2. unfold sc_recv in E2.
  assert (B1 : rbuf_ok w1). { rewrite <- E. apply (rbuf_grow w); [exact B|reflexivity..]. }
  assert (Q : so_recv (w_ctl w1) = so_recv (w_ctl w)) by (rewrite <- E; reflexivity).
  assert (P2 : at_point w bs w2).
  { destruct (so_recv (w_ctl w)) as [|[got|] rs] eqn:Rv.
    - rewrite (recv_block Ctl w1) in E2 by exact Q. discriminate.
    - destruct (recv_data Ctl w1 got rs B1 Q) as (m' & E3 & _). rewrite E3 in E2. apply pair_equal_spec in E2 as [_ E2]. rewrite <- E2, <- E.
      split; [reflexivity|]. right. apply (answered _ _ _ (take 4096 got)); unfold reply_of, left_of, events, talk; rewrite Sn, Rv; [reflexivity..|].
      cbn. rewrite <- app_assoc. reflexivity.
    - revert E2. unfold sock_recv. cbn [get_sock]. rewrite Q. discriminate. }
  apply before_mute; [|exact P2]. apply mute_bind; [apply mute_step, mute_reply|intros r]. apply mute_bind; [apply mute_step, mute_check|intros _]. exact Logic.I.
Qed.
Lemma rr_half w service pad ss d bs : rbuf_ok w -> len ss < 256 -> carries_opt (w_mem w) d bs ->
  before (at_point w (request 0x6F (se_id (w_se w)) (rr_request (u8 service) (epath pad ss) bs))) (sendRR_p service (path_of pad ss) d) w.
Proof.
  intros B L C. unfold sendRR_p. apply before_bind; [apply before_step1; split; [reflexivity|left; split; reflexivity]|].
  intros s w1 E. rewrite run_step1 in E. injection E as <- <-.
  destruct (ep_make_carries (w_mem w) EIP_CMD_SEND_RR_DATA (se_id (w_se w)) (Some (rrq_ser (rrq_make service (path_of pad ss) d)))
    (rr_request (u8 service) (epath pad ss) bs)) as (q & Eq & _ & Hh & Cq); [apply rrq_carries; assumption|].
  apply before_bind; [exact Logic.I|]. intros pkt w1 E. rewrite run_end in E. rewrite Eq in E. injection E as <- <-.
  set (req := request 111 _ _). change (request EIP_CMD_SEND_RR_DATA (se_id (w_se w)) (rr_request (u8 service) (epath pad ss) bs)) with req in Cq.
  apply before_bind; [apply before_catch; [apply command_half; assumption|intros; split; exact Logic.I]|].
  intros resp w1 E. rewrite run_catch in E. unfold mcatch in E. rewrite run_command in E.
  destruct (command w q req B Cq) as (o & w' & E1 & X & O). rewrite E1 in E.
  assert (P : at_point w req w1).
  { destruct o as [a|c e|ub|]; try discriminate; [injection E as <- <-|destruct (is_a c LengthError); [discriminate|destruct (is_a c LogicError); discriminate]].
    destruct X as (_ & _ & I & _ & _ & N & K). split; [exact I|]. right. unfold command_outcome in O.
    destruct (reply_of (w_ctl w) req) as [| | |got] eqn:RP; [destruct O; discriminate|discriminate|destruct O; discriminate|].
    eapply answered; [exact RP|exact K|exact N]. }
  apply before_mute; [|exact P]. apply mute_bind; [|intros r'; destruct (negb _); exact Logic.I].
  apply mute_catch; [apply mute_step, mute_copy|exact Logic.I..].
Qed.
Lemma rr_returned w service pad ss d bs resp w1 : rbuf_ok w -> len ss < 256 -> carries_opt (w_mem w) d bs -> run (sendRR_p service (path_of pad ss) d) w = (Ret resp, w1) ->
  at_point w (request 0x6F (se_id (w_se w)) (rr_request (u8 service) (epath pad ss) bs)) w1.
Proof.
  intros B L C E. rewrite run_rr in E. destruct (rr_command w service pad ss d bs B L C) as (o & w' & E1 & X & O). rewrite E in E1. apply pair_equal_spec in E1 as [<- <-].
  destruct X as (_ & _ & I & _ & _ & N & K). split; [exact I|]. right. unfold rr_outcome in O.
  match type of O with match ?r with _ => _ end => destruct r as [| | |got] eqn:RP end; [destruct O; discriminate|discriminate|destruct O; discriminate|].
  eapply answered; [exact RP|exact K|exact N].
Qed.
Lemma rr_then {B} w service pad ss d bs (f : _ -> prog B) : rbuf_ok w -> len ss < 256 -> carries_opt (w_mem w) d bs -> (forall r, mutep (f r)) ->
  before (at_point w (request 0x6F (se_id (w_se w)) (rr_request (u8 service) (epath pad ss) bs))) (pbind (sendRR_p service (path_of pad ss) d) f) w.
Proof.
  intros Bf L C M. apply before_bind; [apply rr_half; assumption|]. intros r w1 E. apply before_mute; [apply M|]. eapply rr_returned; eassumption.
Qed.
Lemma point_shift w w0 bs w' : same_net w w0 -> at_point w0 bs w' -> at_point w bs w'.
Proof.
  intros (C & I & N) [I' P]. split; [congruence|]. destruct P as [[P1 P2]|[n P1 P2 P3|got P1 P2 P3]]; rewrite ?C, ?N in *.
  - left. split; congruence.
  - right. eapply awaiting; eassumption.
  - right. eapply answered; eassumption.
Qed.
Lemma before_end {A B} R (p : prog A) (f : A -> B) w : before R p w -> before R (pbind p (fun a => pret (f a))) w.
Proof. apply before_pret. Qed.

Lemma cut_point u k o w w' : session_ok w -> user_memory u w -> op_ok u o -> explicit o -> cut k (op_p o) w = (None, w') ->
  w_io w' = w_io w /\ (unsent w w' \/ exists bs, request_of u o (w_se w) bs /\ interrupted w bs w').
Proof.
  intros (B & FI & TK) [U _] O X E.
  assert (G : forall bs, (request_of u o (w_se w) bs) -> before (at_point w bs) (op_p o) w -> w_io w' = w_io w /\ (unsent w w' \/ exists bs, request_of u o (w_se w) bs /\ interrupted w bs w')).
  { intros bs R H. destruct (cut_before _ k _ _ _ H E) as [I P]. split; [exact I|]. destruct P as [P|P]; [left; exact P|right; exists bs; auto]. }
  destruct o as [h p q| |T c t x y z|x y z d|a1 a2|n| |p]; cbn [op_p op_ok explicit] in *; try contradiction.
  - destruct O as (Hx & Hy & Hz & _). apply (G (get_request (se_id (w_se w)) x y z)); [reflexivity|]. apply before_end. unfold get_p. rewrite path_cia_of by assumption.
    refine (rr_then w 0x0E false [SClass x; SInstance y; SAttribute z] None [] _ B eq_refl eq_refl _). intros r. apply mute_step, mute_copy.
  - destruct O as (Hx & Hy & Hz & data & Cd & _). apply (G (set_request (se_id (w_se w)) x y z data)); [exists data; split; [exact Cd|reflexivity]|]. apply before_end. unfold set_p.
    rewrite path_cia_of by assumption. refine (rr_then w 0x10 false [SClass x; SInstance y; SAttribute z] d data _ B eq_refl (carries_opt_hext _ _ _ _ U Cd) _). intros r. exact Logic.I.
  - destruct O as [H1 H2]. apply (G (open_request (w_se w) a1 a2)); [reflexivity|]. apply before_end. unfold create_p.
    assert (Z : forall w0, same_net w w0 -> at_point w (open_request (w_se w) a1 a2) w0). { intros w0 (C & I & N). split; [exact I|left; split; assumption]. }
    apply before_bind; [apply before_step1, Z, same_refl|]. intros s w0 E0. rewrite run_step1 in E0. injection E0 as <- <-.
    apply before_bind; [eapply before_weaken; [exact Z|apply mute_before, mute_sn]|]. intros sn w1 E1. rewrite run_next_sn in E1. injection E1 as <- <-.
    apply before_bind; [eapply before_weaken; [|apply mute_before, mute_id]; intros w2 H; apply Z; exact H|]. intros i w2 E2. rewrite run_next_id in E2. injection E2 as <- <-.
    apply before_bind; [eapply before_weaken; [|apply mute_before, mute_id]; intros w2 H; apply Z; exact H|]. intros j w3 E3. rewrite run_next_id in E3. injection E3 as <- <-.
    cbv zeta. rewrite path_ci_of by lia. set (w3 := set_se _ (set_se _ _)).
    eapply before_weaken; [intros w4; apply (point_shift w w3); repeat split|].
    refine (rr_then w3 0x5B false [SClass 6; SInstance 1] (Some (fo_ser _)) _ _ B eq_refl (forward_open_bytes (w_mem w3) (se_vendor (w_se w)) (se_serial (w_se w)) (se_next_sn (w_se w)) (se_next_id (w_se w)) (u32 (se_next_id (w_se w) + 1)) a1 a2 H1 H2) _).
    intros r. apply mute_bind; [apply mute_step, mute_copy|intros g]. destruct (cn_verify_open _ g); [|exact Logic.I].
    apply mute_bind; [apply mute_step, mute_upd|intros _]. apply mute_bind; [apply mute_step, mute_read|intros s; exact Logic.I].
  - destruct (nth_error (se_conns (w_se w)) (N.to_nat n)) as [c|] eqn:Hc.
    + assert (Tc : cn_tick_size c < 256 /\ cn_ticks c < 256) by (rewrite Forall_forall in TK; apply TK; eapply nth_error_In; exact Hc).
      apply (G (close_request (w_se w) c)); [exists c; auto|]. apply before_end. unfold drop_p.
      apply before_bind; [apply before_step1; split; [reflexivity|left; split; reflexivity]|]. intros c1 w1 E1. rewrite run_step1 in E1. unfold getConnection in E1. rewrite Hc in E1. injection E1 as <- <-.
      rewrite path_ci_of by lia.
      refine (rr_then w 0x4E false [SClass 6; SInstance 1] (Some (fc_ser _)) _ _ B eq_refl (forward_close_bytes (w_mem w) c (proj1 Tc) (proj2 Tc)) _).
      intros r. apply mute_bind; [apply mute_step, mute_copy|intros g]. apply mute_bind; [apply mute_step, mute_conn|intros c']. destruct (negb _); [exact Logic.I|]. apply mute_step, mute_upd.
    + assert (H : before (same_net w) (do% drop_p n in pret RUnit) w).
      { apply before_end. unfold drop_p. apply before_bind; [apply before_step1, same_refl|]. intros c w1 E1. rewrite run_step1 in E1. unfold getConnection in E1. rewrite Hc in E1. discriminate. }
      destruct (cut_before _ k _ _ _ H E) as (C & I & N). split; [exact I|]. left. split; assumption.
Qed.
