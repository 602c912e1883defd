(** * Programs depend on their session's part of the world only *)
From Verif Require Export PEnc PSend PSession3 PHistory2 PLocal.

(** What the session's members satisfy ([session_ok]). *)
Definition members_ok (s : session) : Prop := fits 4 (se_id s) /\ Forall (fun c => cn_tick_size c < 256 /\ cn_ticks c < 256) (se_conns s).

(** Two worlds that look alike to a session with receive buffer [b]: everywhere
    ([full]), or but for the I/O socket. *)
Record alike (full : bool) (u : heap) (b : nat) (w v : world) : Prop := mkAlike {
  al_ctl : w_ctl w = w_ctl v;
  al_se : w_se w = w_se v;
  al_b1 : w_rbuf w = b;
  al_b2 : w_rbuf v = b;
  al_buf : nth_error (w_mem w) b = nth_error (w_mem v) b;
  al_ok : session_ok w;
  al_u1 : user_memory u w;
  al_u2 : user_memory u v;
  al_rest : if full then w_io w = w_io v /\ w_net w = w_net v else ctl_talk (w_net w) = ctl_talk (w_net v) }.

Section programs.
  Context (full : bool) (u : heap) (b : nat).

  Definition atom {A} (Q : A -> Prop) (x : M A) : Prop :=
    forall w v, alike full u b w v -> exists o w' v', x w = (o, w') /\ x v = (o, v') /\ alike full u b w' v' /\
      mem_kept w w' /\ forall a, o = Ret a -> Q a.
  Fixpoint locp {A} (Q : A -> Prop) (p : prog A) : Prop :=
    match p with
    | PEnd o => forall a, o = Ret a -> Q a
    | PDo x k => forall w v, alike full u b w v -> exists o w' v', x w = (o, w') /\ x v = (o, v') /\ alike full u b w' v' /\
        mem_kept w w' /\ locp Q (k o)
    end.

  Lemma p_step {A} (Q : A -> Prop) x : atom Q x -> locp Q (step1 x).
  Proof. intros H w v R. destruct (H w v R) as (o & w' & v' & E1 & E2 & R' & K & q). exists o, w', v'. auto 10. Qed.
  Lemma p_bind {A B} (Q : A -> Prop) (R : B -> Prop) p f : locp Q p -> (forall a, Q a -> locp R (f a)) -> locp R (pbind p f).
  Proof.
    induction p as [o|C x k IH]; intros P F.
    - destruct o; cbn [pbind]; try (intros a; discriminate). apply F. apply P. reflexivity.
    - intros w v L. destruct (P w v L) as (o & w' & v' & E1 & E2 & L' & K & H). exists o, w', v'. repeat (split; [assumption|]). apply IH; assumption.
  Qed.
  Lemma p_catch {A} (Q : A -> Prop) p h1 h2 : locp Q p -> locp Q h1 -> locp Q h2 -> locp Q (pcatch p h1 h2).
  Proof.
    induction p as [o|C x k IH]; intros P H1 H2.
    - destruct o; cbn [pcatch]; try exact P. destruct (is_a c LengthError); [exact H1|]. destruct (is_a c LogicError); [exact H2|]. intros a; discriminate.
    - intros w v L. destruct (P w v L) as (o & w' & v' & E1 & E2 & L' & K & H). exists o, w', v'. repeat (split; [assumption|]). apply IH; assumption.
  Qed.
  Lemma p_all {A} (Q : A -> Prop) R p f : locp Q p -> (forall o, locp R (f o)) -> locp R (pall p f).
  Proof.
    induction p as [o|C x k IH]; intros P F.
    - apply F.
    - intros w v L. destruct (P w v L) as (o & w' & v' & E1 & E2 & L' & K & H). exists o, w', v'. repeat (split; [assumption|]). apply IH; assumption.
  Qed.
  Lemma p_ret {A} (Q : A -> Prop) a : Q a -> locp Q (pret a).
  Proof. intros H a' [= <-]. exact H. Qed.
  Lemma p_throw {A} (Q : A -> Prop) c s : locp Q (pthrow c s).
  Proof. intros a; discriminate. Qed.
  Lemma p_end {A} (Q : A -> Prop) o : (forall a, o = Ret a -> Q a) -> locp Q (PEnd o).
  Proof. intros H. exact H. Qed.
  Lemma p_weaken {A} (Q R : A -> Prop) p : locp Q p -> (forall a, Q a -> R a) -> locp R p.
  Proof.
    intros P H. induction p as [o|C x k IH].
    - intros a e. apply H, P, e.
    - intros w v L. destruct (P w v L) as (o & w' & v' & E1 & E2 & L' & K & H'). exists o, w', v'. repeat (split; [assumption|]). apply IH; assumption.
  Qed.

  (** ** Atomic steps *)
  Lemma alike_ok w v : alike full u b w v -> session_ok v.
  Proof.
    intros L. destruct (al_ok _ _ _ _ _ L) as ((bl & E & Lb) & R). rewrite (al_b1 _ _ _ _ _ L), (al_buf _ _ _ _ _ L) in E.
    split; [exists bl; rewrite (al_b2 _ _ _ _ _ L); auto|]. rewrite <- (al_se _ _ _ _ _ L). exact R.
  Qed.
  Lemma kept_refl w w' : w_mem w' = w_mem w -> mem_kept w w'.
  Proof. intros E x y _ H. rewrite E. exact H. Qed.
  (** A step of which only the result matters. *)
  Lemma a_pure {A} (Q : A -> Prop) (x : M A) (f : session -> outcome A) : (forall w, x w = (f (w_se w), w)) -> (forall s a, members_ok s -> f s = Ret a -> Q a) -> atom Q x.
  Proof.
    intros E H w v L. rewrite !E, <- (al_se _ _ _ _ _ L). exists (f (w_se w)), w, v. split; [reflexivity|]. split; [reflexivity|]. split; [exact L|].
    split; [apply kept_refl; reflexivity|]. intros a. apply H. apply (al_ok _ _ _ _ _ L).
  Qed.
  Lemma a_read : atom members_ok read_se.
  Proof. apply (a_pure members_ok read_se (fun s => Ret s)); [reflexivity|]. intros s a H [= <-]. exact H. Qed.
  Lemma a_check p c : atom (fun _ => True) (check_packet p c).
  Proof.
    apply (a_pure _ _ (fun s => fst (check_packet p c (mkW [] (mkSock [] [] [] []) (mkSock [] [] [] []) [] s O)))); [|auto].
    intros w. unfold check_packet. cbn [w_se]. destruct (negb (h_command (ep_header p) =? c)); [reflexivity|]. destruct (_ && _); [reflexivity|].
    destruct (_ && _); reflexivity.
  Qed.
  Lemma a_conn n : atom (fun c => cn_tick_size c < 256 /\ cn_ticks c < 256) (getConnection n).
  Proof.
    apply (a_pure _ _ (fun s => match nth_error (se_conns s) (N.to_nat n) with Some c => Ret c | None => Undef VecOutOfBounds end)).
    - intros w. unfold getConnection. destruct (nth_error _ _); reflexivity.
    - intros s a [_ F] H. destruct (nth_error (se_conns s) (N.to_nat n)) eqn:X; [|discriminate]. injection H as <-. rewrite Forall_forall in F. apply F. eapply nth_error_In. exact X.
  Qed.
  Lemma a_upd f : (forall s, members_ok s -> members_ok (f s)) -> atom (fun _ => True) (mupd_se f).
  Proof.
    intros H w v L. do 3 eexists. split; [reflexivity|]. split; [reflexivity|]. split; [|split; [apply kept_refl; reflexivity|auto]].
    destruct L as [L1 L2 L3 L4 L5 L6 L7 L8 L9]. constructor; cbn; try assumption; [rewrite L2; reflexivity|].
    destruct L6 as [L6a L6b]. split; [exact L6a|]. apply H. exact L6b.
  Qed.
  (** Changes of sockets and trace. *)
  Lemma alike_open i h p : full = true -> atom (fun _ => True) (sock_open i h p).
  Proof.
    intros F w v L. destruct L as [L1 L2 L3 L4 L5 L6 L7 L8 L9]. rewrite F in L9. destruct L9 as [Li Ln].
    assert (G : get_sock i w = get_sock i v) by (destruct i; assumption). unfold sock_open. rewrite G.
    destruct (match so_open (get_sock i v) with [] => false | b0 :: _ => b0 end); do 3 eexists; (split; [reflexivity|]); (split; [reflexivity|]);
      (split; [|split; [apply kept_refl; destruct i; reflexivity|auto]]); (constructor; [..|rewrite F; split]); destruct i; cbn; try assumption; try congruence.
  Qed.
  Lemma alike_close i : full = true -> atom (fun _ => True) (sock_close i).
  Proof.
    intros F w v L. destruct L as [L1 L2 L3 L4 L5 L6 L7 L8 L9]. rewrite F in L9. destruct L9 as [Li Ln].
    assert (G : get_sock i w = get_sock i v) by (destruct i; assumption). unfold sock_close. rewrite G.
    destruct (match so_close (get_sock i v) with [] => false | b0 :: _ => b0 end); do 3 eexists; (split; [reflexivity|]); (split; [reflexivity|]);
      (split; [|split; [apply kept_refl; destruct i; reflexivity|auto]]); (constructor; [..|rewrite F; split]); destruct i; cbn; try assumption; try congruence.
  Qed.
  Lemma grown (m : heap) x k : (k < List.length m)%nat -> nth_error (m ++ [x]) k = nth_error m k.
  Proof. intros H. apply nth_error_app1. exact H. Qed.
  Lemma sock_send_fst i bs w v : get_sock i w = get_sock i v -> fst (sock_send i bs w) = fst (sock_send i bs v).
  Proof. intros E. unfold sock_send. rewrite E. destruct (match so_send (get_sock i v) with [] => TxAll | x :: _ => x end); reflexivity. Qed.
  Lemma a_send i s bs : full = true \/ i = Ctl -> carries u s bs -> atom (fun _ => True) (sock_send_ser i s).
  Proof.
    intros F C w v L. pose proof (alike_ok w v L) as Ov. destruct L as [L1 L2 L3 L4 L5 L6 L7 L8 L9].
    rewrite (send_ser i s bs w) by (eapply carries_hext; [exact (proj1 L7)|exact C]). rewrite (send_ser i s bs v) by (eapply carries_hext; [exact (proj1 L8)|exact C]).
    assert (G : get_sock i w = get_sock i v). { destruct i; [exact L1|]. destruct F as [F|F]; [|discriminate]. rewrite F in L9. apply L9. }
    exists (fst (sock_send i bs w)). do 2 eexists. split; [reflexivity|]. split; [rewrite (sock_send_fst i bs w v G); reflexivity|].
    pose proof (sock_send_shape i bs w) as (ow & w1 & E1 & M1 & S1 & B1 & _). pose proof (sock_send_shape i bs v) as (ov & v1 & E2 & M2 & S2 & B2 & _).
    assert (Lw : (b < List.length (w_mem w))%nat). { destruct L6 as ((bl & X & _) & _). rewrite L3 in X. eapply nth_error_lt. exact X. }
    assert (Lv : (b < List.length (w_mem v))%nat). { destruct Ov as ((bl & X & _) & _). rewrite L4 in X. eapply nth_error_lt. exact X. }
    assert (Kw : mem_kept w (set_mem (w_mem w ++ [None]) (snd (sock_send i bs w)))).
    { intros k x _ H. cbn. rewrite grown; [exact H|eapply nth_error_lt; exact H]. }
    assert (Kv : mem_kept v (set_mem (w_mem v ++ [None]) (snd (sock_send i bs v)))).
    { intros k x _ H. cbn. rewrite grown; [exact H|eapply nth_error_lt; exact H]. }
    split; [|split; [exact Kw|auto]]. constructor.
    - cbn. unfold sock_send. rewrite G. destruct i; cbn [set_sock get_sock] in *; rewrite ?G; destruct (match so_send _ with [] => TxAll | x :: _ => x end); cbn; assumption || reflexivity.
    - cbn. rewrite E1, E2. cbn. congruence.
    - cbn. rewrite E1. cbn. congruence.
    - cbn. rewrite E2. cbn. congruence.
    - cbn. rewrite !grown by assumption. exact L5.
    - destruct L6 as ((bl & X & Lb) & R). split; [|cbn; rewrite E1; cbn; rewrite S1; exact R]. exists bl. split; [|exact Lb]. cbn. rewrite E1. cbn. rewrite B1.
      rewrite grown; [exact X|]. rewrite L3. exact Lw.
    - eapply user_kept; [exact L7|exact Kw|]. cbn. rewrite E1. cbn. exact B1.
    - eapply user_kept; [exact L8|exact Kv|]. cbn. rewrite E2. cbn. exact B2.
    - cbn. destruct full eqn:Fu.
      + destruct L9 as [Li Ln]. unfold sock_send. rewrite G. destruct i; cbn [set_sock get_sock] in *; rewrite ?G;
          destruct (match so_send _ with [] => TxAll | x :: _ => x end); cbn; split; congruence.
      + destruct F as [F| ->]; [discriminate|]. unfold sock_send. rewrite G. cbn [set_sock get_sock] in *.
        destruct (match so_send _ with [] => TxAll | x :: _ => x end); cbn; rewrite !ctl_talk_app, L9; reflexivity.
  Qed.
  Lemma a_recv i : full = true \/ i = Ctl -> atom (fun _ => True) (fun w => sock_recv i (recv_view w) w).
  Proof.
    intros F w v L. pose proof (alike_ok w v L) as Ov. pose proof L as [L1 L2 L3 L4 L5 L6 L7 L8 L9].
    assert (G : get_sock i w = get_sock i v). { destruct i; [exact L1|]. destruct F as [F|F]; [|discriminate]. rewrite F in L9. apply L9. }
    destruct (so_recv (get_sock i w)) as [|[d|] rs] eqn:Rw; pose proof Rw as Rv; rewrite G in Rv.
    - rewrite (recv_block i w _ Rw), (recv_block i v _ Rv). exists Stuck, w, v. repeat (split; [reflexivity||exact L|]). split; [apply kept_refl; reflexivity|auto].
    - set (got := take 4096 d).
      assert (X : forall z, session_ok z -> w_rbuf z = b -> so_recv (get_sock i z) = RxData d :: rs -> exists bl m, nth_error (w_mem z) b = Some (Some bl) /\
        m = (if len got =? 0 then w_mem z else list_set (w_mem z) b (Some (take 0 bl ++ got ++ drop (0 + len got) bl))) /\
        sock_recv i (recv_view z) z = (Ret (len got), emit (ERecv i (Some got)) (set_mem m (with_recv i rs z)))).
      { intros z ((bl & X & Lb) & _) B Rz. rewrite B in X. exists bl. eexists. split; [exact X|]. split; [reflexivity|]. unfold sock_recv. rewrite Rz. cbn [recv_view v_len v_blk v_off].
        fold got. replace (w_mem (set_sock i _ z)) with (w_mem z) by (destruct i; reflexivity). unfold store. rewrite B, X.
        assert (len got <= 4096) by (unfold got; rewrite len_take; lia). destruct (len got =? 0); [reflexivity|].
        replace (0 + len got <=? len bl) with true by (symmetry; apply N.leb_le; lia). reflexivity. }
      destruct (X w L6 L3 Rw) as (bw & mw & Bw & Mw & Ew). destruct (X v Ov L4 Rv) as (bv & mv & Bv & Mv & Ev). rewrite Ew, Ev.
      assert (bv = bw) by congruence. subst bv. do 3 eexists. split; [reflexivity|]. split; [reflexivity|].
      assert (Lw : (b < List.length (w_mem w))%nat) by (eapply nth_error_lt; exact Bw). assert (Lv : (b < List.length (w_mem v))%nat) by (eapply nth_error_lt; exact Bv).
      assert (Nb : nth_error mw b = nth_error mv b /\ exists bl, nth_error mw b = Some (Some bl) /\ len bl = 4096).
      { assert (Lbw : len bw = 4096) by (destruct L6 as ((bl & X6 & Lb) & _); rewrite L3 in X6; congruence).
        rewrite Mw, Mv. destruct (len got =? 0); [split; [congruence|exists bw; auto]|]. rewrite !nth_error_set_same by assumption. split; [reflexivity|].
        eexists. split; [reflexivity|]. rewrite !len_app, len_take, len_drop. assert (len got <= 4096) by (unfold got; rewrite len_take; lia). lia. }
      assert (Kw : forall z mz, w_rbuf z = b -> mz = (if len got =? 0 then w_mem z else list_set (w_mem z) b (Some (take 0 bw ++ got ++ drop (0 + len got) bw))) ->
        mem_kept z (emit (ERecv i (Some got)) (set_mem mz (with_recv i rs z)))).
      { intros z mz B -> k x Nk Hk. cbn [w_mem emit set_mem]. destruct (len got =? 0); [exact Hk|]. rewrite nth_error_set_other by congruence. exact Hk. }
      split; [|split; [apply Kw; assumption|auto]]. destruct Nb as [Nb1 Nb2].
      constructor; cbn.
      + destruct i; cbn; [f_equal; rewrite L1; reflexivity|exact L1].
      + destruct i; exact L2.
      + destruct i; exact L3.
      + destruct i; exact L4.
      + exact Nb1.
      + split; [|destruct i; exact (proj2 L6)]. destruct Nb2 as (bl & H1 & H2). exists bl. cbn. split; [|exact H2].
        replace (w_rbuf _) with b by (destruct i; symmetry; exact L3). exact H1.
      + eapply user_kept; [exact L7|apply Kw; [exact L3|exact Mw]|]. destruct i; reflexivity.
      + eapply user_kept; [exact L8|apply Kw; [exact L4|exact Mv]|]. destruct i; reflexivity.
      + destruct full eqn:Fu.
        * destruct L9 as [Li Ln]. destruct i; cbn; split; congruence.
        * destruct F as [F| ->]; [discriminate|]. cbn. rewrite !ctl_talk_app, L9. reflexivity.
    - rewrite (recv_fail i w _ rs Rw), (recv_fail i v _ rs Rv). do 3 eexists. split; [reflexivity|]. split; [reflexivity|].
      split; [|split; [apply kept_refl; destruct i; reflexivity|discriminate]]. constructor; cbn; try (destruct i; assumption).
      + destruct i; cbn; [f_equal; rewrite L1; reflexivity|exact L1].
      + destruct full eqn:Fu.
        * destruct L9 as [Li Ln]. destruct i; cbn; split; congruence.
        * destruct F as [F| ->]; [discriminate|]. cbn. rewrite !ctl_talk_app, L9. reflexivity.
  Qed.
  (** Decoding. *)
  Lemma alike_same w v : alike full u b w v -> alike full u b (set_mem (w_mem w) w) (set_mem (w_mem v) v).
  Proof. rewrite !set_mem_same. auto. Qed.
  Lemma a_decode {T} (x : D T unit) (Q : T -> Prop) P t n : loc b P (fun _ => Q) x -> P t ->
    atom (fun r => Q (fst r)) (fun w => m_decode x (view_take (recv_view w) n) t w).
  Proof.
    intros X p w v L. unfold m_decode.
    assert (E : recv_view v = recv_view w) by (unfold recv_view; rewrite (al_b1 _ _ _ _ _ L), (al_b2 _ _ _ _ _ L); reflexivity). rewrite E.
    destruct (X (w_mem w) (w_mem v) (view_take (recv_view w) n) 0 t (al_buf _ _ _ _ _ L) (al_b1 _ _ _ _ _ L) p) as (o & v1 & c1 & t1 & -> & -> & _ & q).
    destruct o as [[]|e s|ub|]; do 3 eexists; (split; [reflexivity|]); (split; [reflexivity|]); (split; [apply alike_same; exact L|]);
      (split; [apply kept_refl; reflexivity|]); try discriminate. intros a [= <-]. exact (q tt eq_refl).
  Qed.
  Lemma a_reply n : atom (reply_in b) (decode_reply n).
  Proof.
    intros w v L. destruct (a_decode ep_deserialize (reply_in b) any (ep_make0 0 0) n (l_ep b) Logic.I w v L) as (o & w' & v' & E1 & E2 & L' & K & q).
    unfold decode_reply, mbind. rewrite E1, E2. destruct o as [r|e s|ub|]; do 3 eexists; (split; [reflexivity|]); (split; [reflexivity|]); (split; [exact L'|]); (split; [exact K|]);
      try discriminate. intros a [= <-]. exact (q r eq_refl).
  Qed.
  Lemma a_io n : atom (fun _ => True) (decode_io n).
  Proof.
    intros w v L. destruct (a_decode cpf_deserialize _ any [] n (l_cpf b) Logic.I w v L) as (o & w' & v' & E1 & E2 & L' & K & q).
    unfold decode_io, mbind. rewrite E1, E2. destruct o as [r|e s|ub|]; do 3 eexists; (split; [reflexivity|]); (split; [reflexivity|]); (split; [exact L'|]); (split; [exact K|]); auto.
  Qed.
  Lemma a_copy_any {U} (c : cls U) d t : (c_sb c <> None \/ local_cls c) -> raw_in b d -> atom (fun _ => True) (m_copy_local c d t).
  Proof.
    intros C R w v L. unfold m_copy_local, m_copy. destruct R as [->|(sb & -> & B & _)].
    { do 3 eexists. split; [reflexivity|]. split; [reflexivity|]. split; [exact L|]. split; [apply kept_refl; reflexivity|auto]. }
    unfold copy_serializable. cbn [s_length s_sbuf ser_of_sbuf]. destruct (c_sb c) as [[get put]|].
    - do 3 eexists. split; [reflexivity|]. split; [reflexivity|]. split; [apply alike_same; exact L|]. split; [apply kept_refl; reflexivity|auto].
    - destruct C as [C|C]; [congruence|]. unfold run_reader.
      destruct (C (v_len (sb_data sb)) (w_mem w) (w_mem v) (sb_data sb) 0 t) as (o & v1 & c1 & t1 & -> & ->); [rewrite B; exact (al_buf _ _ _ _ _ L)|].
      destruct o as [[]|e s|ub|]; do 3 eexists; (split; [reflexivity|]); (split; [reflexivity|]); (split; [apply alike_same; exact L|]); (split; [apply kept_refl; reflexivity|auto]).
  Qed.
  Lemma a_copy {U} (c : cls U) P (Q : U -> Prop) d t : c_sb c = None -> (forall n, loc b P (fun _ => Q) (deserialize_len c n)) -> P t -> raw_in b d -> atom Q (m_copy_local c d t).
  Proof.
    intros C K p R w v L. unfold m_copy_local, m_copy. destruct R as [->|(sb & -> & B & _)].
    { do 3 eexists. split; [reflexivity|]. split; [reflexivity|]. split; [exact L|]. split; [apply kept_refl; reflexivity|discriminate]. }
    unfold copy_serializable. cbn [s_length s_sbuf ser_of_sbuf]. rewrite C. unfold run_reader.
    destruct (K (v_len (sb_data sb)) (w_mem w) (w_mem v) (sb_data sb) 0 t (al_buf _ _ _ _ _ L) B p) as (o & v1 & c1 & t1 & -> & -> & _ & q).
    destruct o as [[]|e s|ub|]; do 3 eexists; (split; [reflexivity|]); (split; [reflexivity|]); (split; [apply alike_same; exact L|]); (split; [apply kept_refl; reflexivity|]); try discriminate.
    intros a [= <-]. exact (q tt eq_refl).
  Qed.

  (** ** The calls *)
  Definition yes {A} : A -> Prop := fun _ => True.
  Lemma p_command req bs : carries u (ep_ser req) bs -> locp (reply_in b) (sendCommand_p req).
  Proof.
    intros C. unfold sendCommand_p. eapply p_bind with (Q := yes); [apply p_step; eapply a_send; [right; reflexivity|exact C]|intros _ _].
    eapply p_bind with (Q := yes); [apply p_step; apply (a_recv Ctl); right; reflexivity|intros n _].
    eapply p_bind; [apply p_step, a_reply|intros r H]. eapply p_bind with (Q := yes); [apply p_step, a_check|intros _ _]. apply p_ret. exact H.
  Qed.
  Lemma p_rr service pad ss d bs : len ss < 256 -> carries_opt u d bs -> locp (fun r => raw_in b (ms_data (rr_ext r))) (sendRR_p service (path_of pad ss) d).
  Proof.
    intros Ls C. unfold sendRR_p. eapply p_bind; [apply p_step, a_read|intros s Hs].
    destruct (ep_make_carries u EIP_CMD_SEND_RR_DATA (se_id s) (Some (rrq_ser (rrq_make service (path_of pad ss) d)))
      (rr_request (u8 service) (epath pad ss) bs)) as (q & Eq & _ & _ & Cq); [apply rrq_carries; assumption|]. rewrite Eq. cbn [pbind].
    eapply p_bind; [apply p_catch; [eapply p_command; exact Cq|apply p_throw..]|]. intros r [Hr _].
    eapply p_bind; [apply p_catch; [apply p_step|apply p_throw..]|].
    - apply (a_copy rrs_cls any (fun r => raw_in b (ms_additional (rr_ext r)) /\ raw_in b (ms_data (rr_ext r)))); [reflexivity|intros n; apply l_rrs|exact Logic.I|exact Hr].
    - cbv beta. intros resp [_ H]. destruct (negb _); [apply p_throw|]. apply p_ret. exact H.
  Qed.
  Lemma p_get {T} (c : cls T) t x y z : x < 256 -> y < 256 -> z < 256 -> (c_sb c <> None \/ local_cls c) -> locp yes (get_p c t x y z).
  Proof.
    intros Hx Hy Hz C. unfold get_p. rewrite path_cia_of by assumption. eapply p_bind; [eapply p_rr; [reflexivity|reflexivity]|]. cbv beta. intros r H.
    apply p_step. apply a_copy_any; assumption.
  Qed.
  Lemma p_set x y z d bs : x < 256 -> y < 256 -> z < 256 -> carries_opt u d bs -> locp yes (set_p x y z d).
  Proof.
    intros Hx Hy Hz C. unfold set_p. rewrite path_cia_of by assumption. eapply p_bind; [eapply p_rr; [reflexivity|exact C]|]. intros r H. apply p_ret. exact Logic.I.
  Qed.
  Lemma p_next_sn : locp yes next_sn_p.
  Proof.
    unfold next_sn_p. eapply p_bind; [apply p_step, a_read|intros s Hs]. eapply p_bind with (Q := yes); [apply p_step, a_upd; intros s' H; exact H|intros _ _]. apply p_ret. exact Logic.I.
  Qed.
  Lemma p_next_id : locp yes next_id_p.
  Proof.
    unfold next_id_p. eapply p_bind; [apply p_step, a_read|intros s Hs]. eapply p_bind with (Q := yes); [apply p_step, a_upd; intros s' H; exact H|intros _ _]. apply p_ret. exact Logic.I.
  Qed.
  Lemma p_create o t : ci_assembly o < 256 -> ci_assembly t < 256 -> locp yes (create_p o t).
  Proof.
    intros Ho Ht. unfold create_p. eapply p_bind; [apply p_step, a_read|intros s Hs]. eapply p_bind; [apply p_next_sn|intros sn _].
    eapply p_bind; [apply p_next_id|intros i _]. eapply p_bind; [apply p_next_id|intros j _]. cbv zeta. rewrite path_ci_of by lia.
    eapply p_bind; [eapply p_rr; [reflexivity|exact (forward_open_bytes u _ _ _ _ _ o t Ho Ht)]|]. cbv beta. intros r H.
    eapply p_bind with (Q := yes); [apply p_step; apply a_copy_any; [right; apply loc_local; apply loc_all|exact H]|]. intros res _.
    destruct (cn_verify_open _ res) as [c'|] eqn:V; [|apply p_throw].
    assert (K : cn_tick_size c' < 256 /\ cn_ticks c' < 256).
    { unfold cn_verify_open in V. destruct (_ || _); [discriminate|]. injection V as <-. split; reflexivity. }
    eapply p_bind with (Q := yes).
    { apply p_step, a_upd. intros s' [F1 F2]. split; [exact F1|]. cbn. apply Forall_app. split; [exact F2|]. constructor; [exact K|constructor]. }
    intros _ _. eapply p_bind; [apply p_step, a_read|intros s' _]. apply p_ret. exact Logic.I.
  Qed.
  Lemma Forall_remove {A} (P : A -> Prop) n l : Forall P l -> Forall P (list_remove n l).
  Proof. revert n. induction l as [|x l IH]; intros [|n] F; cbn; inversion F; subst; auto. Qed.
  Lemma p_drop n : locp yes (drop_p n).
  Proof.
    unfold drop_p. eapply p_bind; [apply p_step, a_conn|]. cbv beta. intros c [T1 T2]. rewrite path_ci_of by lia.
    eapply p_bind; [eapply p_rr; [reflexivity|exact (forward_close_bytes u c T1 T2)]|]. cbv beta. intros r H.
    eapply p_bind with (Q := yes); [apply p_step; apply a_copy_any; [right; apply loc_local; apply loc_all|exact H]|]. intros res _.
    eapply p_bind; [apply p_step, a_conn|]. intros c' _. destruct (negb _); [apply p_throw|].
    apply p_step, a_upd. intros s' [F1 F2]. split; [exact F1|]. cbn. apply Forall_remove. exact F2.
  Qed.
  (** The calls that use both sockets, or the I/O socket. *)
  Section both.
    Context (F : full = true).
    Lemma p_close_both : locp yes close_both_p.
    Proof. unfold close_both_p. eapply p_bind; [apply p_step, alike_close, F|intros _ _]. apply p_step, alike_close, F. Qed.
    Lemma p_open h p q : locp yes (session_open_p h p q).
    Proof.
      unfold session_open_p. eapply p_bind; [apply p_step, alike_open, F|intros _ _]. eapply p_bind; [apply p_step, alike_open, F|intros _ _].
      destruct (ep_make_carries u EIP_CMD_REGISTER_SESSION 0 (Some (rg_ser rg_make)) _ (rg_carries u rg_make)) as (m & Eq & _ & _ & Cq). rewrite Eq. cbn [pbind].
      eapply p_bind; [apply p_catch; [eapply p_command; exact Cq|eapply p_bind; [apply p_close_both|intros _ _; apply p_throw]..]|]. intros r [Hr Hf].
      eapply p_bind with (Q := yes).
      { apply p_catch; [|apply p_ret; exact Logic.I..]. eapply p_bind with (Q := yes); [apply p_step; apply a_copy_any; [right; apply loc_local; apply loc_all|exact Hr]|].
        intros g _. apply p_ret. exact Logic.I. }
      intros g _. eapply p_bind with (Q := yes).
      { destruct g as [g|]; [|apply p_ret; exact Logic.I]. destruct (negb _); [|apply p_ret; exact Logic.I]. eapply p_bind; [apply p_close_both|intros _ _; apply p_throw]. }
      intros _ _. apply p_step, a_upd. intros s [_ F2]. split; [exact Hf|exact F2].
    Qed.
    Lemma p_close : locp yes session_close_p.
    Proof.
      unfold session_close_p. eapply p_bind; [apply p_step, a_read|intros s _].
      eapply p_bind; [apply p_step; eapply a_send; [left; exact F|apply ep_make0_carries]|intros _ _].
      eapply p_bind; [apply p_close_both|intros _ _]. apply p_step, a_upd. intros s' [_ F2]. split; [reflexivity|exact F2].
    Qed.
    Lemma p_receive : locp yes receive_p.
    Proof. unfold receive_p. eapply p_bind; [apply p_step; apply (a_recv Io); left; exact F|intros n _]. apply p_step, a_io. Qed.
    Lemma p_send p bs : carries u (cpf_ser p) bs -> locp yes (send_p p).
    Proof. intros C. unfold send_p. eapply p_bind; [apply p_step; eapply a_send; [left; exact F|exact C]|intros _ _]. apply p_ret. exact Logic.I. Qed.
  End both.
  Lemma p_op o : full = true \/ explicit o -> call_ok u o -> locp yes (op_p o).
  Proof.
    intros F [K C]. destruct o as [h p q| |T c t x y z|x y z d|a1 a2|n| |p]; cbn [op_p op_ok explicit] in *.
    - destruct F as [F|[]]. eapply p_bind; [apply p_open; exact F|intros _ _; apply p_ret; exact Logic.I].
    - destruct F as [F|[]]. eapply p_bind; [apply p_close; exact F|intros _ _; apply p_ret; exact Logic.I].
    - destruct K as (Hx & Hy & Hz & _). eapply p_bind; [apply p_get; assumption|intros _ _; apply p_ret; exact Logic.I].
    - destruct K as (Hx & Hy & Hz & bs & Cb & _). eapply p_bind; [eapply p_set; eassumption|intros _ _; apply p_ret; exact Logic.I].
    - destruct K. eapply p_bind; [apply p_create; assumption|intros r _; apply p_ret; exact Logic.I].
    - eapply p_bind; [apply p_drop|intros _ _; apply p_ret; exact Logic.I].
    - destruct F as [F|[]]. eapply p_bind; [apply p_receive; exact F|intros r _; apply p_ret; exact Logic.I].
    - destruct F as [F|[]]. destruct K as [xs Cx]. eapply p_bind; [eapply p_send; [exact F|exact Cx]|intros _ _; apply p_ret; exact Logic.I].
  Qed.
  Lemma p_exec ops : full = true \/ Forall explicit ops -> Forall (call_ok u) ops -> locp yes (exec_p ops).
  Proof.
    induction ops as [|o ops IH]; intros F K; [apply p_ret; exact Logic.I|]. inversion K; subst. cbn [exec_p].
    eapply p_all; [apply p_op; [destruct F as [F|F]; [left; exact F|right; inversion F; assumption]|assumption]|].
    assert (R : locp yes (exec_p ops)) by (apply IH; [destruct F as [F|F]; [left; exact F|right; inversion F; assumption]|assumption]).
    intros [a|c e|ub|]; try (apply p_ret; exact Logic.I); (eapply p_bind; [exact R|]; intros rs _; apply p_ret; exact Logic.I).
  Qed.
End programs.
