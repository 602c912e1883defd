(** * Nothing but what was written reaches results and sockets: the session *)
From Verif Require Export PFresh PLocal2 PTypes.

Lemma all_refl w : all_but_memory w w. Proof. repeat split. Qed.

(** Two worlds that differ in memory; the first [lim] bytes of the receive buffer are alike. *)
Record twin (u : heap) (b : nat) (lim : N) (w v : world) : Prop := mkTwin {
  tw_all : all_but_memory w v;
  tw_b : w_rbuf w = b;
  tw_ok1 : session_ok w;
  tw_ok2 : session_ok v;
  tw_u1 : user_memory u w;
  tw_u2 : user_memory u v;
  tw_lim : lim <= 4096;
  tw_buf : agree_in (mkV b 0 lim) (w_mem w) (w_mem v) }.

Section session.
  Context (u : heap) (b : nat).
  Notation win lim := (mkV b 0 lim).

  Definition both {A} (lim : N) (Q : N -> A -> Prop) (x y : M A) : Prop :=
    forall w v, twin u b lim w v -> exists o w' v' lim', x w = (o, w') /\ y v = (o, v') /\ twin u b lim' w' v' /\ forall a, o = Ret a -> Q lim' a.
  Definition whatever {A} : N -> A -> Prop := fun _ _ => True.

  Lemma b_bind {A B} lim (Q : N -> A -> Prop) (R : N -> B -> Prop) x y f h : both lim Q x y -> (forall l a, Q l a -> both l R (f a) (h a)) -> both lim R (mbind x f) (mbind y h).
  Proof.
    intros X F w v T. unfold mbind. destruct (X w v T) as (o & w' & v' & l & -> & -> & T' & q).
    destruct o as [a|e s|ub|]; [exact (F l a (q a eq_refl) w' v' T')| | |]; (do 4 eexists; split; [reflexivity|]; split; [reflexivity|]; split; [exact T'|discriminate]).
  Qed.
  Lemma b_ret {A} lim (Q : N -> A -> Prop) a : Q lim a -> both lim Q (mret a) (mret a).
  Proof. intros H w v T. do 4 eexists. split; [reflexivity|]. split; [reflexivity|]. split; [exact T|]. intros a' [= <-]. exact H. Qed.
  Lemma b_throw {A} lim (Q : N -> A -> Prop) c s : both lim Q (mthrow c s) (mthrow c s).
  Proof. intros w v T. do 4 eexists. split; [reflexivity|]. split; [reflexivity|]. split; [exact T|discriminate]. Qed.
  Lemma b_out {A} lim (Q : N -> A -> Prop) o : (forall a, o = Ret a -> Q lim a) -> both lim Q (mout o) (mout o).
  Proof. intros H w v T. do 4 eexists. split; [reflexivity|]. split; [reflexivity|]. split; [exact T|exact H]. Qed.
  Lemma b_weaken {A} lim (Q R : N -> A -> Prop) x y : both lim Q x y -> (forall l a, Q l a -> R l a) -> both lim R x y.
  Proof. intros X H w v T. destruct (X w v T) as (o & w' & v' & l & E1 & E2 & T' & q). exists o, w', v', l. repeat (split; [assumption|]). intros a e. apply H, q, e. Qed.
  Lemma b_catch {A} lim (Q : N -> A -> Prop) x y h1 h2 k1 k2 : both lim Q x y -> (forall l, both l Q h1 k1) -> (forall l, both l Q h2 k2) ->
    both lim Q (mcatch x h1 h2) (mcatch y k1 k2).
  Proof.
    intros X H1 H2 w v T. unfold mcatch. destruct (X w v T) as (o & w' & v' & l & -> & -> & T' & q).
    destruct o as [a|e s|ub|]; try (do 4 eexists; split; [reflexivity|]; split; [reflexivity|]; split; [exact T'|exact q]).
    destruct (is_a e LengthError); [exact (H1 l w' v' T')|]. destruct (is_a e LogicError); [exact (H2 l w' v' T')|].
    do 4 eexists; split; [reflexivity|]; split; [reflexivity|]; split; [exact T'|discriminate].
  Qed.

  (** ** Atomic steps *)
  Lemma b_pure {A} lim (Q : N -> A -> Prop) (x : M A) (f : session -> outcome A) : (forall w, x w = (f (w_se w), w)) -> (forall s a, members_ok s -> f s = Ret a -> Q lim a) -> both lim Q x x.
  Proof.
    intros E H w v T. destruct (tw_all _ _ _ _ _ T) as (_ & _ & _ & S & _). rewrite !E, <- S. exists (f (w_se w)), w, v, lim.
    split; [reflexivity|]. split; [reflexivity|]. split; [exact T|]. intros a. apply H. apply (tw_ok1 _ _ _ _ _ T).
  Qed.
  (** [mget] used for the members only. *)
  Lemma b_members {A} lim (Q : N -> A -> Prop) f h : (forall w v, w_se w = w_se v -> members_ok (w_se w) -> both lim Q (f w) (h v)) -> both lim Q (mbind mget f) (mbind mget h).
  Proof. intros H w v T. unfold mbind, mget. destruct (tw_all _ _ _ _ _ T) as (_ & _ & _ & S & _). exact (H w v S (proj2 (tw_ok1 _ _ _ _ _ T)) w v T). Qed.
  Lemma b_check lim p c : both lim whatever (check_packet p c) (check_packet p c).
  Proof.
    apply (b_pure _ _ _ (fun s => fst (check_packet p c (mkW [] (mkSock [] [] [] []) (mkSock [] [] [] []) [] s O)))); [|intros; exact Logic.I].
    intros w. unfold check_packet. cbn [w_se]. destruct (negb (h_command (ep_header p) =? c)); [reflexivity|]. destruct (_ && _); [reflexivity|].
    destruct (_ && _); reflexivity.
  Qed.
  Lemma b_conn lim n : both lim (fun _ c => cn_tick_size c < 256 /\ cn_ticks c < 256) (getConnection n) (getConnection n).
  Proof.
    apply (b_pure _ _ _ (fun s => match nth_error (se_conns s) (N.to_nat n) with Some c => Ret c | None => Undef VecOutOfBounds end)).
    - intros w. unfold getConnection. destruct (nth_error _ _); reflexivity.
    - intros s a [_ F] H. destruct (nth_error (se_conns s) (N.to_nat n)) eqn:X; [|discriminate]. injection H as <-. rewrite Forall_forall in F. apply F. eapply nth_error_In. exact X.
  Qed.
  Lemma b_upd lim f : (forall s, members_ok s -> members_ok (f s)) -> both lim whatever (mupd_se f) (mupd_se f).
  Proof.
    intros H w v [(A1 & A2 & A3 & A4 & A5) B O1 O2 U1 U2 L G]. do 3 eexists. exists lim. split; [reflexivity|]. split; [reflexivity|]. split; [|intros; exact Logic.I].
    constructor; cbn; try assumption.
    - repeat split; cbn; try assumption. rewrite A4. reflexivity.
    - destruct O1 as [X Y]. split; [exact X|]. apply H. exact Y.
    - destruct O2 as [X Y]. split; [exact X|]. apply H. exact Y.
  Qed.
  Lemma b_open lim i h p : both lim whatever (sock_open i h p) (sock_open i h p).
  Proof.
    intros w v [(A1 & A2 & A3 & A4 & A5) B O1 O2 U1 U2 L G].
    assert (K : get_sock i w = get_sock i v) by (destruct i; assumption). unfold sock_open. rewrite K.
    destruct (match so_open (get_sock i v) with [] => false | b0 :: _ => b0 end); do 3 eexists; exists lim; (split; [reflexivity|]); (split; [reflexivity|]);
      (split; [|try discriminate; intros; exact Logic.I]); (constructor; [repeat split|..]); destruct i; cbn; try assumption; try congruence.
  Qed.
  Lemma b_close lim i : both lim whatever (sock_close i) (sock_close i).
  Proof.
    intros w v [(A1 & A2 & A3 & A4 & A5) B O1 O2 U1 U2 L G].
    assert (K : get_sock i w = get_sock i v) by (destruct i; assumption). unfold sock_close. rewrite K.
    destruct (match so_close (get_sock i v) with [] => false | b0 :: _ => b0 end); do 3 eexists; exists lim; (split; [reflexivity|]); (split; [reflexivity|]);
      (split; [|try discriminate; intros; exact Logic.I]); (constructor; [repeat split|..]); destruct i; cbn; try assumption; try congruence.
  Qed.
  Lemma b_lt w : session_ok w -> (w_rbuf w < List.length (w_mem w))%nat.
  Proof. intros ((bl & X & _) & _). eapply nth_error_lt. exact X. Qed.
  Lemma b_send lim i s bs : carries u s bs -> both lim whatever (sock_send_ser i s) (sock_send_ser i s).
  Proof.
    intros C w v [(A1 & A2 & A3 & A4 & A5) B O1 O2 U1 U2 L G].
    rewrite (send_ser i s bs w) by (eapply carries_hext; [exact (proj1 U1)|exact C]). rewrite (send_ser i s bs v) by (eapply carries_hext; [exact (proj1 U2)|exact C]).
    assert (K : get_sock i w = get_sock i v) by (destruct i; assumption).
    exists (fst (sock_send i bs w)). do 2 eexists. exists lim. split; [reflexivity|]. split; [rewrite (sock_send_fst i bs w v K); reflexivity|].
    pose proof (sock_send_shape i bs w) as (ow & w1 & E1 & M1 & S1 & B1 & _). pose proof (sock_send_shape i bs v) as (ov & v1 & E2 & M2 & S2 & B2 & _).
    pose proof (b_lt w O1) as Lw. pose proof (b_lt v O2) as Lv.
    assert (Kw : forall z y bf, (bf < List.length (w_mem z))%nat -> w_rbuf z = bf -> w_rbuf y = bf -> w_se y = w_se z -> session_ok z -> session_ok (set_mem (w_mem z ++ [None]) y)).
    { intros z y bf Lz Ez Ey Se ((bl & X & Lb) & R). split; [|cbn; rewrite Se; exact R]. exists bl. split; [|exact Lb]. cbn. rewrite Ey, <- Ez. rewrite grown; [exact X|congruence]. }
    assert (Ku : forall z y, w_rbuf y = w_rbuf z -> user_memory u z -> user_memory u (set_mem (w_mem z ++ [None]) y)).
    { intros z y E H. eapply user_kept; [exact H| |exact E]. intros k x _ X. cbn. rewrite grown; [exact X|eapply nth_error_lt; exact X]. }
    split; [|intros; exact Logic.I]. constructor; try exact L.
    - rewrite E1, E2. cbn. apply (f_equal snd) in E1, E2. cbn in E1, E2. subst w1 v1. unfold sock_send. rewrite K.
      destruct i; cbn [set_sock get_sock] in *; destruct (match so_send _ with [] => TxAll | x :: _ => x end); repeat split; cbn; try assumption; try congruence.
    - rewrite E1. cbn. congruence.
    - rewrite E1. cbn [snd]. eapply Kw; [exact Lw|reflexivity|exact B1|exact S1|exact O1].
    - rewrite E2. cbn [snd]. eapply Kw; [exact Lv|reflexivity|exact B2|exact S2|exact O2].
    - rewrite E1. cbn [snd]. apply Ku; assumption.
    - rewrite E2. cbn [snd]. apply Ku; assumption.
    - cbn. intros off k F1 F2. rewrite <- (G off k F1 F2) || idtac. cbn [v_blk].
      transitivity (load (w_mem w) b off k); [apply load_same; apply grown; congruence|]. transitivity (load (w_mem v) b off k); [exact (G off k F1 F2)|]. symmetry. apply load_same. apply grown. congruence.
  Qed.
  Lemma load_prefix m bf bl k (got : list byte) off : nth_error m bf = Some (Some (got ++ bl)) -> off + k <= len got -> load m bf off k = Ret (take k (drop off got)).
  Proof.
    intros X H. unfold load. rewrite X. destruct (k =? 0) eqn:Z; [apply N.eqb_eq in Z; subst k; reflexivity|].
    replace (off + k <=? len (got ++ bl)) with true by (symmetry; apply N.leb_le; rewrite len_app; lia). f_equal.
    rewrite !take_drop_comm. rewrite take_app_l by lia. reflexivity.
  Qed.
  Lemma b_recv lim i : both lim (fun l n => n = l) (fun w => sock_recv i (recv_view w) w) (fun w => sock_recv i (recv_view w) w).
  Proof.
    intros w v T. pose proof T as [(A1 & A2 & A3 & A4 & A5) B O1 O2 U1 U2 L G].
    assert (K : get_sock i w = get_sock i v) by (destruct i; assumption).
    destruct (so_recv (get_sock i w)) as [|[d|] rs] eqn:Rw; pose proof Rw as Rv; rewrite K in Rv.
    - rewrite (recv_block i w _ Rw), (recv_block i v _ Rv). exists Stuck, w, v, lim. repeat (split; [reflexivity||exact T|]). discriminate.
    - set (got := take 4096 d). assert (Lg : len got <= 4096) by (unfold got; rewrite len_take; lia).
      assert (X : forall z, session_ok z -> w_rbuf z = b -> so_recv (get_sock i z) = RxData d :: rs -> exists bl m, len (got ++ bl) = 4096 /\
        nth_error m b = Some (Some (got ++ bl)) /\ (forall k, k <> b -> nth_error m k = nth_error (w_mem z) k) /\
        sock_recv i (recv_view z) z = (Ret (len got), emit (ERecv i (Some got)) (set_mem m (with_recv i rs z)))).
      { intros z ((bl & X & Lb) & _) Bz Rz. rewrite Bz in X. exists (drop (len got) bl). eexists.
        assert (LL : len (got ++ drop (len got) bl) = 4096) by (rewrite len_app, len_drop; lia).
        split; [exact LL|].
        split; [|split; [|unfold sock_recv; rewrite Rz; cbn [recv_view v_len v_blk v_off]; fold got;
          replace (w_mem (set_sock i _ z)) with (w_mem z) by (destruct i; reflexivity); unfold store; rewrite Bz, X;
          assert (E : (if len got =? 0 then Ret (w_mem z) else if 0 + len got <=? len bl then Ret (list_set (w_mem z) b (Some (take 0 bl ++ got ++ drop (0 + len got) bl))) else Undef WildAccess)
            = Ret (if len got =? 0 then w_mem z else list_set (w_mem z) b (Some (take 0 bl ++ got ++ drop (0 + len got) bl))));
          [destruct (len got =? 0); [reflexivity|]; replace (0 + len got <=? len bl) with true by (symmetry; apply N.leb_le; lia); reflexivity|];
          rewrite E; reflexivity]].
        - destruct (len got =? 0) eqn:Z.
          + apply N.eqb_eq in Z. rewrite (len_0 got Z). exact X.
          + rewrite nth_error_set_same by (eapply nth_error_lt; exact X). reflexivity.
        - intros k Nk. destruct (len got =? 0); [reflexivity|]. apply nth_error_set_other. congruence. }
      destruct (X w O1 B Rw) as (bw & mw & Lw & Bw & Ow & Ew). destruct (X v O2 (eq_trans (eq_sym A5) B) Rv) as (bv & mv & Lv & Bv & Ov & Ev). rewrite Ew, Ev.
      do 3 eexists. exists (len got). split; [reflexivity|]. split; [reflexivity|]. split; [|intros a [= <-]; reflexivity].
      assert (KU : forall z mz, w_rbuf z = b -> (forall k, k <> b -> nth_error mz k = nth_error (w_mem z) k) -> user_memory u z ->
        user_memory u (emit (ERecv i (Some got)) (set_mem mz (with_recv i rs z)))).
      { intros z mz Bz Oz Uz. eapply user_kept; [exact Uz| |destruct i; reflexivity]. intros k x Nk Hk. cbn [w_mem emit set_mem]. rewrite Oz; [exact Hk|congruence]. }
      constructor; cbn.
      + destruct i; repeat split; cbn in *; try assumption; try congruence.
      + destruct i; exact B.
      + split; [|destruct i; exact (proj2 O1)]. exists (got ++ bw). cbn. split; [|exact Lw]. replace (w_rbuf _) with b by (destruct i; symmetry; exact B). exact Bw.
      + split; [|destruct i; exact (proj2 O2)]. exists (got ++ bv). cbn. split; [|exact Lv]. replace (w_rbuf _) with b by (destruct i; cbn; congruence). exact Bv.
      + apply KU; [exact B|exact Ow|exact U1].
      + apply KU; [congruence|exact Ov|exact U2].
      + exact Lg.
      + intros off k _ H. cbn in *. rewrite (load_prefix mw b bw k got off Bw H), (load_prefix mv b bv k got off Bv H). reflexivity.
    - rewrite (recv_fail i w _ rs Rw), (recv_fail i v _ rs Rv). do 3 eexists. exists lim. split; [reflexivity|]. split; [reflexivity|]. split; [|discriminate].
      constructor; cbn; try (destruct i; assumption). destruct i; repeat split; cbn in *; try assumption; try congruence.
  Qed.

  (** Decoding. *)
  Lemma twin_set lim w v : twin u b lim w v -> twin u b lim (set_mem (w_mem w) w) (set_mem (w_mem v) v).
  Proof. rewrite !set_mem_same. auto. Qed.
  Lemma b_decode_at {T} (x : D T unit) (Q : T -> Prop) P t lim : snug (win lim) P (fun _ => Q) x -> P t ->
    both lim (fun l r => l = lim /\ Q (fst r)) (m_decode x (view_take (mkV b 0 4096) lim) t) (m_decode x (view_take (mkV b 0 4096) lim) t).
  Proof.
    intros X p w v T'. unfold m_decode.
    assert (W : in_view (win lim) (view_take (mkV b 0 4096) lim)) by (unfold in_view, view_take; cbn; pose proof (tw_lim _ _ _ _ _ T'); repeat split; lia).
    destruct (X (w_mem w) (w_mem v) _ 0 t (tw_buf _ _ _ _ _ T') W p) as (o & v1 & c1 & t1 & -> & -> & _ & q).
    destruct o as [[]|e s|ub|]; do 3 eexists; exists lim; (split; [reflexivity|]); (split; [reflexivity|]); (split; [apply twin_set; exact T'|]); try discriminate.
    intros a [= <-]. split; [reflexivity|]. exact (q tt eq_refl).
  Qed.
  Lemma b_here {A} lim (Q : N -> A -> Prop) (f : view -> M A) : both lim Q (f (mkV b 0 4096)) (f (mkV b 0 4096)) -> both lim Q (fun w => f (recv_view w) w) (fun w => f (recv_view w) w).
  Proof.
    intros H w v T. assert (E : recv_view w = mkV b 0 4096) by (unfold recv_view; rewrite (tw_b _ _ _ _ _ T); reflexivity).
    assert (E' : recv_view v = mkV b 0 4096) by (unfold recv_view in *; destruct (tw_all _ _ _ _ _ T) as (_ & _ & _ & _ & <-); exact E). rewrite E, E'. exact (H w v T).
  Qed.
  Lemma b_parse lim req : both lim (fun l p => held_reply (win l) p) (sc_parse req lim) (sc_parse req lim).
  Proof.
    unfold sc_parse. apply (b_here lim _ (fun rv => let* r := m_decode ep_deserialize (view_take rv lim) (ep_make0 0 0) in
      do* check_packet (fst r) (h_command (ep_header req)) in mret (fst r))).
    eapply b_bind; [apply (b_decode_at ep_deserialize (held_reply (win lim)) any); [apply sg_ep|exact Logic.I]|]. intros l r [-> H].
    intros w v T. unfold mbind. destruct (b_check lim (fst r) (h_command (ep_header req)) w v T) as (o & w' & v' & l & E1 & E2 & T' & _).
    assert (w' = w /\ v' = v) as [-> ->].
    { unfold check_packet in E1, E2. repeat match type of E1 with (if ?c then _ else _) = _ => destruct c end; repeat match type of E2 with (if ?c then _ else _) = _ => destruct c end;
        apply pair_equal_spec in E1, E2; destruct E1, E2; auto. }
    rewrite E1, E2. destruct o as [[]|e s|ub|]; do 3 eexists; exists lim; (split; [reflexivity|]); (split; [reflexivity|]); (split; [exact T|]); try discriminate.
    intros a [= <-]. exact H.
  Qed.
  Lemma b_command lim req bs : carries u (ep_ser req) bs -> both lim (fun l p => held_reply (win l) p) (sendCommand req) (sendCommand req).
  Proof.
    intros C. unfold sendCommand, sc_send. eapply b_bind; [eapply b_send; exact C|]. intros l n _. eapply b_bind; [apply (b_recv l Ctl)|]. cbv beta.
    intros l' n' ->. apply b_parse.
  Qed.
  (** Copying out of a payload; the object copied into may differ where the class forgets it. *)
  Lemma b_copy_any {U} lim (c : cls U) d t : (c_sb c <> None \/ tight_cls c) -> held (win lim) d -> forall w v, twin u b lim w v ->
    exists o t' w' v', m_copy c d t w = (o, t', w') /\ m_copy c d t v = (o, t', v') /\ twin u b lim w' v'.
  Proof.
    intros C R w v L. unfold m_copy. destruct R as [->|(sb & -> & W & _)].
    { do 4 eexists. split; [reflexivity|]. split; [reflexivity|exact L]. }
    unfold copy_serializable. cbn [s_length s_sbuf ser_of_sbuf]. destruct (c_sb c) as [[get put]|].
    - do 4 eexists. split; [reflexivity|]. split; [reflexivity|]. apply twin_set. exact L.
    - destruct C as [C|[_ C]]; [congruence|]. unfold run_reader.
      destruct (C (v_len (sb_data sb)) (w_mem w) (w_mem v) (sb_data sb) 0 t) as (o & v1 & c1 & t1 & -> & ->).
      { intros off k F1 F2. destruct W as (W1 & W2 & W3). rewrite W1. cbn in *. apply (tw_buf _ _ _ _ _ L); cbn; lia. }
      do 4 eexists. split; [reflexivity|]. split; [reflexivity|]. apply twin_set. exact L.
  Qed.
  Lemma b_copy {U} lim (c : cls U) d t : (c_sb c <> None \/ tight_cls c) -> held (win lim) d -> both lim whatever (m_copy_local c d t) (m_copy_local c d t).
  Proof.
    intros C R w v L. unfold m_copy_local. destruct (b_copy_any lim c d t C R w v L) as (o & t' & w' & v' & -> & -> & T).
    destruct o as [[]|e s|ub|]; do 3 eexists; exists lim; (split; [reflexivity|]); (split; [reflexivity|]); (split; [exact T|]); intros; exact Logic.I.
  Qed.
  Lemma b_copy_into {U} lim (c : cls U) d t j : c_sb c = None -> tight_cls c -> forgets c -> held (win lim) d ->
    both lim whatever (m_copy_local c d t) (fun w => m_copy_local c d (j w) w).
  Proof.
    intros C K F R w v L. destruct (b_copy lim c d t (or_intror K) R w v L) as (o & w' & v' & l & E1 & E2 & T & q).
    exists o, w', v', l. split; [exact E1|]. split; [|split; [exact T|exact q]]. rewrite <- E2. unfold m_copy_local, m_copy. destruct R as [->|(sb & -> & W & _)]; [reflexivity|].
    unfold copy_serializable. cbn [s_length s_sbuf ser_of_sbuf]. rewrite C. unfold run_reader.
    destruct (F t (j v)) as [_ A]. specialize (A (v_len (sb_data sb)) (w_mem v) (sb_data sb) 0).
    destruct (deserialize_len c _ (w_mem v) _ t) as [[[o1 m1] r1] t1]. destruct (deserialize_len c _ (w_mem v) _ (j v)) as [[[o2 m2] r2] t2].
    destruct A as (-> & -> & -> & A). destruct o1 as [[]|e s|ub|]; try reflexivity. rewrite (A eq_refl). reflexivity.
  Qed.
  Lemma b_copy_held lim d : held (win lim) d ->
    both lim (fun l r => held (win l) (ms_data (rr_ext r))) (m_copy_local rrs_cls d rrs_make) (m_copy_local rrs_cls d rrs_make).
  Proof.
    intros R w v L. unfold m_copy_local, m_copy. destruct R as [->|(sb & -> & W & _)].
    { do 4 eexists. split; [reflexivity|]. split; [reflexivity|]. split; [exact L|discriminate]. }
    unfold copy_serializable. cbn [s_length s_sbuf ser_of_sbuf]. replace (c_sb rrs_cls) with (@None ((rr_data mr_response -> sbuf) * (sbuf -> rr_data mr_response -> rr_data mr_response))) by reflexivity. unfold run_reader.
    assert (X : forall n, snug (win lim) any (fun _ r => held (win lim) (ms_additional (rr_ext r)) /\ held (win lim) (ms_data (rr_ext r))) (deserialize_len rrs_cls n)) by (intros n; apply sg_rrs).
    destruct (X (v_len (sb_data sb)) (w_mem w) (w_mem v) (sb_data sb) 0 rrs_make (tw_buf _ _ _ _ _ L) W Logic.I) as (o & v1 & c1 & t1 & -> & -> & _ & q).
    destruct o as [[]|e s|ub|]; do 3 eexists; exists lim; (split; [reflexivity|]); (split; [reflexivity|]); (split; [apply twin_set; exact L|]); try discriminate.
    intros a [= <-]. apply (q tt eq_refl).
  Qed.

  (** ** The calls *)
  Lemma b_rr lim service pad ss d bs : len ss < 256 -> carries_opt u d bs ->
    both lim (fun l r => held (win l) (ms_data (rr_ext r))) (sendRRDataCommand service (path_of pad ss) d) (sendRRDataCommand service (path_of pad ss) d).
  Proof.
    intros Ls C. unfold sendRRDataCommand. apply b_members. intros w0 v0 E _. rewrite <- E.
    destruct (ep_make_carries u EIP_CMD_SEND_RR_DATA (se_id (w_se w0)) (Some (rrq_ser (rrq_make service (path_of pad ss) d)))
      (rr_request (u8 service) (epath pad ss) bs)) as (q & Eq & _ & _ & Cq); [apply rrq_carries; assumption|]. rewrite Eq.
    eapply b_bind with (Q := fun _ p => p = q); [apply b_out; intros a [= <-]; reflexivity|]. intros l p ->.
    eapply b_bind; [apply b_catch; [eapply b_command; exact Cq|intros; apply b_throw..]|]. cbv beta. intros l' r [Hr _].
    eapply b_bind; [apply b_catch; [apply b_copy_held; exact Hr|intros; apply b_throw..]|]. cbv beta. intros l2 resp H.
    destruct (negb _); [apply b_throw|]. apply b_ret. exact H.
  Qed.
  Lemma b_get {T} lim (c : cls T) t x y z : x < 256 -> y < 256 -> z < 256 -> (c_sb c <> None \/ tight_cls c) -> forall w v, twin u b lim w v ->
    exists o t' w' v' l, getSingleAttributeSerializable c x y z t w = (o, t', w') /\ getSingleAttributeSerializable c x y z t v = (o, t', v') /\ twin u b l w' v'.
  Proof.
    intros Hx Hy Hz C w v L. unfold getSingleAttributeSerializable. rewrite path_cia_of by assumption.
    match goal with |- context [sendRRDataCommand ?s (path_of ?p ?ss) ?d w] => destruct (b_rr lim s p ss d [] eq_refl eq_refl w v L) as (o & w' & v' & l & -> & -> & T' & q) end.
    destruct o as [r|e s|ub|]; try (do 5 eexists; split; [reflexivity|]; split; [reflexivity|exact T']).
    destruct (b_copy_any l c (ms_data (rr_ext r)) t C (q r eq_refl) w' v' T') as (o & t' & w2 & v2 & E1 & E2 & T2). exists o, t', w2, v2, l. auto.
  Qed.
  Lemma b_set lim x y z d bs : x < 256 -> y < 256 -> z < 256 -> carries_opt u d bs -> both lim whatever (setSingleAttributeSerializable x y z d) (setSingleAttributeSerializable x y z d).
  Proof.
    intros Hx Hy Hz C. unfold setSingleAttributeSerializable. rewrite path_cia_of by assumption. eapply b_bind; [eapply b_rr; [reflexivity|exact C]|]. intros l r H. apply b_ret. exact Logic.I.
  Qed.
  Lemma tight_fs : tight_cls fs_cls. Proof. apply snug_cls_tight, snug_all. Qed.
  Lemma tight_cs : tight_cls cs_cls. Proof. apply snug_cls_tight, snug_all. Qed.
  Lemma tight_rg : tight_cls rg_cls. Proof. apply snug_cls_tight, snug_all. Qed.
  Lemma forgets_fs : forgets fs_cls. Proof. apply all_forget. Qed.
  Lemma forgets_cs : forgets cs_cls. Proof. apply all_forget. Qed.
  Lemma b_create lim g o t : ci_assembly o < 256 -> ci_assembly t < 256 -> both lim whatever (createConnection o t) (createConnection_g g o t).
  Proof.
    intros Ho Ht. unfold createConnection, createConnection_g. apply b_members. intros w0 v0 E _. cbv zeta. rewrite <- E. clear v0 E.
    eapply b_bind; [apply b_upd; intros s H; exact H|]. intros l ? _. rewrite path_ci_of by lia.
    eapply b_bind; [eapply b_rr; [reflexivity|exact (forward_open_bytes u _ _ _ _ _ o t Ho Ht)]|]. cbv beta. intros l' r H.
    eapply b_bind with (Q := whatever); [apply b_copy_into; [reflexivity|apply tight_fs|apply forgets_fs|exact H]|]. intros l2 res _.
    destruct (cn_verify_open _ res) as [c'|] eqn:V; [|apply b_throw].
    assert (K : cn_tick_size c' < 256 /\ cn_ticks c' < 256).
    { unfold cn_verify_open in V. destruct (_ || _); [discriminate|]. injection V as <-. split; reflexivity. }
    eapply b_bind with (Q := whatever).
    { apply b_upd. intros s' [F1 F2]. split; [exact F1|]. cbn. apply Forall_app. split; [exact F2|]. constructor; [exact K|constructor]. }
    intros l3 ? _. apply b_members. intros w1 v1 E _. rewrite E. apply b_ret. exact Logic.I.
  Qed.
  Lemma b_drop lim g n : both lim whatever (closeConnection n) (closeConnection_g g n).
  Proof.
    unfold closeConnection, closeConnection_g. eapply b_bind; [apply b_conn|]. cbv beta. intros l c [T1 T2]. rewrite path_ci_of by lia.
    eapply b_bind; [eapply b_rr; [reflexivity|exact (forward_close_bytes u c T1 T2)]|]. cbv beta. intros l' r H.
    eapply b_bind with (Q := whatever); [apply b_copy_into; [reflexivity|apply tight_cs|apply forgets_cs|exact H]|]. intros l2 res _.
    eapply b_bind; [apply b_conn|]. intros l3 c' _. destruct (negb _); [apply b_throw|].
    apply b_upd. intros s' [F1 F2]. split; [exact F1|]. cbn. apply Forall_remove. exact F2.
  Qed.
  Lemma b_close_both lim : both lim whatever close_both close_both.
  Proof. unfold close_both. eapply b_bind; [apply b_close|intros l ? _]. apply b_close. Qed.
  Lemma b_session_open lim h p q : both lim whatever (session_open h p q) (session_open h p q).
  Proof.
    unfold session_open. eapply b_bind; [apply b_open|intros l1 ? _]. eapply b_bind; [apply b_open|intros l2 ? _].
    destruct (ep_make_carries u EIP_CMD_REGISTER_SESSION 0 (Some (rg_ser rg_make)) _ (rg_carries u rg_make)) as (m & Eq & _ & _ & Cq). rewrite Eq.
    eapply b_bind with (Q := fun _ p => p = m); [apply b_out; intros a9 [= <-]; reflexivity|]. intros l p0 ->.
    eapply b_bind; [apply b_catch; [eapply b_command; exact Cq|intros l'; eapply b_bind; [apply b_close_both|intros l3 ? _; apply b_throw]..]|]. intros l4 r [Hr Hf].
    eapply b_bind with (Q := whatever).
    { apply b_catch; [|intros; apply b_ret; exact Logic.I..]. eapply b_bind with (Q := whatever); [apply b_copy; [right; apply tight_rg|exact Hr]|].
      intros l5 g _. apply b_ret. exact Logic.I. }
    intros l6 g _. eapply b_bind with (Q := whatever).
    { destruct g as [g|]; [|apply b_ret; exact Logic.I]. destruct (negb _); [|apply b_ret; exact Logic.I]. eapply b_bind; [apply b_close_both|intros l7 ? _; apply b_throw]. }
    intros l8 ? _. apply b_upd. intros s [_ F2]. split; [exact Hf|exact F2].
  Qed.
  Lemma b_session_close lim : both lim whatever session_close session_close.
  Proof.
    unfold session_close. apply b_members. intros w0 v0 E _. rewrite <- E.
    eapply b_bind; [eapply b_send; apply ep_make0_carries|intros l ? _].
    eapply b_bind; [apply b_close_both|intros l' ? _]. apply b_upd. intros s' [_ F2]. split; [reflexivity|exact F2].
  Qed.
  Lemma b_receive lim : both lim (fun l p => Forall (fun i => held (win l) (it_data i)) p) receiveIOPacket receiveIOPacket.
  Proof.
    unfold receiveIOPacket. apply (b_here lim _ (fun rv => let* n := sock_recv Io rv in let* r := m_decode cpf_deserialize (view_take rv n) [] in mret (fst r))).
    intros w v T. unfold mbind at 1 3.
    assert (E : recv_view w = mkV b 0 4096) by (unfold recv_view; rewrite (tw_b _ _ _ _ _ T); reflexivity).
    assert (E' : recv_view v = mkV b 0 4096) by (unfold recv_view in *; destruct (tw_all _ _ _ _ _ T) as (_ & _ & _ & _ & <-); exact E).
    destruct (b_recv lim Io w v T) as (o & w' & v' & l & E1 & E2 & T' & q). rewrite E in E1. rewrite E' in E2. rewrite E1, E2.
    destruct o as [n|e s|ub|]; try (do 4 eexists; split; [reflexivity|]; split; [reflexivity|]; split; [exact T'|discriminate]).
    rewrite (q n eq_refl).
    match goal with |- exists o w2 v2 l2, ?x w' = _ /\ ?y v' = _ /\ _ => assert (H : both l (fun l p => Forall (fun i => held (win l) (it_data i)) p) x y) end; [|exact (H w' v' T')].
    eapply b_bind; [apply (b_decode_at cpf_deserialize (fun p => Forall (fun i => held (win l) (it_data i)) p) any); [apply sg_cpf|exact Logic.I]|]. cbv beta. intros l2 r [-> H]. apply b_ret. exact H.
  Qed.
  Lemma b_send_io lim p bs : carries u (cpf_ser p) bs -> both lim whatever (sendIOPacket p) (sendIOPacket p).
  Proof. intros C. unfold sendIOPacket. eapply b_bind; [eapply b_send; exact C|intros l ? _]. apply b_ret. exact Logic.I. Qed.
  Definition result_held (l : N) (r : result) : Prop := match r with RItems p => Forall (fun i => held (win l) (it_data i)) p | _ => True end.
  Lemma b_step lim g o : fresh_ok u o -> both lim result_held (step o) (step_g g o).
  Proof.
    intros [K C]. destruct o as [h p q| |T c t x y z|x y z d|a1 a2|n| |p]; cbn [step step_g op_ok] in *.
    - eapply b_bind; [apply b_session_open|intros l ? _; apply b_ret; exact Logic.I].
    - eapply b_bind; [apply b_session_close|intros l ? _; apply b_ret; exact Logic.I].
    - destruct K as (Hx & Hy & Hz & _). intros w v L. destruct (b_get lim c t x y z Hx Hy Hz C w v L) as (o & t' & w' & v' & l & -> & -> & T').
      destruct o as [[]|e s|ub|]; do 3 eexists; exists l; (split; [reflexivity|]); (split; [reflexivity|]); (split; [exact T'|]); try discriminate. intros a [= <-]. exact Logic.I.
    - destruct K as (Hx & Hy & Hz & bs & Cb & _). eapply b_bind; [eapply b_set; eassumption|intros l ? _; apply b_ret; exact Logic.I].
    - destruct K. eapply b_bind; [apply b_create; assumption|intros l r _; apply b_ret; exact Logic.I].
    - eapply b_bind; [apply b_drop|intros l ? _; apply b_ret; exact Logic.I].
    - eapply b_bind; [apply b_receive|intros l r H; apply b_ret; exact H].
    - destruct K as [xs Cx]. eapply b_bind; [eapply b_send_io; exact Cx|intros l ? _; apply b_ret; exact Logic.I].
  Qed.
  Lemma b_exec g ops : Forall (fresh_ok u) ops -> forall lim w v, twin u b lim w v ->
    exists rs w' v' l, exec ops w = (rs, w') /\ exec_g g ops v = (rs, v') /\ twin u b l w' v'.
  Proof.
    induction ops as [|o ops IH]; intros F lim w v T; [exists [], w, v, lim; auto|]. inversion F as [|? ? F1 F2]; subst. cbn [exec exec_g].
    destruct (b_step lim g o F1 w v T) as (x & w' & v' & l & -> & -> & T' & _).
    destruct x as [a|e s|ub|]; try (do 4 eexists; split; [reflexivity|]; split; [reflexivity|exact T']);
      (destruct (IH F2 l w' v' T') as (rs & w2 & v2 & l2 & -> & -> & T2); do 4 eexists; split; [reflexivity|]; split; [reflexivity|exact T2]).
  Qed.
End session.
