(** * PCuts2: histories with abandoned calls - serial numbers, replies, the target *)
From Verif Require Import PBase PCuts PHistory PLocal2 PTurns.
From Verif Require Import PSession PSession4 PTarget PTypes PWitness7.
From Verif Require Export Vocab16.

(** ** Serial numbers *)
Definition taken (w w' : world) : Prop := (se_next_sn (w_se w') = se_next_sn (w_se w) /\ w_net w' = w_net w) \/ se_next_sn (w_se w') = u16 (se_next_sn (w_se w) + 1).
Lemma create_taken a b w : before (taken w) (create_p a b) w.
Proof.
  unfold create_p.
  assert (Z : forall w0, w_se w0 = w_se w /\ w_net w0 = w_net w -> taken w w0) by (intros w0 [H N]; left; rewrite H; auto).
  apply before_bind; [apply before_step1, Z; auto|]. intros s w0 E0. rewrite run_step1 in E0. injection E0 as <- <-.
  apply before_bind.
  { unfold next_sn_p. apply before_bind; [apply before_step1, Z; auto|]. intros s w1 E. rewrite run_step1 in E. injection E as <- <-.
    apply before_bind; [apply before_step1, Z; auto|]. intros; exact Logic.I. }
  intros sn w1 E1. rewrite run_next_sn in E1. apply pair_equal_spec in E1 as [_ E1].
  assert (S1 : se_next_sn (w_se w1) = u16 (se_next_sn (w_se w) + 1)) by (rewrite <- E1; reflexivity). clear E1.
  apply before_bind; [apply before_id; intros w' H; right; rewrite H; exact S1|]. intros i w2 E2. rewrite run_next_id in E2. apply pair_equal_spec in E2 as [_ E2].
  assert (S2 : se_next_sn (w_se w2) = u16 (se_next_sn (w_se w) + 1)) by (rewrite <- E2; exact S1). clear E2.
  apply before_bind; [apply before_id; intros w' H; right; rewrite H; exact S2|]. intros j w3 E3. rewrite run_next_id in E3. apply pair_equal_spec in E3 as [_ E3].
  assert (S3 : se_next_sn (w_se w3) = u16 (se_next_sn (w_se w) + 1)) by (rewrite <- E3; exact S2). clear E3. cbv zeta.
  apply before_bind; [apply before_quiet; [apply PCuts.quiet_rr|intros w' H; right; rewrite H; exact S3]|]. intros resp w4 E4.
  pose proof (run_quiet _ (PCuts.quiet_rr 91 (path_ci 6 1) (Some (fo_ser (cn_open_request (cn_make (se_vendor (w_se w)) (se_serial (w_se w)) sn i j a b)))) ) w3) as Q4.
  rewrite E4 in Q4. cbn [snd] in Q4. rewrite <- Q4 in S3. clear E4 Q4.
  apply before_bind; [apply before_step1; right; exact S3|]. intros fs w5 E5. rewrite run_step1 in E5.
  pose proof (calm_copy_local fs_cls (ms_data (rr_ext resp)) fs_make w4) as Q5. rewrite E5 in Q5. cbn [snd] in Q5. rewrite <- Q5 in S3. clear E5 Q5.
  destruct (cn_verify_open _ fs) as [c'|]; [|exact Logic.I].
  apply before_bind; [apply before_step1; right; exact S3|]. intros [] w6 E6. rewrite run_step1 in E6. injection E6 as <-.
  apply before_bind; [apply before_step1; right; exact S3|intros; exact Logic.I].
Qed.

Definition upto (sn0 k : N) (s : session) : Prop :=
  se_next_sn s = nth_sn sn0 k /\ exists js, map cn_sn (se_conns s) = map (nth_sn sn0) js /\ NoDup js /\ Forall (fun j => j < k) js.
Lemma nth_sn_next sn0 k : (nth_sn sn0 k + 1) mod 65536 = nth_sn sn0 (k + 1).
Proof. unfold nth_sn. rewrite N.add_mod_idemp_l by lia. f_equal. lia. Qed.
Lemma upto_more sn0 k s s' : upto sn0 k s -> se_next_sn s' = (se_next_sn s + 1) mod 65536 -> se_conns s' = se_conns s -> upto sn0 (k + 1) s'.
Proof.
  intros (H & js & J1 & J2 & J3) E C. split; [rewrite E, H; apply nth_sn_next|]. exists js. rewrite C. split; [exact J1|]. split; [exact J2|].
  eapply Forall_impl; [|exact J3]. cbv beta. intros; lia.
Qed.
Lemma nodup_snoc {A} (l : list A) a : NoDup l -> ~ In a l -> NoDup (l ++ [a]).
Proof.
  intros N I. apply NoDup_rev in N. rewrite <- (rev_involutive (l ++ [a])). apply NoDup_rev. rewrite rev_app_distr. cbn [rev app].
  constructor; [rewrite <- in_rev; exact I|exact N].
Qed.
Lemma upto_app sn0 k s s' c : upto sn0 k s -> se_next_sn s' = (se_next_sn s + 1) mod 65536 -> se_conns s' = se_conns s ++ [c] -> cn_sn c = se_next_sn s -> upto sn0 (k + 1) s'.
Proof.
  intros (H & js & J1 & J2 & J3) E C N. split; [rewrite E, H; apply nth_sn_next|]. exists (js ++ [k]). rewrite C, !map_app, J1. cbn [map]. rewrite N, H.
  split; [reflexivity|]. rewrite Forall_forall in J3. split.
  - apply nodup_snoc; [exact J2|]. intros X. apply J3 in X. lia.
  - apply Forall_app. split; [apply Forall_forall; intros j X; apply J3 in X; lia|apply Forall_cons; [lia|constructor]].
Qed.
Lemma upto_same sn0 k s s' : upto sn0 k s -> se_next_sn s' = se_next_sn s -> se_conns s' = se_conns s -> upto sn0 k s'.
Proof. intros (H & J) E C. split; [congruence|]. rewrite C. exact J. Qed.
Definition creates (o : op) : bool := match o with OpCreate _ _ => true | _ => false end.
Lemma upto_step sn0 k o w r w' : upto sn0 k (w_se w) -> step o w = (r, w') -> upto sn0 (if creates o then k + 1 else k) (w_se w').
Proof.
  intros U E. pose proof (step_moved _ _ _ _ E) as (_ & _ & M). destruct o as [h p q| |T c t x y z|x y z d|a1 a2|n| |p]; cbn [creates] in *.
  - destruct M as [(_ & id & ->)|(_ & ->)]; [eapply upto_same; [exact U|reflexivity..]|exact U].
  - destruct M as [(_ & ->)|(_ & ->)]; [eapply upto_same; [exact U|reflexivity..]|exact U].
  - rewrite M; exact U.
  - rewrite M; exact U.
  - destruct M as (_ & S1 & _ & [(c & _ & C & N & _)|(_ & C)]); [eapply upto_app; eassumption|eapply upto_more; eassumption].
  - destruct M as [(_ & _ & ->)|(_ & ->)]; [|exact U]. destruct U as (H & js & J1 & J2 & J3). split; [exact H|]. exists (list_remove (N.to_nat n) js).
    cbn [se_conns set_conns]. rewrite !list_remove_map, J1. split; [reflexivity|]. split; [apply list_remove_nodup, J2|].
    rewrite Forall_forall in *. intros j X. apply J3. eapply list_remove_in, X.
  - rewrite M; exact U.
  - rewrite M; exact U.
Qed.
Lemma upto_cut sn0 k j o w r w' : upto sn0 k (w_se w) -> cut j (op_p o) w = (r, w') ->
  upto sn0 (if creates o then k + 1 else k) (w_se w') \/ (upto sn0 k (w_se w') /\ w_net w' = w_net w).
Proof.
  intros U E. destruct r as [r|].
  - apply cut_run in E. rewrite run_op in E. left. eapply upto_step; eassumption.
  - pose proof (cut_members _ _ _ _ E) as H. destruct o as [h p q| |T c t x y z|x y z d|a1 a2|n| |p]; cbn [half_way creates] in *; try (left; rewrite H; exact U).
    assert (T : taken w w'). { revert E. apply cut_before. cbn [op_p]. apply before_pret, create_taken. }
    cbv zeta in H. destruct H as [H|[H|[H|[H|[n H]]]]].
    + destruct T as [[_ N]|T]; [right; rewrite H; auto|left]. eapply upto_more; [exact U|exact T|rewrite H; reflexivity].
    + left. eapply upto_more; [exact U|rewrite H; reflexivity..].
    + left. eapply upto_more; [exact U|rewrite H; reflexivity..].
    + left. eapply upto_more; [exact U|rewrite H; reflexivity..].
    + left. exact (upto_step _ _ _ _ _ _ U H).
Qed.
(** The serial numbers of the attempts are the [nth_sn sn0] of increasing numbers. *)
Lemma upto_history sn0 l : forall k w rs w', upto sn0 k (w_se w) -> exec_cut l w = (rs, w') ->
  exists k' js, k <= k' /\ k' <= k + len (filter (fun x => creates (snd x)) l) /\ upto sn0 k' (w_se w') /\
    map se_next_sn (cut_attempts l w) = map (nth_sn sn0) js /\ NoDup js /\ Forall (fun j => k <= j /\ j < k') js.
Proof.
  induction l as [|[j o] l IH]; intros k w rs w' U E.
  - injection E as <- <-. exists k, []. cbn. change (len _) with 0. split; [lia|]. split; [lia|]. split; [exact U|]. split; [reflexivity|]. split; constructor.
  - cbn [exec_cut] in E. unfold cut_attempts. cbn [cut_calls]. destruct (cut j (op_p o) w) as [r w1] eqn:E1.
    set (own := fun x : op * world * option (outcome result) * world => match x with (OpCreate _ _, w1, _, w2) => if len (w_net w1) <? len (w_net w2) then [w_se w1] else [] | _ => [] end).
    assert (ST : exists k1, upto sn0 k1 (w_se w1) /\ k <= k1 /\ k1 <= k + (if creates o then 1 else 0) /\ (own (o, w, r, w1) = [] \/ (k1 = k + 1 /\ own (o, w, r, w1) = [w_se w]))).
    { destruct (upto_cut _ _ _ _ _ _ _ U E1) as [V|[V N]].
      - destruct o; cbn [creates] in V; try (exists k; cbn [creates]; split; [exact V|]; split; [lia|]; split; [lia|left; reflexivity]).
        exists (k + 1). cbn [creates]. split; [exact V|]. split; [lia|]. split; [lia|]. unfold own. destruct (_ <? _); auto.
      - exists k. split; [exact V|]. split; [lia|]. split; [destruct (creates o); lia|]. left. unfold own. rewrite N, N.ltb_irrefl. destruct o; reflexivity. }
    destruct ST as (k1 & V & L1 & L2 & OWN).
    assert (LF : len (filter (fun x => creates (snd x)) ((j, o) :: l)) = (if creates o then 1 else 0) + len (filter (fun x => creates (snd x)) l)).
    { cbn [filter snd]. destruct (creates o); [rewrite len_cons|]; lia. }
    assert (STOP : forall r', w' = w1 -> exists k' js, k <= k' /\ k' <= k + len (filter (fun x => creates (snd x)) ((j, o) :: l)) /\ upto sn0 k' (w_se w') /\
      map se_next_sn (flat_map own [(o, w, r', w1)]) = map (nth_sn sn0) js /\ NoDup js /\ Forall (fun j => k <= j /\ j < k') js).
    { intros r' ->. cbn [flat_map]. rewrite app_nil_r. change (own (o, w, r', w1)) with (own (o, w, r, w1)). exists k1. rewrite LF. destruct OWN as [->|[-> ->]].
      - exists []. split; [lia|]. split; [lia|]. split; [exact V|]. split; [reflexivity|]. split; constructor.
      - exists [k]. split; [lia|]. split; [lia|]. split; [exact V|]. cbn [map]. split; [f_equal; apply U|].
        split; [constructor; [intros []|constructor]|apply Forall_cons; [lia|constructor]]. }
    assert (GO : forall r' rs1, exec_cut l w1 = (rs1, w') -> exists k' js, k <= k' /\ k' <= k + len (filter (fun x => creates (snd x)) ((j, o) :: l)) /\ upto sn0 k' (w_se w') /\
      map se_next_sn (flat_map own ((o, w, r', w1) :: cut_calls l w1)) = map (nth_sn sn0) js /\ NoDup js /\ Forall (fun j => k <= j /\ j < k') js).
    { intros r' rs1 E2. destruct (IH _ _ _ _ V E2) as (k' & js & B1 & B2 & B3 & B4 & B5 & B6). rewrite LF.
      cbn [flat_map]. change (own (o, w, r', w1)) with (own (o, w, r, w1)). unfold cut_attempts in B4. fold own in B4. rewrite Forall_forall in B6. exists k'. destruct OWN as [->|[-> ->]].
      - exists js. split; [lia|]. split; [lia|]. split; [exact B3|]. split; [exact B4|]. split; [exact B5|]. apply Forall_forall. intros x X. apply B6 in X. lia.
      - exists (k :: js). split; [lia|]. split; [lia|]. split; [exact B3|]. cbn [app map]. split; [f_equal; [apply U|exact B4]|].
        split; [constructor; [intros X; apply B6 in X; lia|exact B5]|]. apply Forall_cons; [lia|]. apply Forall_forall. intros x X. apply B6 in X. lia. }
    destruct r as [[a|c s|ub|]|].
    + destruct (exec_cut l w1) as [rs1 w2] eqn:E2. injection E as <- <-. eapply GO. reflexivity.
    + destruct (exec_cut l w1) as [rs1 w2] eqn:E2. injection E as <- <-. eapply GO. reflexivity.
    + injection E as <- <-. apply STOP. reflexivity.
    + injection E as <- <-. apply STOP. reflexivity.
    + destruct (exec_cut l w1) as [rs1 w2] eqn:E2. injection E as <- <-. eapply GO. reflexivity.
Qed.
Lemma nth_sn_inj sn0 b x y : b <= 65536 -> x < b -> y < b -> nth_sn sn0 x = nth_sn sn0 y -> x = y.
Proof.
  unfold nth_sn. intros B X Y Q. assert (x <= y \/ y <= x) as [O|O] by lia.
  - assert (sn0 + x = sn0 + y) by (apply (mod_inj 65536); lia). lia.
  - symmetry in Q. assert (sn0 + y = sn0 + x) by (apply (mod_inj 65536); lia). lia.
Qed.
Lemma cut_serial_numbers l w rs w' : fits 2 (se_next_sn (w_se w)) -> se_conns (w_se w) = [] -> exec_cut l w = (rs, w') ->
  len (filter (fun x => match snd x with OpCreate _ _ => true | _ => false end) l) <= 65536 ->
  NoDup (map cn_sn (se_conns (w_se w'))) /\ NoDup (map se_next_sn (cut_attempts l w)).
Proof.
  intros F C E L. apply fits2_lt in F.
  assert (U : upto (se_next_sn (w_se w)) 0 (w_se w)).
  { split; [unfold nth_sn; rewrite N.add_0_r, N.mod_small by exact F; reflexivity|]. exists []. rewrite C. split; [reflexivity|]. split; constructor. }
  destruct (upto_history _ _ _ _ _ _ U E) as (k' & js & _ & B2 & (_ & js' & J1 & J2 & J3) & B4 & B5 & B6).
  change (fun x : nat * op => creates (snd x)) with (fun x : nat * op => match snd x with OpCreate _ _ => true | _ => false end) in B2.
  rewrite Forall_forall in J3, B6. split.
  - rewrite J1. apply nodup_map_inj; [exact J2|]. intros x y X Y. apply J3 in X, Y. apply (nth_sn_inj _ k'); lia.
  - rewrite B4. apply nodup_map_inj; [exact B5|]. intros x y X Y. apply B6 in X, Y. apply (nth_sn_inj _ k'); lia.
Qed.

(** ** After the request, before the reply *)
Lemma cut_bind {A B} k : forall (p : prog A) (f : A -> prog B) w w', cut k p w = (None, w') -> cut k (pbind p f) w = (None, w').
Proof.
  induction k as [|k IH]; intros [o|C x g] f w w' E; cbn in *; try discriminate; [injection E as ->; reflexivity|].
  destruct (x w) as [o w1]. apply IH. exact E.
Qed.
Lemma cut_first {A B} k (x : M A) (f : A -> prog B) w a w1 : x w = (Ret a, w1) -> cut (S k) (pbind (step1 x) f) w = cut k (f a) w1.
Proof. intros E. cbn [step1 pbind cut]. rewrite E. reflexivity. Qed.
Definition after_send (w : world) (bs : list byte) (n : N) : world :=
  mkW (w_mem w ++ [None]) (sending (w_ctl w)) (w_io w) (w_net w ++ [ESend Ctl bs (Some n)]) (w_se w) (w_rbuf w).
Lemma rr_awaits w service pad ss d bs n : len ss < 256 -> carries_opt (w_mem w) d bs ->
  let req := request 0x6F (se_id (w_se w)) (rr_request (u8 service) (epath pad ss) bs) in
  sent (w_ctl w) req = Some n -> cut 2 (sendRR_p service (path_of pad ss) d) w = (None, after_send w req n).
Proof.
  intros L C req Sn.
  destruct (ep_make_carries (w_mem w) EIP_CMD_SEND_RR_DATA (se_id (w_se w)) (Some (rrq_ser (rrq_make service (path_of pad ss) d)))
    (rr_request (u8 service) (epath pad ss) bs)) as (q & Eq & _ & Hh & Cq); [apply rrq_carries; assumption|].
  change (request EIP_CMD_SEND_RR_DATA (se_id (w_se w)) (rr_request (u8 service) (epath pad ss) bs)) with req in Cq.
  unfold sendRR_p. cbn [pbind step1 cut read_se]. rewrite Eq. unfold sendCommand_p. cbn [pbind step1 cut pcatch]. unfold sc_send. rewrite (send_ctl _ _ _ Cq), Sn.
  reflexivity.
Qed.
Lemma awaits u o w bs n : session_ok w -> user_memory u w -> op_ok u o -> explicit o -> request_of u o (w_se w) bs -> sent (w_ctl w) bs = Some n ->
  exists k w1, cut k (op_p o) w = (None, w1) /\ w_ctl w1 = sending (w_ctl w) /\ w_net w1 = w_net w ++ [ESend Ctl bs (Some n)].
Proof.
  intros (B & FI & TK) [U _] O X R Sn.
  destruct o as [h p q| |T c t x y z|x y z d|a1 a2|j| |p]; cbn [op_p op_ok explicit request_of] in *; try contradiction.
  - destruct O as (Hx & Hy & Hz & _). subst bs. exists 2%nat. eexists. split; [apply cut_bind; unfold get_p; apply cut_bind; rewrite path_cia_of by assumption;
      apply (rr_awaits w 0x0E false [SClass x; SInstance y; SAttribute z] None [] n eq_refl eq_refl Sn)|]. split; reflexivity.
  - destruct O as (Hx & Hy & Hz & _). destruct R as (data & Cd & ->). exists 2%nat. eexists. split; [apply cut_bind; unfold set_p; apply cut_bind; rewrite path_cia_of by assumption;
      apply (rr_awaits w 0x10 false [SClass x; SInstance y; SAttribute z] d data n eq_refl (carries_opt_hext _ _ _ _ U Cd) Sn)|]. split; reflexivity.
  - destruct O as [H1 H2]. subst bs. exists 9%nat. set (s := w_se w) in *.
    set (w3 := set_se (set_counters (u16 (se_next_sn s + 1)) (u32 (u32 (se_next_id s + 1) + 1)) s) w).
    exists (after_send w3 (open_request s a1 a2) n). split; [|split; reflexivity]. apply cut_bind. unfold create_p.
    change (cut 9 _ w) with (cut 2 (let conn := cn_make (se_vendor s) (se_serial s) (se_next_sn s) (se_next_id s) (u32 (se_next_id s + 1)) a1 a2 in
      let% resp := sendRR_p 0x5B (path_ci 0x06 1) (Some (fo_ser (cn_open_request conn))) in
      let% result := step1 (m_copy_local fs_cls (ms_data (rr_ext resp)) fs_make) in
      match cn_verify_open conn result with
      | None => pthrow LogicError "Forward Open Response Invalid"
      | Some conn' => do% step1 (mupd_se (fun s => set_conns (se_conns s ++ [conn']) s)) in let% s' := step1 read_se in pret (len (se_conns s') - 1)
      end) w3).
    cbv zeta. apply cut_bind. rewrite path_ci_of by lia.
    exact (rr_awaits w3 0x5B false [SClass 6; SInstance 1] (Some (fo_ser _)) _ n eq_refl (forward_open_bytes (w_mem w3) (se_vendor s) (se_serial s) (se_next_sn s) (se_next_id s) (u32 (se_next_id s + 1)) a1 a2 H1 H2) Sn).
  - destruct R as (c & Hc & ->). assert (Tc : cn_tick_size c < 256 /\ cn_ticks c < 256) by (rewrite Forall_forall in TK; apply TK; eapply nth_error_In; exact Hc).
    exists 3%nat. exists (after_send w (close_request (w_se w) c) n). split; [|split; reflexivity]. apply cut_bind. unfold drop_p. rewrite (cut_first 2 _ _ w c w) by (unfold getConnection; rewrite Hc; reflexivity).
    apply cut_bind. rewrite path_ci_of by lia.
    exact (rr_awaits w 0x4E false [SClass 6; SInstance 1] (Some (fc_ser _)) _ n eq_refl (forward_close_bytes (w_mem w) c (proj1 Tc) (proj2 Tc)) Sn).
Qed.

(** ** The next call takes the reply that was left *)
Lemma left_reply k bs n got rs : sent (sending k) bs = Some n -> so_recv k = RxData got :: rs -> reply_of (sending k) bs = Reply (take 4096 got).
Proof. intros Sn Rv. unfold reply_of, talk. rewrite Sn. cbn [sending so_recv]. rewrite Rv. reflexivity. Qed.
Lemma awaits_next u o w bs n : session_ok w -> user_memory u w -> call_ok u o -> explicit o -> request_of u o (w_se w) bs -> sent (w_ctl w) bs = Some n ->
  exists k w1, cut k (op_p o) w = (None, w1) /\ w_ctl w1 = sending (w_ctl w) /\ w_net w1 = w_net w ++ [ESend Ctl bs (Some n)] /\
    session_ok w1 /\ se_id (w_se w1) = se_id (w_se w) /\ se_conns (w_se w1) = se_conns (w_se w) /\
    se_next_sn (w_se w1) = match o with OpCreate _ _ => (se_next_sn (w_se w) + 1) mod 65536 | _ => se_next_sn (w_se w) end /\
    user_memory u w1.
Proof.
  intros O U K X R Sn. destruct (awaits u o w bs n O U (proj1 K) X R Sn) as (k & w1 & E & C & N). exists k, w1. split; [exact E|]. split; [exact C|]. split; [exact N|].
  destruct (cut_memory u k o w None w1 O U K E) as (O1 & U1 & _ & _). split; [exact O1|].
  assert (G : se_id (w_se w1) = se_id (w_se w) /\ se_conns (w_se w1) = se_conns (w_se w) /\
    se_next_sn (w_se w1) = match o with OpCreate _ _ => (se_next_sn (w_se w) + 1) mod 65536 | _ => se_next_sn (w_se w) end); [|intuition].
  pose proof (cut_members _ _ _ _ E) as H. destruct o as [h p q| |T c t x y z|x y z d|a1 a2|j| |p]; cbn [half_way explicit] in *; try contradiction; try (rewrite H; auto).
  assert (T : taken w w1). { revert E. apply cut_before. cbn [op_p]. apply before_pret, create_taken. }
  assert (T' : se_next_sn (w_se w1) = (se_next_sn (w_se w) + 1) mod 65536).
  { destruct T as [[_ T]|T]; [|exact T]. rewrite T in N. rewrite <- (app_nil_r (w_net w)) in N at 1. apply app_inv_head in N. discriminate. }
  cbv zeta in H. rewrite T'. destruct H as [H|[H|[H|[H|[m H]]]]]; try (rewrite H; auto).
  exfalso. pose proof (create_connection w a1 a2 (proj1 O) (proj1 (proj1 K)) (proj2 (proj1 K))) as (ro & w2 & E2 & EX & _ & CO).
  unfold step, mbind in H. rewrite E2 in H. destruct ro as [r|c s|ub|]; try discriminate. injection H as -> ->.
  unfold create_outcome in CO. destruct EX as (_ & _ & _ & _ & NN & _).
  rewrite NN in N. apply app_inv_head in N. cbn [request_of] in R. rewrite <- R in N, CO. unfold events, reply_of, talk in N, CO.
  rewrite Sn in N, CO. destruct (so_recv (w_ctl w)) as [|[g|] rs]; cbn in CO, N; [destruct CO; discriminate|discriminate|discriminate].
Qed.

Lemma stale_get w k junk x y z n got rs sv ad v rest : rbuf_ok w -> x < 256 -> y < 256 -> z < 256 -> fits k v -> k <> O ->
  so_recv (w_ctl w) = RxData got :: rs -> sent (w_ctl w) (get_request (se_id (w_se w)) x y z) = Some n ->
  answers (se_id (w_se w)) (take 4096 got) sv 0 ad (le k v ++ rest) -> exists w', getSingleAttribute k junk x y z w = (Ret v, w').
Proof.
  intros B Hx Hy Hz F K Rv Sn A. eapply wrong_service_get; try eassumption. unfold reply_of, talk. rewrite Sn, Rv. reflexivity.
Qed.
Lemma stale_set w x y z d data n got rs sv ad q : rbuf_ok w -> x < 256 -> y < 256 -> z < 256 -> carries_opt (w_mem w) d data ->
  so_recv (w_ctl w) = RxData got :: rs -> sent (w_ctl w) (set_request (se_id (w_se w)) x y z data) = Some n ->
  answers (se_id (w_se w)) (take 4096 got) sv 0 ad q -> exists w', setSingleAttributeSerializable x y z d w = (Ret tt, w').
Proof.
  intros B Hx Hy Hz C Rv Sn A. destruct (set_attribute w x y z d data B Hx Hy Hz C) as (o & w' & E & _ & O).
  unfold reply_of, talk in O. rewrite Sn, Rv in O. cbn [fst snd] in O. exists w'. rewrite E.
  destruct O as [[_ ->]|[[Cr _]|[N _]]]; [reflexivity|exfalso; eapply answers_not_crash; eassumption|exfalso; eapply N; exact A].
Qed.
Lemma stale_create w a b n got rs sv ad d o2t t2o sn vn os oapi tapi : rbuf_ok w -> ci_assembly a < 256 -> ci_assembly b < 256 ->
  so_recv (w_ctl w) = RxData got :: rs -> sent (w_ctl w) (open_request (w_se w) a b) = Some n ->
  answers (se_id (w_se w)) (take 4096 got) sv 0 ad d -> opened d o2t t2o sn vn os oapi tapi -> sn <> se_next_sn (w_se w) ->
  exists m w', createConnection a b w = (Throw LogicError m, w') /\ se_conns (w_se w') = se_conns (w_se w).
Proof.
  intros B Ha Hb Rv Sn A Op Ne. destruct (create_connection w a b B Ha Hb) as (o & w' & E & _ & _ & O). unfold create_outcome in O.
  unfold reply_of, talk in O. rewrite Sn, Rv in O. cbn [fst snd] in O.
  destruct O as [(sv' & a' & d' & p1 & p2 & p3 & p4 & c & A' & Op' & _)|(Ec & O)].
  - exfalso. destruct (answers_inj _ _ _ _ _ _ _ _ _ _ A A') as (_ & _ & _ & <-). pose proof (opened_inj _ _ _ _ _ _ _ _ _ _ _ _ _ _ _ Op Op') as Q. injection Q as Q _ _. exact (Ne Q).
  - destruct O as [(sv' & a' & d' & p1 & p2 & p3 & p4 & p5 & p6 & p7 & m & _ & _ & _ & ->)|[(sv' & a' & d' & m & A' & _ & No & _)|[([Cr|(sv' & a' & A')] & _)|(N & _)]]].
    + exists m, w'. auto.
    + exfalso. destruct (answers_inj _ _ _ _ _ _ _ _ _ _ A A') as (_ & _ & _ & <-). eapply No. exact Op.
    + exfalso. eapply answers_not_crash; eassumption.
    + exfalso. destruct (answers_inj _ _ _ _ _ _ _ _ _ _ A A') as (_ & _ & _ & ->). destruct Op as (rs1 & app & rest & _ & Q). discriminate.
    + exfalso. eapply N. exact A.
Qed.

(** ** The target *)
Lemma attributes_agree u k o w w' t t' : (match o with OpGet _ _ _ _ _ _ | OpSet _ _ _ _ => True | _ => False end) -> op_ok u o -> cut k (op_p o) w = (None, w') ->
  agrees (w_se w) t -> (t' = t \/ exists bs got, request_of u o (w_se w) bs /\ serves t bs got t') -> agrees (w_se w') t'.
Proof.
  intros G O E A T. pose proof (cut_members _ _ _ _ E) as H. destruct o as [h p q| |T1 c t1 x y z|x y z d|a1 a2|j| |p]; try contradiction; cbn [half_way op_ok request_of] in *; rewrite H.
  - destruct T as [->|(bs & got & -> & V)]; [exact A|]. destruct O as (Hx & Hy & Hz & _). destruct A as (Z & I & C). rewrite <- I in V.
    destruct (serves_get_inv _ _ _ _ _ _ Hx Hy Hz V) as [-> _]. split; [exact Z|]. split; assumption.
  - destruct T as [->|(bs & got & (data & _ & ->) & V)]; [exact A|]. destruct O as (Hx & Hy & Hz & _). destruct A as (Z & I & C). rewrite <- I in V.
    destruct (serves_set_inv _ _ _ _ _ _ _ Hx Hy Hz V) as [[-> _]|[-> _]]; (split; [exact Z|]; split; assumption).
Qed.
Lemma len_snoc_ne {A} (l : list A) a : l <> l ++ [a].
Proof. intros H. apply (f_equal (@List.length A)) in H. rewrite app_length in H. cbn in H. lia. Qed.
Lemma create_disagrees k a b w w' t got t' : cut k (op_p (OpCreate a b)) w = (None, w') -> agrees (w_se w) t -> numbers_ok (w_se w) ->
  serves t (open_request (w_se w) a b) got t' -> tg_conns t' <> tg_conns t ->
  ~ agrees (w_se w') t' \/ exists n, step (OpCreate a b) w = (Ret (RNumber n), w').
Proof.
  intros E (Z & I & C) (F & _) V Ne. destruct (serves_open_inv _ _ _ _ _ _ I F V) as [(-> & _ & _)|[-> _]]; [|contradiction].
  pose proof (cut_members _ _ _ _ E) as H. cbn [half_way] in H. cbv zeta in H.
  assert (G : se_conns (w_se w') = se_conns (w_se w) -> ~ agrees (w_se w') (with_conns (tg_conns t ++ [(se_next_sn (w_se w), se_vendor (w_se w), se_serial (w_se w))]) t)).
  { intros Q (_ & _ & X). rewrite Q, C in X. exact (len_snoc_ne _ _ X). }
  destruct H as [H|[H|[H|[H|H]]]]; [left; apply G; rewrite H; reflexivity..|right; exact H].
Qed.
Lemma close_disagrees k j w w' c t got t' : cut k (op_p (OpCloseConnection j)) w = (None, w') -> nth_error (se_conns (w_se w)) (N.to_nat j) = Some c ->
  agrees (w_se w) t -> numbers_ok (w_se w) -> serves t (close_request (w_se w) c) got t' -> tg_conns t' <> tg_conns t -> ~ agrees (w_se w') t'.
Proof.
  intros E Hc (Z & I & C) _ _ Ne (_ & _ & X). pose proof (cut_members _ _ _ _ E) as H. cbn [half_way] in H. rewrite H, C in X. congruence.
Qed.

(** ** Together *)
Lemma cut_then_get u o w bs n got rs k junk x y z n' sv ad v rest :
  session_ok w -> user_memory u w -> call_ok u o -> explicit o -> request_of u o (w_se w) bs -> sent (w_ctl w) bs = Some n ->
  so_recv (w_ctl w) = RxData got :: rs -> answers (se_id (w_se w)) (take 4096 got) sv 0 ad (le k v ++ rest) -> fits k v -> k <> O ->
  x < 256 -> y < 256 -> z < 256 -> sent (sending (w_ctl w)) (get_request (se_id (w_se w)) x y z) = Some n' ->
  exists j w1 w2, cut j (op_p o) w = (None, w1) /\ getSingleAttribute k junk x y z w1 = (Ret v, w2).
Proof.
  intros O U K X R Sn Rv A F Kn Hx Hy Hz Sn'. destruct (awaits_next u o w bs n O U K X R Sn) as (j & w1 & E & C & _ & O1 & I & _).
  destruct (stale_get w1 k junk x y z n' got rs sv ad v rest) as (w2 & E2); try assumption.
  - exact (proj1 O1).
  - rewrite C. exact Rv.
  - rewrite C, I. exact Sn'.
  - rewrite I. exact A.
  - exists j, w1, w2. auto.
Qed.
Lemma cut_then_set u o w bs n got rs x y z d data n' sv ad q :
  session_ok w -> user_memory u w -> call_ok u o -> explicit o -> request_of u o (w_se w) bs -> sent (w_ctl w) bs = Some n ->
  so_recv (w_ctl w) = RxData got :: rs -> answers (se_id (w_se w)) (take 4096 got) sv 0 ad q ->
  x < 256 -> y < 256 -> z < 256 -> carries_opt u d data -> sent (sending (w_ctl w)) (set_request (se_id (w_se w)) x y z data) = Some n' ->
  exists j w1 w2, cut j (op_p o) w = (None, w1) /\ setSingleAttributeSerializable x y z d w1 = (Ret tt, w2).
Proof.
  intros O U K X R Sn Rv A Hx Hy Hz D Sn'. destruct (awaits_next u o w bs n O U K X R Sn) as (j & w1 & E & C & _ & O1 & I & _ & _ & U1).
  destruct (stale_set w1 x y z d data n' got rs sv ad q) as (w2 & E2); try assumption.
  - exact (proj1 O1).
  - exact (carries_opt_hext _ _ _ _ (proj1 U1) D).
  - rewrite C. exact Rv.
  - rewrite C, I. exact Sn'.
  - rewrite I. exact A.
  - exists j, w1, w2. auto.
Qed.
Lemma cut_then_create j a b w w1 a' b' n' got rs sv ad d o2t t2o vn os oapi tapi :
  rbuf_ok w1 -> cut j (op_p (OpCreate a b)) w = (None, w1) -> w_net w1 <> w_net w -> ci_assembly a' < 256 -> ci_assembly b' < 256 ->
  so_recv (w_ctl w1) = RxData got :: rs -> answers (se_id (w_se w1)) (take 4096 got) sv 0 ad d -> opened d o2t t2o (se_next_sn (w_se w)) vn os oapi tapi ->
  sent (w_ctl w1) (open_request (w_se w1) a' b') = Some n' ->
  exists m w2, createConnection a' b' w1 = (Throw LogicError m, w2) /\ se_conns (w_se w2) = se_conns (w_se w1).
Proof.
  intros B E N Ha Hb Rv A Op Sn. refine (stale_create w1 a' b' n' got rs sv ad d o2t t2o _ vn os oapi tapi B Ha Hb Rv Sn A Op _).
  assert (T : taken w w1). { revert E. apply cut_before. cbn [op_p]. apply before_pret, create_taken. }
  destruct T as [[_ T]|T]; [contradiction|]. rewrite T. destruct Op as (r1 & app & rest & (_ & _ & F & _) & _). apply fits2_lt in F.
  rewrite u16_mod. intros Q. pose proof (N.div_mod (se_next_sn (w_se w) + 1) 65536 ltac:(lia)) as H. rewrite <- Q in H. clear - H F. nia.
Qed.
Lemma cut_create_disagrees a b w t n : session_ok w -> ci_assembly a < 256 -> ci_assembly b < 256 -> agrees (w_se w) t -> numbers_ok (w_se w) ->
  ~ In (se_next_sn (w_se w), se_vendor (w_se w), se_serial (w_se w)) (tg_conns t) -> sent (w_ctl w) (open_request (w_se w) a b) = Some n ->
  exists j w1 got t', cut j (op_p (OpCreate a b)) w = (None, w1) /\ w_net w1 = w_net w ++ [ESend Ctl (open_request (w_se w) a b) (Some n)] /\
    serves t (open_request (w_se w) a b) got t' /\ ~ agrees (w_se w1) t'.
Proof.
  intros O Ha Hb (Z & I & C) ((F1 & F2 & F3) & _) Ni Sn.
  destruct (awaits_next [] (OpCreate a b) w (open_request (w_se w) a b) n O (user_nil w) (conj (conj Ha Hb) Logic.I) Logic.I eq_refl Sn) as (j & w1 & E & _ & N & _ & _ & Q & _).
  exists j, w1, (explicit_reply (se_id (w_se w)) 0xDB 0 (forward_open_reply 0 0 (se_next_sn (w_se w)) (se_vendor (w_se w)) (se_serial (w_se w)) 0 0 x00 [])).
  exists (with_conns (tg_conns t ++ [(se_next_sn (w_se w), se_vendor (w_se w), se_serial (w_se w))]) t). split; [exact E|]. split; [exact N|]. split.
  - unfold open_request, open_message. rewrite <- I. apply serves_open with (sv := 0xDB) (a := []) (d := forward_open_reply 0 0 (se_next_sn (w_se w)) (se_vendor (w_se w)) (se_serial (w_se w)) 0 0 x00 []) (o2t' := 0) (t2o' := 0) (oapi := 0) (tapi := 0).
    + exact Ni.
    + exists x00, [], []. rewrite app_nil_r. split; [|reflexivity]. repeat split; try assumption; reflexivity.
    + rewrite <- (app_nil_r (explicit_reply _ _ _ _)). rewrite I. apply answers_reply; try assumption; try reflexivity. apply O.
  - intros (_ & _ & B). rewrite Q, C in B. exact (len_snoc_ne _ _ B).
Qed.
Lemma cut_close_disagrees i c w t n : session_ok w -> nth_error (se_conns (w_se w)) (N.to_nat i) = Some c -> agrees (w_se w) t -> numbers_ok (w_se w) ->
  sent (w_ctl w) (close_request (w_se w) c) = Some n ->
  exists j w1 got t', cut j (op_p (OpCloseConnection i)) w = (None, w1) /\ w_net w1 = w_net w ++ [ESend Ctl (close_request (w_se w) c) (Some n)] /\
    serves t (close_request (w_se w) c) got t' /\ ~ agrees (w_se w1) t'.
Proof.
  intros O Hc (Z & I & C) (_ & KF & _) Sn.
  assert (Kc : key_fits (conn_key c)) by (rewrite Forall_forall in KF; apply KF; eapply nth_error_In; exact Hc). destruct Kc as (F1 & F2 & F3).
  destruct (awaits_next [] (OpCloseConnection i) w (close_request (w_se w) c) n O (user_nil w) (conj Logic.I Logic.I) Logic.I (ex_intro _ c (conj Hc eq_refl)) Sn) as (j & w1 & E & _ & N & _ & _ & Q & _).
  exists j, w1, (explicit_reply (se_id (w_se w)) 0xCE 0 (forward_close_reply (cn_sn c) (cn_vendor c) (cn_orig_sn c) x00 [])).
  assert (In1 : In (conn_key c) (tg_conns t)) by (rewrite <- C; apply in_map; eapply nth_error_In; exact Hc).
  exists (with_conns (remove triple_dec (conn_key c) (tg_conns t)) t). split; [exact E|]. split; [exact N|]. split.
  - unfold close_request. rewrite <- I. apply serves_close with (sv := 0xCE) (a := []) (d := forward_close_reply (cn_sn c) (cn_vendor c) (cn_orig_sn c) x00 []).
    + exact In1.
    + exists x00, [], []. rewrite app_nil_r. split; [|reflexivity]. repeat split; try assumption; reflexivity.
    + rewrite <- (app_nil_r (explicit_reply _ _ _ _)). rewrite I. apply answers_reply; try assumption; try reflexivity. apply O.
  - intros (_ & _ & B). rewrite Q, C in B. cbn [tg_conns with_conns] in B. rewrite B in In1. exact (remove_In triple_dec _ _ In1).
Qed.

(** ** Cases *)
Definition hist : list (nat * op) := [(9%nat, OpCreate ci0 ci0); (40%nat, OpCreate ci0 ci0); (4%nat, OpCreate ci0 ci0); (40%nat, OpCreate ci0 ci0)].
Definition hist_world : world := w9 [RxData (fo_reply 8); RxData (fo_reply 10)] [].
Lemma hist_runs : exists w', exec_cut hist hist_world = ([None; Some (Ret (RNumber 0)); None; Some (Ret (RNumber 1))], w') /\
  map cn_sn (se_conns (w_se w')) = [8; 10] /\ map se_next_sn (cut_attempts hist hist_world) = [7; 8; 10] /\
  se_id (w_se w') = 9 /\ session_ok hist_world /\ Forall (fun x => call_ok [] (snd x)) hist.
Proof.
  eexists. split; [vm_compute; reflexivity|]. split; [vm_compute; reflexivity|]. split; [vm_compute; reflexivity|]. split; [vm_compute; reflexivity|].
  split; [apply session_ok_w9|]. repeat constructor.
Qed.
(** A target with two attributes; the first call is abandoned, the second asks for the other attribute. *)
Definition tg2 : target := put_attr (1, 2, 4) (le 2 7) (put_attr (1, 2, 3) (le 2 513) tg9).
Definition w2r : world := w9 [RxData (explicit_reply 9 0x8E 0 (le 2 513)); RxData (explicit_reply 9 0x8E 0 (le 2 7))] [].
Lemma swapped : exists w1 w2, cut 2 (op_p (OpGet N (prim_cls 2) 0 1 2 3)) w2r = (None, w1) /\ getSingleAttribute 2 0 1 2 4 w1 = (Ret 513, w2) /\
  gained w2r w2 [ESend Ctl (get_request 9 1 2 3) (Some 48); ESend Ctl (get_request 9 1 2 4) (Some 48); ERecv Ctl (Some (explicit_reply 9 0x8E 0 (le 2 513)))] /\
  agrees (w_se w2r) tg2 /\ tg_attr tg2 (1, 2, 4) = Some (le 2 7) /\
  serves tg2 (get_request 9 1 2 3) (explicit_reply 9 0x8E 0 (le 2 513)) tg2 /\ serves tg2 (get_request 9 1 2 4) (explicit_reply 9 0x8E 0 (le 2 7)) tg2.
Proof.
  eexists. eexists. split; [vm_compute; reflexivity|]. split; [vm_compute; reflexivity|]. split; [vm_compute; reflexivity|].
  split; [split; [discriminate|split; reflexivity]|]. split; [reflexivity|]. split.
  - apply (serves_get tg2 1 2 3 0x8E [] (le 2 513)); [reflexivity..|apply answers_9; reflexivity].
  - apply (serves_get tg2 1 2 4 0x8E [] (le 2 7)); [reflexivity..|apply answers_9; reflexivity].
Qed.
Lemma cut_target_example : let w := w9 [RxData (fo_reply 7)] [] in
  session_ok w /\ ci_assembly ci0 < 256 /\ agrees (w_se w) tg9 /\ numbers_ok (w_se w) /\
  ~ In (se_next_sn (w_se w), se_vendor (w_se w), se_serial (w_se w)) (tg_conns tg9) /\ sent (w_ctl w) (open_request (w_se w) ci0 ci0) = Some 94 /\
  exists w1 w2, cut 9 (op_p (OpCreate ci0 ci0)) w = (None, w1) /\ step (OpCreate ci0 ci0) w = (Ret (RNumber 0), w2) /\ se_conns (w_se w1) = [] /\
  exists c, nth_error (se_conns (w_se w2)) 0 = Some c /\ sent (w_ctl w2) (close_request (w_se w2) c) = Some 62 /\ agrees (w_se w2) (with_conns [(7, 0x195, 0x4321)] tg9).
Proof.
  cbv zeta. split; [apply session_ok_w9|]. split; [reflexivity|]. split; [apply agrees_w9|]. split; [apply numbers_w9|]. split; [intros []|]. split; [vm_compute; reflexivity|].
  eexists. eexists. split; [vm_compute; reflexivity|]. split; [vm_compute; reflexivity|]. split; [reflexivity|].
  eexists. split; [reflexivity|]. split; [vm_compute; reflexivity|]. split; [discriminate|split; reflexivity].
Qed.
