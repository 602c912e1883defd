(** * PScanLog: what the scanner logs about an answer (C123). *)
From Verif Require Import PScan PPack PPack2 PLog PLog2 PLog3 PLog4 PIo.
From Verif Require Export Vocab28.
Local Open Scope N_scope.

Lemma logged_app v a b : logged v (a ++ b) <-> logged v a \/ logged v b.
Proof.
  unfold logged. split.
  - intros (x & H & E). apply in_app_or in H. destruct H; [left|right]; exists x; auto.
  - intros [(x & H & E)|(x & H & E)]; exists x; (split; [apply in_or_app; auto|exact E]).
Qed.
Lemma logged_nil v : ~ logged v [].
Proof. intros (x & [] & _). Qed.
Lemma logged_one v u f a : logged v [mkLog u f a] <-> u = v.
Proof. split; [intros (x & [<-|[]] & E); exact E|intros ->; eexists; split; [left; reflexivity|reflexivity]]. Qed.
Lemma logged_if v (b : bool) u f a : logged v (if b then [mkLog u f a] else []) <-> b = true /\ u = v.
Proof. destruct b; [rewrite logged_one; tauto|]. split; [intros H; destruct (logged_nil _ H)|intros [H _]; discriminate H]. Qed.
Lemma each_not {S A} v (x : L S A) s o s' l : each (fun c => lg_level c <> v) x -> x s = (o, s', l) -> ~ logged v l.
Proof. intros E H (c & I1 & E1). apply E in H. rewrite Forall_forall in H. exact (H _ I1 E1). Qed.
Lemma lbind_run {S A B} (x : L S A) (f : A -> L S B) s a s1 l1 o s' l : x s = (Ret a, s1, l1) -> lbind x f s = (o, s', l) -> exists l2, f a s1 = (o, s', l2) /\ l = l1 ++ l2.
Proof. intros X. unfold lbind. rewrite X. destruct (f a s1) as [[o2 s2] l2]. intros H. injection H as -> -> <-. eauto. Qed.

Definition l_scan_item (payload : cpf_packet) : L (heap * reader) scan_result :=
  let! i0 := lift (ldec (d_at payload 0)) in
  if negb (it_type i0 =? EIP_ITEM_LIST_IDENTITY_RESPONSE) then
    do! say Error "Error: Payload response received with the wrong item type. Expected: %zu, received %zu" [ASmall EIP_ITEM_LIST_IDENTITY_RESPONSE; ASmall (it_type i0)] in
    lret (ScanWrongItem (it_type i0))
  else
    let! i := lift (ldec (dlocal id_make (it_getDataAs id_cls i0))) in
    do! says (fun _ => identity_log i) in
    lret (ScanIdentity i).
Lemma item_no_warn payload : each (fun c => lg_level c <> Warn) (l_scan_item payload).
Proof. unfold l_scan_item. e; try (cbn; discriminate). unfold identity_log. repeat (apply Forall_cons; [cbn; discriminate|]). constructor. Qed.

Lemma body_warns m v got ses st c0 c1 op after xs o s' l : reads m v got -> answer_parts got ses st c0 c1 op after xs -> l_scan_body (len got) (m, RBuf v 0) = (o, s', l) ->
  (logged Warn l <-> odd_answer ses st c0 c1 op after xs).
Proof.
  intros R (payload & rest & Ff & Eg & Ok & Ep) H. unfold l_scan_body in H.
  assert (X : exists p, lift (ldec (dlocal (ep_make0 0 0) ep_deserialize)) (m, RBuf v 0) = (Ret (mkEP (mkHdr 0x63 (len payload) ses st c0 c1 op) p), (m, RBuf (view_drop v (24 + len payload)) (24 + len payload)), []) /\
    p = window v 24 (len payload)).
  { destruct (ep_decode m v 0 (ep_make0 0 0) got R) as [[Nf _]|(cmd & ses' & st' & c0' & c1' & o' & payload' & rest' & Ff' & Eg' & E)].
    - exfalso. exact (Nf _ _ _ _ _ _ _ _ Ff Eg).
    - rewrite Eg in Eg'. destruct (frame_inj _ _ _ _ _ _ _ _ _ _ _ _ _ _ _ _ Ff Ff' Eg') as (J & <- & _). repeat (apply pair_equal_spec in J as [J ?]). subst cmd ses' st' c0' c1' o'.
      eexists. split; [|reflexivity]. unfold lift, ldec, dlocal. cbn [fst snd]. rewrite E. reflexivity. }
  destruct X as (p & X & Xp). destruct (lbind_run _ _ _ _ _ _ _ _ _ X H) as (l1 & H1 & ->). clear H X. cbv zeta in H1. cbn [ep_header h_command h_session h_status h_ctx0 h_ctx1 h_options] in H1.
  eapply lbind_run in H1; [|reflexivity]. destruct H1 as (l2 & H1 & ->). cbn [snd] in *. change (negb (0x63 =? EIP_CMD_LIST_IDENTITY)) with false in H1. cbv iota in H1.
  do 4 (eapply lbind_run in H1; [|reflexivity]; destruct H1 as (? & H1 & ->)).
  assert (Zp : payload <> []) by (rewrite Ep; intros Z; apply (f_equal len) in Z; unfold cpf in Z; rewrite !len_app, len_le in Z; change (len (@nil byte)) with 0 in Z; lia).
  assert (Hp : holds m (window v 24 (len payload)) payload) by (rewrite Eg in R; exact (frame_payload_window _ _ _ _ _ _ _ _ _ _ R)).
  assert (Y : exists ws r1, lift (ldec (dlocal [] (ep_getPayloadAs cpf_cls (mkEP (mkHdr 0x63 (len payload) ses st c0 c1 op) p)))) (m, RBuf (view_drop v (24 + len payload)) (24 + len payload)) = (Ret ws, r1, []) /\
    cpf_getItemCount ws = len xs).
  { unfold lift, ldec, dlocal, ep_getPayloadAs. cbn [fst snd ep_payload]. rewrite Xp.
    match goal with |- context[d_copy cpf_cls ?q m ?r ?t] => destruct (copy_holds cpf_cls m q payload r t Hp Zp eq_refl) as (w & Rw & _ & E) end.
    rewrite E; clear E. unfold run_reader, deserialize_len, cpf_cls. cbn [c_deslen c_des no_check].
    destruct (cpf_decode m w 0 [] payload Rw) as [[Nc _]|(xs' & rest' & Oc & Ec & E)]; [exfalso; exact (Nc _ _ Ok Ep)|]. rewrite E; clear E.
    assert (xs' = xs) as ->. { rewrite Ep in Ec. symmetry. apply (cpf_inj _ _ _ _ Ok Oc Ec). }
    eexists _, _. split; [reflexivity|]. assert (Hi : Forall2 (item_is m) (item_windows w 2 xs) xs) by (eapply cpf_windows_is; rewrite <- Ec; exact Rw).
    unfold cpf_getItemCount. pose proof (Forall2_len _ _ _ Hi) as L. unfold len at 1. rewrite L. apply u16_small. exact (proj2 Ok). }
  destruct Y as (ws & r1 & Y & Yn). destruct (lbind_run _ _ _ _ _ _ _ _ _ Y H1) as (l3 & H3 & ->). clear H1 Y. rewrite Yn in H3.
  assert (T : logged Warn l3 <-> 1 < len xs).
  { destruct (len xs <? 1) eqn:Z.
    - eapply lbind_run in H3; [|reflexivity]. destruct H3 as (l4 & H4 & ->). injection H4 as _ _ <-. rewrite logged_app, logged_one. split; [intros [Q|Q]; [discriminate Q|destruct (logged_nil _ Q)]|intros Q; exfalso; lia].
    - eapply lbind_run in H3; [|reflexivity]. destruct H3 as (l4 & H4 & ->). change (l_scan_item ws r1 = (o, s', l4)) in H4. pose proof (each_not _ _ _ _ _ _ (item_no_warn ws) H4) as Nw.
      rewrite logged_app, logged_if. rewrite N.ltb_lt. tauto. }
  rewrite !logged_app, !logged_if, T. unfold odd_answer, odd_frame.
  assert (A : negb (24 + len payload =? len got) = true <-> after <> []).
  { rewrite Eg, len_app. unfold frame, header. rewrite !len_app, !len_le. cbn. destruct after as [|b0 a0]; [change (len (@nil byte)) with 0|rewrite len_cons].
    - split; [intros Q; apply Bool.negb_true_iff, N.eqb_neq in Q; lia|congruence].
    - split; [discriminate|]. intros _. apply Bool.negb_true_iff, N.eqb_neq. lia. }
  rewrite A, !Bool.orb_true_iff, !Bool.negb_true_iff, !N.eqb_neq. pose proof (logged_nil Warn). tauto.
Qed.
Lemma scan_warns m b bl got tail ses st c0 c1 op after xs o m' l : nth_error m b = Some (Some bl) -> len bl = 4096 -> bl = got ++ tail -> answer_parts got ses st c0 c1 op after xs ->
  l_scan_handle false (len got) b m = (o, m', l) -> (logged Warn l <-> odd_answer ses st c0 c1 op after xs).
Proof.
  intros Hb Lb El P H.
  assert (R : reads m (view_take (mkV b 0 4096) (len got)) got).
  { assert (R0 : reads m (mkV b 0 4096) bl).
    { unfold reads, load_view. cbn [v_blk v_off v_len]. rewrite <- Lb. destruct (len bl =? 0) eqn:Z; [lia|]. apply load_all. exact Hb. }
    apply (reads_take _ _ _ (len got)) in R0. rewrite El, take_app_len in R0. exact R0. }
  unfold l_scan_handle in H. destruct (l_scan_body (len got) _) as [[o0 s0] l0] eqn:E. pose proof (body_warns _ _ _ _ _ _ _ _ _ _ _ _ _ R P E) as W.
  destruct o0 as [r|c t|u|]; try (apply pair_equal_spec in H as [_ <-]; exact W).
  destruct (is_a c LengthError); apply pair_equal_spec in H as [_ <-]; [|exact W]. rewrite logged_app, logged_one, W. split; [intros [Q|Q]; [exact Q|discriminate Q]|tauto].
Qed.

(** ** Errors *)
Ltac nolog := let Q := fresh in intros Q; repeat rewrite logged_app in Q; repeat (destruct Q as [Q|Q]);
  first [exact (logged_nil _ Q)|contradiction|apply logged_one in Q; discriminate Q|apply logged_if in Q; destruct Q as [_ Q]; discriminate Q].
Ltac haslog := repeat rewrite logged_app; repeat (first [left; apply logged_one; reflexivity|apply logged_one; reflexivity|right]).
Lemma body_errors n s r s' l : l_scan_body n s = (Ret r, s', l) -> (logged Error l <-> turned_down r) /\ ~ logged Out l /\ r <> ScanTooShort.
Proof.
  unfold l_scan_body. intros H. apply l_bind_ret in H as (pkt & ? & ? & ? & E0 & H & ->). unfold lift in E0. destruct (ldec _ s); injection E0 as _ _ <-. cbv zeta in H.
  apply l_bind_ret in H as (? & s1 & l1 & ? & E1 & H & ->).
  assert (W : forall v, v <> Warn -> ~ logged v l1).
  { unfold says in E1. injection E1 as _ _ <-. intros v Nv. destruct (snd _); [|apply logged_nil]. rewrite logged_if. intros [_ Q]. congruence. }
  clear E1.
  assert (Out1 : ~ logged Out l1) by (apply W; discriminate). assert (Err1 : ~ logged Error l1) by (apply W; discriminate). clear W.
  destruct (negb (h_command (ep_header pkt) =? EIP_CMD_LIST_IDENTITY)).
  { apply l_bind_ret in H as (? & ? & ? & ? & E2 & H & ->). injection E2 as <- <- <-. injection H as <- <- <-. split; [split; [intros _; exact I|intros _; haslog]|]. split; [nolog|discriminate]. }
  do 4 (apply l_bind_ret in H as (? & ? & ? & ? & ?E & H & ->)). unfold say_if, says in *.
  repeat match goal with E : (Ret tt, _, _) = (Ret _, _, _) |- _ => injection E as <- <- <- end.
  apply l_bind_ret in H as (pl & ? & ? & ? & E6 & H & ->). unfold lift in E6. destruct (ldec _ _) in E6; injection E6 as _ _ <-.
  destruct (cpf_getItemCount pl <? 1).
  { apply l_bind_ret in H as (? & ? & ? & ? & E2 & H & ->). injection E2 as <- <- <-. injection H as <- <- <-. split; [split; [intros _; exact I|intros _; haslog]|]. split; [nolog|discriminate]. }
  apply l_bind_ret in H as (? & ? & ? & ? & E2 & H & ->). injection E2 as <- <- <-.
  apply l_bind_ret in H as (i0 & ? & ? & ? & E7 & H & ->). unfold lift in E7. destruct (ldec _ _) in E7; injection E7 as _ _ <-.
  destruct (negb (it_type i0 =? EIP_ITEM_LIST_IDENTITY_RESPONSE)).
  { apply l_bind_ret in H as (? & ? & ? & ? & E2 & H & ->). injection E2 as <- <- <-. injection H as <- <- <-. split; [split; [intros _; exact I|intros _; haslog]|]. split; [nolog|discriminate]. }
  apply l_bind_ret in H as (i & ? & ? & ? & E8 & H & ->). unfold lift in E8. destruct (ldec _ _) in E8; injection E8 as _ _ <-.
  apply l_bind_ret in H as (? & ? & ? & ? & E2 & H & ->). injection E2 as <- <- <-. injection H as <- <- <-.
  assert (Id : forall v, v <> Inform -> ~ logged v (identity_log i)).
  { intros v Nv (x9 & Ix & Ex). revert Ix. unfold identity_log. cbn [In]. intros Ix. repeat (destruct Ix as [<-|Ix]; [cbn in Ex; congruence|]). exact Ix. }
  assert (Id1 : ~ logged Error (identity_log i)) by (apply Id; discriminate). assert (Id2 : ~ logged Out (identity_log i)) by (apply Id; discriminate). clear Id.
  split; [split; [nolog|intros []]|]. split; [nolog|discriminate].
Qed.
Lemma throw_errors n s c t s' l : l_scan_body n s = (Throw c t, s', l) -> ~ logged Error l.
Proof.
  unfold l_scan_body. intros H. apply l_bind_throw in H as [H|(pkt & ? & ? & ? & E0 & H & ->)]; [unfold lift in H; destruct (ldec _ s); injection H as _ _ <-; exact (logged_nil _)|].
  unfold lift in E0. destruct (ldec _ s); injection E0 as _ _ <-. cbv zeta in H.
  apply l_bind_throw in H as [H|(? & s1 & l1 & ? & E1 & H & ->)]; [discriminate H|].
  assert (Err1 : ~ logged Error l1).
  { unfold says in E1. injection E1 as _ _ <-. destruct (snd _); [|apply logged_nil]. rewrite logged_if. intros [_ Q]. discriminate Q. }
  clear E1. destruct (negb (h_command (ep_header pkt) =? EIP_CMD_LIST_IDENTITY)).
  { apply l_bind_throw in H as [H|(? & ? & ? & ? & E2 & H & ->)]; discriminate H. }
  do 4 (apply l_bind_throw in H as [H|(? & ? & ? & ? & ?E & H & ->)]; [discriminate H|]). unfold say_if, says in *.
  repeat match goal with E : (Ret tt, _, _) = (Ret _, _, _) |- _ => injection E as <- <- <- end.
  apply l_bind_throw in H as [H|(pl & ? & ? & ? & E6 & H & ->)]; [unfold lift in H; destruct (ldec _ _) in H; injection H as _ _ <-; nolog|].
  unfold lift in E6. destruct (ldec _ _) in E6; injection E6 as _ _ <-.
  destruct (cpf_getItemCount pl <? 1). { apply l_bind_throw in H as [H|(? & ? & ? & ? & E2 & H & ->)]; discriminate H. }
  apply l_bind_throw in H as [H|(? & ? & ? & ? & E2 & H & ->)]; [discriminate H|]. injection E2 as <- <- <-.
  apply l_bind_throw in H as [H|(i0 & ? & ? & ? & E7 & H & ->)]; [unfold lift in H; destruct (ldec _ _) in H; injection H as _ _ <-; nolog|].
  unfold lift in E7. destruct (ldec _ _) in E7; injection E7 as _ _ <-.
  destruct (negb (it_type i0 =? EIP_ITEM_LIST_IDENTITY_RESPONSE)). { apply l_bind_throw in H as [H|(? & ? & ? & ? & E2 & H & ->)]; discriminate H. }
  apply l_bind_throw in H as [H|(i & ? & ? & ? & E8 & H & ->)]; [unfold lift in H; destruct (ldec _ _) in H; injection H as _ _ <-; nolog|].
  apply l_bind_throw in H as [H|(? & ? & ? & ? & E2 & H & ->)]; discriminate H.
Qed.
Lemma scan_errors ec n b m r m' l : l_scan_handle ec n b m = (Ret r, m', l) -> (logged Error l <-> turned_down r) /\ (logged Out l <-> r = ScanTooShort).
Proof.
  unfold l_scan_handle. destruct ec.
  { intros H. injection H as <- <- <-. rewrite !logged_one. cbn. split; [tauto|]. split; discriminate. }
  destruct (l_scan_body n _) as [[o s0] l0] eqn:E. destruct o as [v|c t|u|]; try (intros H; discriminate H).
  - intros H. injection H as <- <- <-. apply body_errors in E. destruct E as (A & B & C). split; [exact A|]. split; [intros Q; contradiction|intros Q; contradiction].
  - destruct (is_a c LengthError); intros H; [|discriminate H]. injection H as <- <- <-. apply throw_errors in E. rewrite !logged_app, !logged_one. cbn. split; [|split; [reflexivity|tauto]].
    split; [intros [Q|Q]; [contradiction|discriminate Q]|intros []].
Qed.
(** An answer that is reported has parts. *)
Lemma identified_parts got i : identifies got i -> exists ses st c0 c1 o after xs, answer_parts got ses st c0 c1 o after xs.
Proof.
  intros (d & xs & rest & (ses & payload & rest' & (st & c0 & c1 & o & after & F & E) & Ok & Ep) & _). exists ses, st, c0, c1, o, after, ((0x0C, d) :: xs). exists payload, rest'. auto.
Qed.
