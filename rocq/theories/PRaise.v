(** The exceptions each operation can raise (C70). *)
From Verif Require Export PLeak.

(** ** Decoders *)
Definition d_raises {T A} (P : exn_class -> Prop) (x : D T A) : Prop :=
  forall m r t c s m' r' t', x m r t = (Throw c s, m', r', t') -> P c.
Lemma load_throw m b o n c s : load m b o n <> Throw c s.
Proof. unfold load. destruct (n =? 0); [discriminate|]. destruct (nth_error m b) as [[?|]|]; try discriminate. destruct (_ <=? _); discriminate. Qed.
Lemma store_throw m b o bs c s : store m b o bs <> Throw c s.
Proof. unfold store. destruct (_ =? 0); [discriminate|]. destruct (nth_error m b) as [[?|]|]; try discriminate. destruct (_ <=? _); discriminate. Qed.
Lemma free_throw m b c s : free m b <> Throw c s.
Proof. unfold free. destruct (nth_error m b) as [[?|]|]; discriminate. Qed.
Section R.
  Context {P : exn_class -> Prop} {T : Type}.
  Lemma r_ret {A} (a : A) : d_raises P (dret (T := T) a). Proof. intros m r t c s m' r' t' H. discriminate. Qed.
  Lemma r_mod (f : T -> T) : d_raises P (dmod f). Proof. intros m r t c s m' r' t' H. discriminate. Qed.
  Lemma r_get : d_raises P (@dget T). Proof. intros m r t c s m' r' t' H. discriminate. Qed.
  Lemma r_count : d_raises P (@rd_count T). Proof. intros m [v k|d p f] t c s m' r' t' H; discriminate. Qed.
  Lemma r_throw {A} c s : P c -> d_raises P (dthrow (T := T) (A := A) c s). Proof. intros H m r t c0 s0 m' r' t' E. injection E as <- _ _ _ _. exact H. Qed.
  Lemma r_dbind {A B} (x : D T A) (f : A -> D T B) : d_raises P x -> (forall a, d_raises P (f a)) -> d_raises P (dbind x f).
  Proof.
    intros X F m r t c s m' r' t'. unfold dbind. destruct (x m r t) as [[[[a|c1 s1|u|] m1] r1] t1] eqn:E; intros H; try discriminate.
    - eapply F; exact H.
    - injection H as <- _ _ _ _. eapply X; exact E.
  Qed.
  Lemma r_zoom {U A} (get : T -> U) put (x : D U A) : d_raises P x -> d_raises P (dzoom get put x).
  Proof. intros X m r t c s m' r' t'. unfold dzoom. destruct (x m r (get t)) as [[[o m1] r1] u] eqn:E. intros H. injection H as -> _ _ _. eapply X; exact E. Qed.
  Lemma r_local {U} (u : U) x : d_raises P x -> d_raises P (dlocal (T := T) u x).
  Proof.
    intros X m r t c s m' r' t'. unfold dlocal. destruct (x m r u) as [[[[a|c1 s1|e|] m1] r1] u1] eqn:E; intros H; try discriminate.
    injection H as <- _ _ _ _. eapply X; exact E.
  Qed.
End R.
Definition short (c : exn_class) : Prop := c = LengthError.
Section S.
  Context {P : exn_class -> Prop} (HP : P LengthError) {T : Type}.
  Lemma r_raw n (get : T -> list byte) set : d_raises P (rd_raw n get set).
  Proof.
    intros m [v k|d p f] t c s m' r' t'; unfold rd_raw.
    - destruct (_ <? _); [intros H; injection H as <- _ _ _ _; exact HP|].
      destruct (load _ _ _ _) eqn:E; intros H; try discriminate. destruct (load_throw _ _ _ _ _ _ E).
    - destruct (str_read d p f n). intros H. discriminate.
  Qed.
  Lemma r_uint k (get : T -> N) set : d_raises P (rd_uint k get set). Proof. apply r_raw. Qed.
  Lemma r_rlocal k : d_raises P (rd_local (T := T) k).
  Proof.
    intros m [v c0|d p f] t c s m' r' t'; unfold rd_local.
    - destruct (_ <? _); [intros H; injection H as <- _ _ _ _; exact HP|].
      destruct (load _ _ _ _) eqn:E; intros H; try discriminate. destruct (load_throw _ _ _ _ _ _ E).
    - destruct (str_read _ _ _ _). destruct (_ <? _); intros H; discriminate.
  Qed.
  Lemma r_view n : d_raises P (rd_view (T := T) n).
  Proof. intros m [v k|d p f] t c s m' r' t'; unfold rd_view; [|discriminate]. destruct (_ <? _); intros H; [injection H as <- _ _ _ _; exact HP|discriminate]. Qed.
  Lemma r_skip n : d_raises P (rd_skip (T := T) n).
  Proof.
    intros m [v k|d p f] t c s m' r' t'; unfold rd_skip.
    - destruct (_ <? _); intros H; [injection H as <- _ _ _ _; exact HP|discriminate].
    - destruct f; [discriminate|]. destruct (_ <=? _); discriminate.
  Qed.
  Lemma r_into v : d_raises P (rd_into (T := T) v).
  Proof.
    intros m [b k|d p f] t c s m' r' t'; unfold rd_into.
    - destruct (_ <? _); [intros H; injection H as <- _ _ _ _; exact HP|]. destruct (overlap _ _); [discriminate|].
      destruct (load _ _ _ _) eqn:E; try discriminate; [|destruct (load_throw _ _ _ _ _ _ E)].
      destruct (store _ _ _ _) eqn:E2; try discriminate. destruct (store_throw _ _ _ _ _ _ E2).
    - destruct (str_read _ _ _ _). destruct (store _ _ _ _) eqn:E2; try discriminate. destruct (store_throw _ _ _ _ _ _ E2).
  Qed.
End S.
Lemma r_delete P : d_raises P sb_delete.
Proof.
  unfold sb_delete. apply r_dbind; [apply r_get|intros s]. destruct (sb_alloc s) as [b|]; [|apply r_ret].
  apply r_dbind; [|intros; apply r_mod]. intros m r t c s0 m' r' t'. unfold d_free. destruct (free m b) eqn:F; try discriminate.
  destruct (free_throw _ _ _ _ F).
Qed.
Lemma r_sb (P : exn_class -> Prop) n : P LengthError -> d_raises P (sb_deserialize_len n).
Proof.
  intros HP. unfold sb_deserialize_len. apply r_dbind; [intros m r t c s m' r' t' H; discriminate|intros b].
  destruct b.
  - apply r_dbind; [apply r_delete|intros _]. apply r_dbind; [apply r_view; exact HP|intros v; apply r_mod].
  - apply r_dbind; [apply r_get|intros s]. apply r_dbind; [|intros _; apply r_dbind; [apply r_get|intros s'; apply r_into; exact HP]].
    destruct (_ =? _); [apply r_ret|]. apply r_dbind; [apply r_delete|intros _]. apply r_dbind; [|intros b; apply r_mod].
    intros m r t c s0 m' r' t' H. discriminate.
Qed.
Lemma r_if {T A} P (b : bool) (x y : D T A) : d_raises P x -> d_raises P y -> d_raises P (if b then x else y).
Proof. destruct b; auto. Qed.
Ltac rs := repeat (first [(apply r_sb; reflexivity) | apply r_dbind; [|intros] | (apply r_uint; reflexivity) | (apply r_raw; reflexivity) | (apply r_rlocal; reflexivity) | (apply r_skip; reflexivity) | apply r_mod | apply r_get
   | apply r_ret | apply r_count | (apply r_throw; reflexivity) | apply r_if | apply r_zoom | apply r_local ]).
Definition raises_short {T} (c : cls T) : Prop := forall n, d_raises short (deserialize_len c n).
Lemma virt_short {T} (x : D T unit) check sb : (forall k n e s, check k n = Some (e, s) -> e = LengthError) -> d_raises short x -> raises_short (mkCls (DLVirtual check) x sb).
Proof. intros C X n. unfold deserialize_len. cbn. destruct (check 0 n) as [[e s]|] eqn:E; [|exact X]. apply r_throw. eapply C. exact E. Qed.
Lemma r_hdr : d_raises short hdr_deserialize. Proof. unfold hdr_deserialize. rs. Qed.
Lemma r_ep n : d_raises short (ep_deserialize_len n).
Proof. unfold ep_deserialize_len. apply r_if; [apply r_throw; reflexivity|]. apply r_dbind; [apply r_zoom, r_hdr|intros]. rs. Qed.
Lemma r_ep0 : d_raises short ep_deserialize.
Proof. unfold ep_deserialize. apply r_dbind; [apply r_zoom, r_hdr|intros]. rs. Qed.
Lemma r_itd n : d_raises short (it_deserializeData n). Proof. unfold it_deserializeData. rs. Qed.
Lemma r_it n : d_raises short (it_deserialize_len n).
Proof. unfold it_deserialize_len. rs. Qed.
Lemma r_it0 : d_raises short it_deserialize.
Proof. unfold it_deserialize. rs. Qed.
Lemma r_cpf : d_raises short cpf_deserialize.
Proof. unfold cpf_deserialize. rs. induction (N.to_nat a0) as [|n IH]; cbn [cpf_loop]; [rs|]. apply r_dbind; [apply r_local, r_it0|intros]. rs. exact IH. Qed.
Lemma r_read n : d_raises short (ms_readData n). Proof. unfold ms_readData. destruct (positive_int n); rs. Qed.
Lemma r_ms n : d_raises short (ms_deserialize_len n).
Proof. unfold ms_deserialize_len. rs; apply r_read. Qed.
Lemma no_check_short k n e s : no_check k n = Some (e, s) -> e = LengthError. Proof. discriminate. Qed.
Lemma raises_all :
  raises_short hdr_cls /\ raises_short ep_cls /\ raises_short it_cls /\ raises_short cpf_cls /\ raises_short ms_cls /\ raises_short rg_cls /\
  raises_short sa_cls /\ raises_short id_cls /\ raises_short fs_cls /\ raises_short cs_cls /\ raises_short sbuf_cls /\ forall k, raises_short (prim_cls k).
Proof.
  assert (V : forall T (x : D T unit) sb, d_raises short x -> raises_short (mkCls (DLVirtual no_check) x sb)) by (intros; apply virt_short; [exact no_check_short|assumption]).
  split. { apply virt_short; [|apply r_hdr]. intros k n e s. unfold hdr_check. destruct (_ =? _); [discriminate|]. congruence. }
  split. { intros n. apply r_ep. }
  split. { intros n. apply r_it. }
  split. { apply V, r_cpf. }
  split. { intros n. apply r_ms. }
  split. { apply V. unfold rg_deserialize. rs. }
  split. { apply V. unfold sa_deserialize. rs. }
  split. { apply V. assert (H : d_raises short id_flat) by (unfold id_flat; rs). intros m r t. rewrite id_flat_eq. apply H. }
  split. { apply V. unfold fs_deserialize. rs. }
  split. { apply V. unfold cs_deserialize. rs. }
  split. { intros n. apply r_sb. reflexivity. }
  intros k. apply V. apply r_uint. reflexivity.
Qed.
Lemma raises_names {T} (c : cls T) e : raises_short c -> decode_raises c e -> e = LengthError.
Proof. intros R (n & m & v & k & t & s & m' & r & t' & H). eapply (R n); exact H. Qed.

(** ** Operations *)
Definition raises {A} (P : exn_class -> Prop) (x : M A) : Prop := forall w c s w', x w = (Throw c s, w') -> P c.
Definition yields {A} (P : A -> Prop) (x : M A) : Prop := forall w a w', x w = (Ret a, w') -> P a.
Lemma tidy_yields {A} (P : A -> Prop) x : tidy P x -> yields P x.
Proof. intros T w a w' H. destruct (T _ _ _ H (cb_ret a)) as (_ & K). apply K. reflexivity. Qed.
Lemma yields_any {A} (x : M A) : yields any x. Proof. easy. Qed.
Lemma m_bind {A B} P (Q : A -> Prop) (x : M A) (f : A -> M B) : raises P x -> yields Q x -> (forall a, Q a -> raises P (f a)) -> raises P (mbind x f).
Proof.
  intros X Y F w c s w'. unfold mbind. destruct (x w) as [[a|c1 s1|u|] w1] eqn:E; intros H; try discriminate.
  - eapply F; [eapply Y; exact E|exact H].
  - injection H as <- _ _. eapply X; exact E.
Qed.
Lemma m_bind0 {A B} P (x : M A) (f : A -> M B) : raises P x -> (forall a, raises P (f a)) -> raises P (mbind x f).
Proof. intros X F. apply (m_bind P any); [exact X|apply yields_any|auto]. Qed.
Lemma m_ret {A} P (a : A) : raises P (mret a). Proof. intros w c s w' H. discriminate. Qed.
Lemma m_throw {A} (P : exn_class -> Prop) c s : P c -> raises P (@mthrow A c s). Proof. intros H w c1 s1 w' E. injection E as <- _ _. exact H. Qed.
Definition runtime (c : exn_class) : Prop := is_a c RuntimeError = true.
Lemma not_logic c : is_a c LengthError = false -> is_a c LogicError = false -> runtime c.
Proof. destruct c; intros A B; cbn in *; (discriminate || reflexivity). Qed.
Lemma m_catch {A} (x h1 h2 : M A) : raises runtime h1 -> raises runtime h2 -> raises runtime (mcatch x h1 h2).
Proof.
  intros H1 H2 w c s w'. unfold mcatch. destruct (x w) as [[a|c1 s1|u|] w1]; intros H; try discriminate.
  destruct (is_a c1 LengthError) eqn:A1; [eapply H1; exact H|]. destruct (is_a c1 LogicError) eqn:A2; [eapply H2; exact H|].
  injection H as <- _ _. apply not_logic; assumption.
Qed.
Definition sys (c : exn_class) : Prop := c = SystemError.
Lemma sys_runtime c : sys c -> runtime c. Proof. intros ->. reflexivity. Qed.
Lemma m_weak {A} (P Q : exn_class -> Prop) (x : M A) : (forall c, P c -> Q c) -> raises P x -> raises Q x.
Proof. intros I X w c s w' H. apply I. eapply X; exact H. Qed.
Lemma m_sopen i h p : raises sys (sock_open i h p).
Proof. intros w c s w'. unfold sock_open. destruct (match so_open _ with x :: _ => x | [] => _ end); intros H; [injection H as <- _ _; reflexivity|discriminate]. Qed.
Lemma m_sclose i : raises sys (sock_close i).
Proof. intros w c s w'. unfold sock_close. destruct (match so_close _ with x :: _ => x | [] => _ end); intros H; [injection H as <- _ _; reflexivity|discriminate]. Qed.
Lemma m_srecv i v : raises sys (sock_recv i v).
Proof.
  intros w c s w'. unfold sock_recv. destruct (so_recv (get_sock i w)) as [|[bs|] rs]; [discriminate| |intros H; injection H as <- _ _; reflexivity].
  destruct (store _ _ _ _) eqn:S; intros H; try discriminate. destruct (store_throw _ _ _ _ _ _ S).
Qed.
Lemma m_close_both : raises sys close_both.
Proof. apply m_bind0; [apply m_sclose|intros; apply m_sclose]. Qed.
Lemma m_upd P f : raises P (mupd_se f). Proof. intros w c s w' H. discriminate. Qed.
Lemma m_get P : raises P mget. Proof. intros w c s w' H. discriminate. Qed.
Lemma m_ssend i s bs w c e w' : carries (w_mem w) s bs -> sock_send_ser i s w = (Throw c e, w') -> c = SystemError.
Proof.
  intros C. rewrite (send_ser i s bs w C). destruct (sock_send_shape i bs w) as (o & w1 & E & _ & _ & _ & [(n & -> & _)|(-> & _)] & _);
    rewrite E; cbn [fst snd]; intros H; [discriminate|injection H as <- _ _; reflexivity].
Qed.
Lemma m_rr service p d : (match d with Some s => exists n, s_length s = Ret n | None => True end) -> raises runtime (sendRRDataCommand service p d).
Proof.
  intros L. unfold sendRRDataCommand. apply m_bind0; [apply m_get|intros w]. apply m_bind0.
  { assert (Q : exists q, ep_make EIP_CMD_SEND_RR_DATA (se_id (w_se w)) (Some (rrq_ser (rrq_make service p d))) = Ret q).
    { destruct d as [x|]; [destruct L as (n & L)|]; unfold ep_make, ep_updateLength, rrq_ser, rr_ser, rrq_make, mq_ser, mq_getLength, rr_getLength;
        cbn [ep_payload opt_length s_length rr_ext mq_data mq_path obind]; [rewrite L|]; cbn [obind]; eexists; reflexivity. }
    destruct Q as (q & ->). intros w0 c s w' H. discriminate. }
  intros pkt. apply m_bind0; [apply m_catch; apply m_throw; reflexivity|intros response].
  apply m_bind0; [apply m_catch; apply m_throw; reflexivity|intros resp]. destruct (negb _); [apply m_throw; reflexivity|apply m_ret].
Qed.
Lemma m_open h p q : raises runtime (session_open h p q).
Proof.
  unfold session_open. apply m_bind0; [eapply m_weak; [exact sys_runtime|apply m_sopen]|intros _].
  apply m_bind0; [eapply m_weak; [exact sys_runtime|apply m_sopen]|intros _].
  apply m_bind0; [intros w c s w' H; discriminate|intros reg].
  assert (B : forall A e, raises runtime (do* close_both in @mthrow A RuntimeError e)).
  { intros A e. apply m_bind0; [eapply m_weak; [exact sys_runtime|apply m_close_both]|intros _; apply m_throw; reflexivity]. }
  apply m_bind0; [apply m_catch; apply B|intros response]. apply m_bind0; [apply m_catch; apply m_ret|intros g].
  apply m_bind0; [|intros _; apply m_upd]. destruct g as [g|]; [|apply m_ret]. destruct (negb _); [apply B|apply m_ret].
Qed.
Lemma copy_raises {U} (c : cls U) p t w o t' w' e s : raw_opt p -> m_copy c p t w = (o, t', w') -> o = Throw e s -> c_sb c = None /\ decode_raises c e.
Proof.
  intros R. unfold m_copy. destruct p as [x|]; [|intros H; injection H as <- <- <-; discriminate]. destruct R as (sb & ->).
  unfold copy_serializable. cbn [s_length s_sbuf ser_of_sbuf]. destruct (c_sb c) as [[g pt]|] eqn:N; [intros H; injection H as <- <- <-; discriminate|].
  unfold run_reader. destruct (deserialize_len c _ (w_mem w) _ t) as [[[o1 m1] r1] t1] eqn:E. intros H ->. injection H as -> <- <-. split; [reflexivity|].
  do 9 eexists. exact E.
Qed.
Lemma m_copy_short {U} (c : cls U) p t : raw_opt p -> raises_short c -> raises short (m_copy_local c p t).
Proof.
  intros R S w e s w' H. unfold m_copy_local in H. destruct (m_copy c p t w) as [[o t1] w1] eqn:E.
  destruct o as [a|e1 s1|u|]; try discriminate. injection H as <- <- <-. destruct (copy_raises c p t w _ _ _ _ _ R E eq_refl) as (_ & D).
  eapply raises_names; eassumption.
Qed.
Lemma step_raises o w e s w' : op_encodes o w -> step o w = (Throw e s, w') -> may_raise o e.
Proof.
  destruct o as [h p q| |T c t x y z|x y z d|a b|n| |p]; cbn [step op_encodes may_raise]; intros B H.
  - revert H. apply (m_bind0 runtime (session_open h p q) (fun _ => mret RUnit)); [apply m_open|intros; apply m_ret].
  - unfold session_close in H. unfold mbind, mget in H. destruct (sock_send_ser Ctl _ w) as [[k|c1 s1|u|] w1] eqn:E; try discriminate.
    + destruct (close_both w1) as [[k2|c1 s1|u|] w2] eqn:E2; try discriminate. injection H as <- _ _. eapply m_close_both; exact E2.
    + injection H as <- _ _. eapply m_ssend; [|exact E]. apply ep_make0_carries.
  - unfold getSingleAttributeSerializable in H. destruct (sendRRDataCommand _ _ _ w) as [[r|e1 s1|u|] w1] eqn:E; try discriminate.
    + destruct (m_copy c (ms_data (rr_ext r)) t w1) as [[[u|e1 s1|u|] t2] w2] eqn:E2; try discriminate. injection H as <- <- <-. right.
      eapply copy_raises; [|exact E2|reflexivity]. eapply (tidy_yields _ _ (t_rr 0x0E _ None Logic.I)); exact E.
    + injection H as <- <- <-. left. eapply (m_rr _ _ None Logic.I); exact E.
  - revert H. apply (m_bind0 runtime); [|intros; apply m_ret]. apply m_bind0; [|intros; apply m_ret]. apply m_rr. exact B.
  - revert H. apply (m_bind0 (fun c => runtime c \/ c = LogicError \/ c = LengthError)); [|intros; apply m_ret]. unfold createConnection.
    apply m_bind0; [apply m_get|intros w0]. apply m_bind0; [apply m_upd|intros _].
    eapply m_bind; [eapply m_weak; [|apply m_rr]; [tauto|eexists; reflexivity]|eapply tidy_yields, t_rr; apply bal_fo|].
    intros resp R. apply m_bind0; [eapply m_weak; [|apply m_copy_short; [exact R|pose proof raises_all; tauto]]; unfold short; tauto|intros res].
    destruct (cn_verify_open _ _); [|apply m_throw; auto]. apply m_bind0; [apply m_upd|intros _]. apply m_bind0; [apply m_get|intros; apply m_ret].
  - revert H. apply (m_bind0 (fun c => runtime c \/ c = LogicError \/ c = LengthError)); [|intros; apply m_ret]. unfold closeConnection.
    assert (G : forall P, raises P (getConnection n)) by (intros P w0 c s0 w1 K; unfold getConnection in K; destruct (nth_error _ _); discriminate).
    apply m_bind0; [apply G|intros c]. eapply m_bind; [eapply m_weak; [|apply m_rr]; [tauto|eexists; reflexivity]|eapply tidy_yields, t_rr; apply bal_fc|].
    intros resp R. apply m_bind0; [eapply m_weak; [|apply m_copy_short; [exact R|pose proof raises_all; tauto]]; unfold short; tauto|intros res].
    apply m_bind0; [apply G|intros c']. destruct (negb _); [apply m_throw; auto|apply m_upd].
  - revert H. apply (m_bind0 (fun c => c = SystemError \/ c = LengthError)); [|intros; apply m_ret]. intros w0. unfold receiveIOPacket. revert w0.
    intros w0 c s0 w1. apply (m_bind0 (fun c => c = SystemError \/ c = LengthError)); [eapply m_weak; [|apply m_srecv]; unfold sys; tauto|intros k].
    apply m_bind0; [|intros; apply m_ret]. intros w2 c2 s2 w3 K. unfold m_decode in K.
    destruct (cpf_deserialize (w_mem w2) _ []) as [[[[u|c3 s3|u|] m3] r3] t3] eqn:E; [destruct r3; discriminate| |discriminate..].
    injection K as <- _ _. right. eapply r_cpf; exact E.
  - destruct B as (bs & C). unfold sendIOPacket, mbind in H. destruct (sock_send_ser Io _ w) as [[k|c1 s1|u|] w1] eqn:E; try discriminate.
    injection H as <- _ _. eapply m_ssend; eassumption.
Qed.
