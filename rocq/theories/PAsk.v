(** * PAsk: what the bytes of requests say (C110). *)
From Verif Require Export Vocab18 PTarget PHistory2.
Local Open Scope N_scope.

(** ** Requests determine what they ask *)
Lemma request_session cmd id cmd' id' p p' : fits 2 cmd -> fits 4 id -> len p < 65536 -> fits 2 cmd' -> fits 4 id' -> len p' < 65536 ->
  request cmd id p = request cmd' id' p' -> cmd = cmd' /\ id = id' /\ p = p'.
Proof.
  intros A B C A' B' C' E. assert (Z : fits 4 0) by reflexivity.
  rewrite <- (app_nil_r (request cmd id p)), <- (app_nil_r (request cmd' id' p')) in E.
  apply frame_inj in E; [|repeat split; assumption..]. destruct E as (E & <- & _). injection E as <- <-. auto.
Qed.
Lemma word_inj a b v : a < 32768 -> b < 32768 -> parameter_word a v 2 2 false = parameter_word b v 2 2 false -> a = b.
Proof. unfold parameter_word. intros A B E. destruct v; lia. Qed.
Lemma word_fits a v : a < 32768 -> fits 4 (parameter_word a v 2 2 false).
Proof. unfold parameter_word, fits. intros A. change (256 ^ N.of_nat 4) with 4294967296. destruct v; lia. Qed.
Lemma open_message_inj vn sr sn id o t vn' sr' sn' id' o' t' : key_fits (sn, vn, sr) -> key_fits (sn', vn', sr') -> fits 4 id -> fits 4 id' ->
  info_fits o -> info_fits t -> info_fits o' -> info_fits t' ->
  open_message vn sr sn id o t = open_message vn' sr' sn' id' o' t' ->
  (sn, vn, sr) = (sn', vn', sr') /\ id = id' /\ same_info o o' /\ same_info t t'.
Proof.
  intros (F1 & F2 & F3) (G1 & G2 & G3) I I' (O1 & O2 & O3) (T1 & T2 & T3) (O1' & O2' & O3') (T1' & T2' & T3') E.
  assert (M : forall x, x mod 2 ^ 15 < 32768) by (intros x; apply N.mod_lt; discriminate).
  assert (U : forall x, fits 4 (x mod 2 ^ 32)) by (intros x; unfold fits; change (256 ^ N.of_nat 4) with (2 ^ 32); apply N.mod_lt; discriminate).
  unfold open_message, forward_open in E. apply app_eq_len in E; [|reflexivity]. destruct E as [_ E].
  do 5 (apply le_app_inj in E; [|first [assumption|apply U]..]; destruct E as [? E]).
  apply app_eq_len in E; [|reflexivity]. destruct E as [_ E].
  do 4 (apply le_app_inj in E; [|first [assumption|apply word_fits, M]..]; destruct E as [? E]).
  apply app_eq_len in E; [|reflexivity]. destruct E as [_ E]. unfold epath in E. cbn in E. injection E as E1 E2.
  apply octet_inj in E1, E2; try assumption.
  repeat match goal with H : parameter_word _ _ _ _ _ = _ |- _ => apply word_inj in H; [|apply M..] end.
  unfold same_info. repeat split; congruence.
Qed.

Lemma rr_small sv p d n : len p <= n -> len d < 65512 - n -> n < 100 -> len (rr_request sv p d) < 65536.
Proof. intros A B C. rewrite len_rr_request. lia. Qed.
Lemma asked_frame u o s bs : asked u o s bs -> exists cmd p, bs = request cmd (handle_of o s) p /\ fits 2 cmd /\ fits 4 (handle_of o s) /\ len p < 65536.
Proof.
  intros (R & K & T & I & F). assert (Z : fits 4 0) by reflexivity. assert (C : forall c, c < 65536 -> fits 2 c) by (intros; apply fits2; assumption).
  destruct o as [h p q| |T0 c t x y z|x y z d|a b|n| |p]; cbn [request_of op_ok typed handle_of] in *; try contradiction.
  - exists 0x65, (registration 1 0). repeat split; auto.
  - exists 0x66, []. repeat split; auto.
  - exists 0x6F, (rr_request 0x0E (attribute_path x y z) []). repeat split; auto.
  - destruct R as (data & R1 & R2). destruct K as (_ & _ & _ & bs0 & K1 & K2). assert (data = bs0) as ->.
    { destruct d as [d|]; cbn in R1, K1; [eapply carries_inj; eassumption|congruence]. }
    exists 0x6F, (rr_request 0x10 (attribute_path x y z) bs0). repeat split; auto.
    all: try (rewrite len_rr_request; unfold attribute_path; rewrite len_epath; change (len [SClass x; SInstance y; SAttribute z]) with 3; lia).
  - exists 0x6F, (rr_request 0x5B manager_path (open_message (se_vendor s) (se_serial s) (se_next_sn s) (se_next_id s) a b)). repeat split; auto.
  - destruct R as (c & R1 & R2). exists 0x6F, (rr_request 0x4E manager_path
    (forward_close (cn_tick_size c) (cn_ticks c) (cn_sn c) (cn_vendor c) (cn_orig_sn c) [SClass 2; SInstance 1])). repeat split; auto.
Qed.

Lemma request_cmd cmd id p : take 2 (request cmd id p) = le 2 cmd.
Proof. reflexivity. Qed.
Lemma cmds_differ cmd cmd' id id' p p' : le 2 cmd <> le 2 cmd' -> request cmd id p = request cmd' id' p' -> False.
Proof. intros D E. apply D. rewrite <- (request_cmd cmd id p), E. apply request_cmd. Qed.
Lemma services_differ id id' sv sv' p p' d d' : octet sv <> octet sv' -> request 0x6F id (rr_request sv p d) = request 0x6F id' (rr_request sv' p' d') -> False.
Proof. intros D E. apply D. eapply rr_request_inj, E. Qed.

Lemma same_asked u u' o o' s s' bs : asked u o s bs -> asked u' o' s' bs -> same_request u u' s s' o o'.
Proof.
  intros A A'. pose proof (asked_frame _ _ _ _ A) as (cm & p & -> & F1 & F2 & F3).
  pose proof (asked_frame _ _ _ _ A') as (cm' & p' & E & F1' & F2' & F3').
  apply request_session in E; try assumption. destruct E as (<- & Hh & <-).
  destruct A as (R & K & T & (I1 & I2 & I3) & _), A' as (R' & K' & T' & (I1' & I2' & I3') & _).
  assert (D : forall n, nth_error (se_conns s) n <> None -> True) by auto.
  revert R R'. generalize (request cm (handle_of o s) p). intros bs R R'.
  destruct o as [h hp hq| |T0 c t x y z|x y z d|a b|n| |io]; try contradiction;
  destruct o' as [h' hp' hq'| |T0' c' t' x' y' z'|x' y' z' d'|a' b'|n'| |io']; try contradiction;
  cbn [request_of handle_of op_ok typed same_request] in *;
  repeat match goal with H : exists c, nth_error _ _ = Some c /\ _ |- _ => destruct H as (? & ? & H)
                       | H : exists data, carries_opt _ _ data /\ bs = _ |- _ => destruct H as (? & ? & H) end;
  subst bs; try exact I; try assumption;
  try (exfalso; unfold register_request, unregister, get_request, set_request, open_request, close_request in *;
       first [eapply services_differ; [|eassumption]; discriminate | eapply cmds_differ; [|eassumption]; discriminate]).
  - destruct K as (K1 & K2 & K3 & _), K' as (K1' & K2' & K3' & _). apply get_inj in R'; auto.
  - destruct K as (K1 & K2 & K3 & _), K' as (K1' & K2' & K3' & _). apply set_inj in R'; auto. destruct R' as [E <-]. eauto.
  - destruct T as [Ta Tb], T' as [Ta' Tb']. unfold open_request in R'. apply rr_request_inj in R'. destruct R' as [_ R'].
    apply app_inv_head in R'. apply open_message_inj in R'; auto.
  - split; [assumption|]. do 2 eexists. do 2 (split; [eassumption|]). unfold close_request in R'. eapply fc_inj; [..|exact R'].
    + rewrite Forall_forall in I3. eapply (I3 _), nth_error_In, H0.
    + rewrite Forall_forall in I3'. eapply (I3' _), nth_error_In, H.
Qed.

(** ** Numbers stay within their types *)
Lemma fits_mod k n : k <> 0%nat -> fits k (n mod 256 ^ N.of_nat k).
Proof. intros K. unfold fits. apply N.mod_lt. intros E. apply N.pow_eq_0_iff in E. destruct E as [_ E]. discriminate E. Qed.
Lemma make_in_types m ctl io vendor serial sn0 cid0 : in_types (w_se (session_make m ctl io vendor serial sn0 cid0)).
Proof. unfold session_make. destruct (alloc _ _). repeat split; try (first [apply (fits_mod 2)|apply (fits_mod 4)]; discriminate). constructor. Qed.
Lemma create_key a b w o w' : createConnection a b w = (o, w') ->
  forall c, In c (se_conns (w_se w')) -> In c (se_conns (w_se w)) \/ conn_key c = (se_next_sn (w_se w), se_vendor (w_se w), se_serial (w_se w)).
Proof.
  unfold createConnection, mget. unfold mbind at 1. cbv beta zeta. unfold mbind at 1. unfold mupd_se at 1, mupd at 1.
  set (w1 := set_se _ w). set (conn := cn_make _ _ _ _ _ a b).
  assert (W : w_se w1 = set_counters (u16 (se_next_sn (w_se w) + 1)) (u32 (se_next_id (w_se w) + 2)) (w_se w)) by reflexivity.
  unfold mbind at 1. pose proof (calm_rr 0x5B (path_ci 6 1) (Some (fo_ser (cn_open_request conn))) w1) as C.
  destruct (sendRRDataCommand _ _ _ w1) as [r w2]. cbn [snd] in C.
  assert (K : forall w3, w_se w3 = w_se w1 -> se_conns (w_se w3) = se_conns (w_se w)).
  { intros w3 ->. rewrite W. reflexivity. }
  destruct r; try (intros E; injection E as <- <-; rewrite (K _ C); auto).
  unfold mbind at 1. pose proof (calm_copy_local fs_cls (ms_data (rr_ext a0)) fs_make w2) as C2.
  destruct (m_copy_local fs_cls _ _ w2) as [r3 w3]. cbn [snd] in C2. rewrite C in C2.
  destruct r3; try (intros E; injection E as <- <-; rewrite (K _ C2); auto).
  destruct (cn_verify_open conn a1) as [c|] eqn:V.
  - unfold mupd_se, mupd, mbind. intros E. injection E as <- <-. cbn [w_se set_se set_conns se_conns]. rewrite (K _ C2).
    intros c0 H. apply in_app_iff in H. destruct H as [H|[<-|[]]]; [auto|right].
    revert V. unfold cn_verify_open. destruct (_ || _); [discriminate|]. intros E. injection E as <-. reflexivity.
  - intros E. injection E as <- <-. rewrite (K _ C2); auto.
Qed.
Lemma step_in_types o w r w' : in_types (w_se w) -> step o w = (r, w') -> in_types (w_se w').
Proof.
  intros ((I1 & I2 & I3) & I4 & I5) E. pose proof (step_moved _ _ _ _ E) as (M1 & M2 & M).
  assert (Q : w_se w' = w_se w -> in_types (w_se w')) by (intros ->; repeat split; assumption).
  destruct o as [h hp hq| |T0 c t x y z|x y z d|a b|n| |io]; cbn [moved] in M.
  all: try (apply Q; tauto).
  - destruct M as [[_ [id M]]|[_ M]]; [|auto]. rewrite M. repeat split; assumption.
  - destruct M as [[_ M]|[_ M]]; [|auto]. rewrite M. repeat split; assumption.
  - destruct M as (_ & M3 & M4 & _). repeat split; rewrite ?M1, ?M2; try assumption.
    + rewrite M3. apply (fits_mod 2). discriminate.
    + rewrite M4. apply (fits_mod 4). discriminate.
    + apply Forall_forall. intros c H. cbn [step] in E. unfold mbind in E.
      destruct (createConnection a b w) as [q w1] eqn:EC.
      assert (w1 = w') as -> by (destruct q; injection E as _ <-; reflexivity).
      destruct (create_key _ _ _ _ _ EC c H) as [H0|H0].
      * rewrite Forall_forall in I5. auto.
      * rewrite H0. repeat split; assumption.
  - destruct M as [(_ & _ & M)|[_ M]]; [|auto]. rewrite M. repeat split; try assumption. cbn [se_conns set_conns].
    apply Forall_forall. intros c H. rewrite Forall_forall in I5. apply I5. eapply list_remove_in, H.
Qed.

(** ** Histories *)
Lemma ctl_frames_app a b : ctl_frames (a ++ b) = ctl_frames a ++ ctl_frames b.
Proof. apply flat_map_app. Qed.
Lemma frames_talk es : ctl_frames es = ctl_frames (ctl_talk es).
Proof. induction es as [|[i ? ? ?|i ? ?|i ?|i ?] es IH]; [reflexivity|try destruct i; cbn; first [exact IH|f_equal; exact IH]..]. Qed.
Lemma history_asked u ops : forall w rs w' es, session_ok w -> user_memory u w -> Forall (op_ok u) ops -> Forall typed ops -> in_types (w_se w) ->
  exec ops w = (rs, w') -> gained w w' es ->
  Forall2 (fun x bs => asked u (fst x) (snd x) bs) (asking ops w) (ctl_frames es).
Proof.
  induction ops as [|o ops IH]; intros w rs w' es S0 U F T I E G.
  - injection E as _ <-. unfold gained in G. rewrite <- (app_nil_r (w_net w)) in G at 1. apply app_inv_head in G. subst es. constructor.
  - rewrite exec_cons in E. unfold asking. rewrite calls_cons. destruct (step o w) as [r w1] eqn:Es.
    inversion_clear F as [|? ? F1 F2]. inversion_clear T as [|? ? T1 T2].
    pose proof (step_one u o w r w1 S0 U F1 Es) as (G1 & G2 & G3 & G4 & G5 & _).
    pose proof (step_in_types _ _ _ _ I Es) as I1.
    assert (S1 : session_ok w1) by (eapply session_keeps; eassumption).
    assert (U1 : user_memory u w1) by (eapply user_kept; eassumption).
    assert (X : exists es1 es2, es = es1 ++ es2 /\ gained w w1 es1 /\
      Forall2 (fun x bs => asked u (fst x) (snd x) bs)
        (map (fun x => match x with (o, w1, _, _) => (o, w_se w1) end) (filter asks match r with Ret _ | Throw _ _ => calls ops w1 | _ => [] end)) (ctl_frames es2)).
    { destruct G5 as (es1 & N1 & _). exists es1.
      assert (K : forall rs2, exec ops w1 = (rs2, w') -> exists es2, es = es1 ++ es2 /\ gained w w1 es1 /\
        Forall2 (fun x bs => asked u (fst x) (snd x) bs) (asking ops w1) (ctl_frames es2)).
      { intros rs2 E2. destruct (exec_grows u ops _ _ _ S1 U1 F2 E2) as (_ & _ & es2 & N2 & _). exists es2.
        split; [|split; [exact N1|eapply IH; eassumption]]. unfold gained in *. rewrite N2, N1, <- app_assoc in G. apply app_inv_head in G. congruence. }
      destruct r; [destruct (exec ops w1) as [rs2 w2] eqn:E2; injection E as _ ->; eapply K; reflexivity..| |];
        injection E as _ ->; exists []; rewrite app_nil_r; (split; [|split; [exact N1|constructor]]); unfold gained in *; rewrite N1 in G; apply app_inv_head in G; congruence. }
    destruct X as (es1 & es2 & -> & N1 & X). rewrite ctl_frames_app. cbn [filter].
    destruct G5 as (es0 & N0 & G5). assert (es0 = es1) as -> by (unfold gained in N1; rewrite N0 in N1; apply app_inv_head in N1; exact N1).
    assert (A : asks (o, w, r, w1) = PeanoNat.Nat.ltb 0 (List.length (ctl_frames es1))).
    { cbn [asks]. rewrite N0, ctl_frames_app, app_length. destruct (PeanoNat.Nat.ltb_spec 0 (List.length (ctl_frames es1))); [apply PeanoNat.Nat.ltb_lt|apply PeanoNat.Nat.ltb_ge]; lia. }
    rewrite A, (frames_talk es1). destruct G5 as [[_ G5]|[_ (bs & cmd & payload & n & R & _ & _ & G5)]].
    + rewrite G5. exact X.
    + assert (V : ctl_frames (ctl_talk es1) = [bs]) by (destruct G5 as [->|[got ->]]; reflexivity). rewrite V.
      cbn [List.length app]. change (PeanoNat.Nat.ltb 0 1) with true. cbn [map]. constructor; [|exact X].
      cbn [fst snd]. destruct S0 as (_ & S0 & _). repeat split; try assumption; apply I.
Qed.

(** ** One frame after another *)
Lemma frames_concat {A B} (P : A -> list byte -> Prop) (Q : B -> list byte -> Prop) :
  (forall x bs, P x bs -> exists cmd id p, bs = request cmd id p /\ fits 2 cmd /\ fits 4 id /\ len p < 65536) ->
  (forall x bs, Q x bs -> exists cmd id p, bs = request cmd id p /\ fits 2 cmd /\ fits 4 id /\ len p < 65536) ->
  forall xs fs ys gs, Forall2 P xs fs -> Forall2 Q ys gs -> List.concat fs = List.concat gs -> fs = gs.
Proof.
  intros HP HQ xs fs. revert xs. induction fs as [|f fs IH]; intros xs ys gs F G E.
  - destruct gs as [|g gs]; [reflexivity|]. inversion_clear G as [|y ? ? ? G1 G2]. destruct (HQ _ _ G1) as (c & i & p & -> & _). discriminate E.
  - inversion_clear F as [|x ? ? ? F1 F2]. destruct (HP _ _ F1) as (c & i & p & -> & A1 & A2 & A3).
    destruct gs as [|g gs]; [discriminate E|]. inversion_clear G as [|y ? ? ? G1 G2]. destruct (HQ _ _ G1) as (c' & i' & p' & -> & B1 & B2 & B3).
    cbn [List.concat] in E. assert (Z : fits 4 0) by reflexivity.
    apply frame_inj in E; [|repeat split; assumption..]. destruct E as (E & <- & Er). injection E as <- <-.
    f_equal. eapply IH; eassumption.
Qed.
Lemma asked_forms u x bs : asked u (fst x) (snd x) bs -> exists cmd id p, bs = request cmd id p /\ fits 2 cmd /\ fits 4 id /\ len p < 65536.
Proof. intros A. destruct (asked_frame _ _ _ _ A) as (c & p & H). eauto. Qed.
Lemma forall2_join {A B C} (P : A -> C -> Prop) (Q : B -> C -> Prop) (R : A -> B -> Prop) : (forall a b c, P a c -> Q b c -> R a b) ->
  forall xs ys cs, Forall2 P xs cs -> Forall2 Q ys cs -> Forall2 R xs ys.
Proof. intros H xs ys cs F. revert ys. induction F; intros ys G; inversion_clear G; constructor; eauto. Qed.

Theorem bytes_determine u u' ops ops' w w' rs rs' v v' es es' :
  session_ok w -> user_memory u w -> Forall (op_ok u) ops -> Forall typed ops -> in_types (w_se w) -> exec ops w = (rs, v) -> gained w v es ->
  session_ok w' -> user_memory u' w' -> Forall (op_ok u') ops' -> Forall typed ops' -> in_types (w_se w') -> exec ops' w' = (rs', v') -> gained w' v' es' ->
  ctl_bytes es = ctl_bytes es' ->
  ctl_frames es = ctl_frames es' /\
  Forall2 (fun x y => same_request u u' (snd x) (snd y) (fst x) (fst y)) (asking ops w) (asking ops' w').
Proof.
  intros S1 U1 O1 T1 I1 E1 G1 S2 U2 O2 T2 I2 E2 G2 E.
  pose proof (history_asked u ops _ _ _ _ S1 U1 O1 T1 I1 E1 G1) as F1.
  pose proof (history_asked u' ops' _ _ _ _ S2 U2 O2 T2 I2 E2 G2) as F2.
  assert (X : ctl_frames es = ctl_frames es') by (eapply frames_concat; [apply (asked_forms u)|apply (asked_forms u')|exact F1|exact F2|exact E]).
  split; [exact X|]. rewrite <- X in F2. eapply forall2_join; [|exact F1|exact F2]. intros a b c. cbn beta. apply same_asked.
Qed.
Lemma exec_in_types ops : forall w rs w', in_types (w_se w) -> exec ops w = (rs, w') -> in_types (w_se w').
Proof.
  induction ops as [|o ops IH]; intros w rs w' I E; [injection E as _ <-; exact I|].
  rewrite exec_cons in E. destruct (step o w) as [r w1] eqn:Es. pose proof (step_in_types _ _ _ _ I Es) as I1.
  destruct r; [destruct (exec ops w1) as [rs2 w2] eqn:E2; injection E as _ <-; eauto..| |]; injection E as _ <-; exact I1.
Qed.

(** ** And conversely *)
Lemma carries_opt_inj u d a b : carries_opt u d a -> carries_opt u d b -> a = b.
Proof. destruct d as [d|]; cbn; [apply carries_inj|congruence]. Qed.
Lemma same_bytes u u' o o' s s' bs bs' : same_request u u' s s' o o' -> asked u o s bs -> asked u' o' s' bs' -> usual_ticks s -> usual_ticks s' -> bs = bs'.
Proof.
  intros R (A & _ & T & _) (A' & _ & T' & _) K K'.
  destruct o as [h hp hq| |T0 c t x y z|x y z d|a b|n| |io]; try contradiction;
  destruct o' as [h' hp' hq'| |T0' c' t' x' y' z'|x' y' z' d'|a' b'|n'| |io']; try contradiction;
  cbn [request_of same_request typed] in *.
  - congruence.
  - congruence.
  - destruct R as [R1 R2]. injection R2 as <- <- <-. congruence.
  - destruct R as (R1 & R2 & data & R3 & R4). injection R2 as <- <- <-. destruct A as (da & A1 & ->), A' as (da' & A1' & ->).
    rewrite R1, (carries_opt_inj _ _ _ _ A1 R3), (carries_opt_inj _ _ _ _ A1' R4). reflexivity.
  - destruct R as (R1 & R2 & R3 & (P1 & P2 & P3) & (Q1 & Q2 & Q3)). injection R2 as E1 E2 E3. subst bs bs'.
    unfold open_request, open_message. rewrite R1, E1, E2, E3, R3, P1, P2, P3, Q1, Q2, Q3. reflexivity.
  - destruct R as (R1 & c & c' & N1 & N2 & R2). injection R2 as E1 E2 E3.
    destruct A as (d & A1 & ->), A' as (d' & A1' & ->). rewrite N1 in A1. rewrite N2 in A1'. injection A1 as <-. injection A1' as <-.
    unfold usual_ticks in K, K'. rewrite Forall_forall in K, K'. destruct (K _ (nth_error_In _ _ N1)) as [K1 K2], (K' _ (nth_error_In _ _ N2)) as [K1' K2'].
    unfold close_request. rewrite R1, E1, E2, E3, K1, K2, K1', K2'. reflexivity.
Qed.
Lemma step_ticks o w r w' : usual_ticks (w_se w) -> step o w = (r, w') -> usual_ticks (w_se w').
Proof.
  unfold usual_ticks. intros I E. pose proof (step_moved _ _ _ _ E) as (_ & _ & M).
  destruct o as [h hp hq| |T0 c t x y z|x y z d|a b|n| |io]; cbn [moved] in M; try (rewrite M; exact I).
  - destruct M as [[_ [id M]]|[_ M]]; rewrite M; exact I.
  - destruct M as [[_ M]|[_ M]]; rewrite M; exact I.
  - destruct M as (_ & _ & _ & [(c & _ & M & _ & M2 & M3)|[_ M]]); rewrite M; [|exact I].
    apply Forall_app. split; [exact I|]. constructor; [auto|constructor].
  - destruct M as [(_ & _ & M)|[_ M]]; rewrite M; [|exact I]. cbn [se_conns set_conns].
    apply Forall_forall. intros c H. rewrite Forall_forall in I. apply I. eapply list_remove_in, H.
Qed.
Lemma exec_ticks ops : forall w rs w', usual_ticks (w_se w) -> exec ops w = (rs, w') -> usual_ticks (w_se w').
Proof.
  induction ops as [|o ops IH]; intros w rs w' I E; [injection E as _ <-; exact I|].
  rewrite exec_cons in E. destruct (step o w) as [r w1] eqn:Es. pose proof (step_ticks _ _ _ _ I Es) as I1.
  destruct r; [destruct (exec ops w1) as [rs2 w2] eqn:E2; injection E as _ <-; eauto..| |]; injection E as _ <-; exact I1.
Qed.
Lemma history_types m ctl io vd sr sn0 cid0 ops rs w' : exec ops (session_make m ctl io vd sr sn0 cid0) = (rs, w') ->
  in_types (w_se w') /\ usual_ticks (w_se w').
Proof.
  intros E. split; [eapply exec_in_types; [apply make_in_types|exact E]|eapply exec_ticks; [|exact E]].
  unfold session_make. destruct (alloc _ _). constructor.
Qed.
Lemma nodup_nth {A B} (f : A -> B) (l : list A) n m a b : NoDup (map f l) -> nth_error l n = Some a -> nth_error l m = Some b -> f a = f b -> n = m.
Proof.
  intros D E1 E2 E. rewrite NoDup_nth_error in D. apply D.
  - apply nth_error_Some. rewrite nth_error_map, E1. discriminate.
  - rewrite !nth_error_map, E1, E2. cbn. congruence.
Qed.
Lemma close_names s n n' c c' : numbers_ok s -> nth_error (se_conns s) (N.to_nat n) = Some c -> nth_error (se_conns s) (N.to_nat n') = Some c' ->
  close_request s c = close_request s c' -> n = n'.
Proof.
  intros (_ & K & D) E1 E2 E. apply N2Nat.inj. eapply nodup_nth; [exact D|exact E1|exact E2|].
  rewrite Forall_forall in K. eapply fc_inj; [eapply (K c), nth_error_In, E1|eapply (K c'), nth_error_In, E2|exact E].
Qed.
