(** Histories: requests on the wire and crashes (C40, C52). *)
From Verif Require Export PHistory.

(** ** Classes that decode without undefined behaviour *)
Ltac tm := do 5 eexists; split; [reflexivity|]; split; [eassumption|].
Lemma t_ret {T A} (a : A) : tame (T := T) (dret a).
Proof. intros m v c t bs R. tm. left. eexists. reflexivity. Qed.
Lemma t_throw {T A} e s : tame (T := T) (A := A) (dthrow e s).
Proof. intros m v c t bs R. tm. right. do 2 eexists. reflexivity. Qed.
Lemma t_mod {T} (f : T -> T) : tame (dmod f).
Proof. intros m v c t bs R. tm. left. eexists. reflexivity. Qed.
Lemma t_get {T} : tame (@dget T).
Proof. intros m v c t bs R. tm. left. eexists. reflexivity. Qed.
Lemma t_count {T} : tame (@rd_count T).
Proof. intros m v c t bs R. tm. left. eexists. reflexivity. Qed.
Lemma t_bind {T A B} (x : D T A) (f : A -> D T B) : tame x -> (forall a, tame (f a)) -> tame (dbind x f).
Proof.
  intros X F m v c t bs R. unfold dbind. destruct (X m v c t bs R) as (o & v1 & c1 & t1 & bs1 & -> & R1 & [[a ->]|(e & s & ->)]).
  - eapply F. eassumption.
  - tm. right. do 2 eexists. reflexivity.
Qed.
Lemma t_raw {T} n (get : T -> list byte) set : tame (rd_raw n get set).
Proof.
  intros m v c t bs R. unfold rd_raw. pose proof (reads_len _ _ _ R) as L. destruct (v_len v <? n) eqn:E.
  - tm. right. do 2 eexists. reflexivity.
  - apply N.ltb_ge in E. rewrite (reads_prefix _ _ _ _ R) by lia. do 5 eexists. split; [reflexivity|]. split; [apply reads_drop; eassumption|]. left. eexists. reflexivity.
Qed.
Lemma t_uint {T} k (get : T -> N) set : tame (rd_uint k get set).
Proof. apply t_raw. Qed.
Lemma t_local {T} k : tame (T := T) (rd_local k).
Proof.
  intros m v c t bs R. unfold rd_local. pose proof (reads_len _ _ _ R) as L. destruct (v_len v <? N.of_nat k) eqn:E.
  - tm. right. do 2 eexists. reflexivity.
  - apply N.ltb_ge in E. rewrite (reads_prefix _ _ _ _ R) by lia. do 5 eexists. split; [reflexivity|]. split; [apply reads_drop; eassumption|]. left. eexists. reflexivity.
Qed.
Lemma t_skip {T} n : tame (T := T) (rd_skip n).
Proof.
  intros m v c t bs R. unfold rd_skip. destruct (v_len v <? n).
  - tm. right. do 2 eexists. reflexivity.
  - do 5 eexists. split; [reflexivity|]. split; [apply reads_drop; eassumption|]. left. eexists. reflexivity.
Qed.
Lemma t_zoom {T U A} (get : T -> U) put (x : D U A) : tame x -> tame (dzoom get put x).
Proof. intros X m v c t bs R. unfold dzoom. destruct (X m v c (get t) bs R) as (o & v1 & c1 & t1 & bs1 & -> & R1 & H). tm. assumption. Qed.
Lemma t_dlocal {T U} (u : U) x : tame x -> tame (T := T) (dlocal u x).
Proof.
  intros X m v c t bs R. unfold dlocal. destruct (X m v c u bs R) as (o & v1 & c1 & t1 & bs1 & -> & R1 & [[a ->]|(e & s & ->)]).
  - tm. left. eexists. reflexivity.
  - tm. right. do 2 eexists. reflexivity.
Qed.
Lemma t_local_sb {T} n : tame (T := T) (dlocal sb_empty (sb_deserialize_len n)).
Proof.
  intros m v c t bs R. unfold dlocal, sb_deserialize_len, dbind, rd_is_buffer, sb_delete, dbind, dget. cbn [sb_alloc sb_empty].
  unfold dret, rd_view. destruct (v_len v <? n); unfold dmod.
  - tm. right. do 2 eexists. reflexivity.
  - do 5 eexists. split; [reflexivity|]. split; [apply reads_drop; eassumption|]. left. eexists. reflexivity.
Qed.
Create HintDb tame.
#[export] Hint Resolve t_ret t_throw t_mod t_get t_count t_raw t_uint t_local t_skip t_local_sb : tame.
Ltac taming := repeat first
  [ solve [auto with tame] | apply t_bind; [|intros ?] | apply t_zoom | match goal with |- tame (if ?b then _ else _) => destruct b end ].
Lemma t_hdr : tame hdr_deserialize. Proof. unfold hdr_deserialize. taming. Qed.
#[export] Hint Resolve t_hdr : tame.
Lemma t_ep_len n : tame (ep_deserialize_len n). Proof. unfold ep_deserialize_len. taming. Qed.
Lemma t_it : tame it_deserialize. Proof. unfold it_deserialize, it_deserializeData. taming. Qed.
Lemma t_it_len n : tame (it_deserialize_len n). Proof. unfold it_deserialize_len, it_deserializeData. taming. Qed.
Lemma t_cpf : tame cpf_deserialize.
Proof.
  unfold cpf_deserialize. taming. generalize (N.to_nat a0). clear. induction n; cbn [cpf_loop]; [apply t_ret|].
  apply t_bind; [apply t_dlocal, t_it|intros i]. taming.
Qed.
Lemma t_ms n : tame (ms_deserialize_len n).
Proof. unfold ms_deserialize_len, ms_readData. taming; destruct (positive_int _); taming. Qed.
Lemma t_rg : tame rg_deserialize. Proof. unfold rg_deserialize. taming. Qed.
Lemma t_sa : tame sa_deserialize. Proof. unfold sa_deserialize. taming. Qed.
Lemma t_id : tame id_deserialize. 
Proof. assert (H : tame id_flat) by (unfold id_flat; taming). intros m v c t. rewrite id_flat_eq. apply H. Qed.
Lemma t_fs : tame fs_deserialize. Proof. unfold fs_deserialize. taming. Qed.
Lemma t_cs : tame cs_deserialize. Proof. unfold cs_deserialize. taming. Qed.
Lemma t_virtual {T} check (x : D T unit) sb : tame x -> tame_cls (mkCls (DLVirtual check) x sb).
Proof.
  intros K n. unfold deserialize_len. cbn [c_deslen c_des]. destruct (check 0 n) as [[e s]|]; [apply t_throw|exact K].
Qed.
Lemma tame_all :
  tame_cls hdr_cls /\ tame_cls ep_cls /\ tame_cls it_cls /\ tame_cls cpf_cls /\ tame_cls mq_cls /\ tame_cls ms_cls /\
  tame_cls rg_cls /\ tame_cls sa_cls /\ tame_cls id_cls /\
  tame_cls fo_cls /\ tame_cls fc_cls /\ tame_cls fs_cls /\ tame_cls cs_cls /\ forall k, tame_cls (prim_cls k).
Proof.
  repeat match goal with |- _ /\ _ => split end; try (intros k); try (apply t_virtual).
  - apply t_hdr.
  - intros n; apply t_ep_len.
  - intros n; apply t_it_len.
  - apply t_cpf.
  - intros n; apply t_throw.
  - intros n; apply t_ms.
  - apply t_rg.
  - apply t_sa.
  - apply t_id.
  - intros n; apply t_throw.
  - intros n; apply t_throw.
  - apply t_fs.
  - apply t_cs.
  - apply t_uint.
Qed.

(** ** Reading an attribute into any class *)
Lemma get_any {T} (c : cls T) t w x y z : rbuf_ok w -> x < 256 -> y < 256 -> z < 256 -> (c_sb c <> None \/ keeps_cls c) ->
  let req := get_request (se_id (w_se w)) x y z in
  exists o t' w', getSingleAttributeSerializable c x y z t w = (o, t', w') /\ exchanged w req w' /\
  (forall u, o = Undef u -> (c_sb c <> None \/ tame_cls c) ->
     exists got, reply_of (w_ctl w) req = Reply got /\ (crashes (se_id (w_se w)) got \/ exists sv a, answers (se_id (w_se w)) got sv 0 a [])).
Proof.
  intros R Hx Hy Hz K req.
  destruct (rr_command w 0x0E false [SClass x; SInstance y; SAttribute z] None [] R) as (o & w1 & E & X & O); [reflexivity|reflexivity|].
  change (u8 0x0E) with 0x0E in *. fold (attribute_path x y z) in *. fold (get_request (se_id (w_se w)) x y z) in *. fold req in X, O |- *.
  unfold getSingleAttributeSerializable.
  rewrite path_cia_of by assumption.
  rewrite E. unfold rr_outcome in O. destruct o as [resp|e s|u|].
  - destruct (reply_of (w_ctl w) req) as [| | |got]; [destruct O as [? O]; discriminate|discriminate O|destruct O as [? O]; discriminate|].
    destruct O as [(sv & a & q & resp' & A & Er & S1 & S2 & H1 & H2)|[[_ O]|(_ & _ & ? & O)]]; try discriminate. injection Er as <-.
    unfold m_copy. destruct (ms_data (rr_ext resp)) as [s|] eqn:Ed.
    2:{ cbn [holds] in H2. subst q. do 3 eexists. split; [reflexivity|]. split; [assumption|]. intros u _ _. exists got. split; [reflexivity|]. right. eauto. }
    cbn [holds] in H2. destruct H2 as (Nq & sb & -> & Rq).
    destruct (copy_serializable c (ser_of_sbuf sb) (w_mem w1) t) as [[o m'] t'] eqn:Ec.
    assert (m' = w_mem w1 /\ (forall u, o = Undef u -> (c_sb c <> None \/ tame_cls c) -> False)) as [-> NU].
    { revert Ec. unfold copy_serializable. cbn [s_length s_sbuf ser_of_sbuf]. destruct (c_sb c) as [[g p]|] eqn:Cs.
      - intros Ec. injection Ec as <- <- <-. split; [reflexivity|]. intros u F; discriminate.
      - destruct K as [K|[_ K]]; [contradiction|]. unfold run_reader.
        destruct (K (v_len (sb_data sb)) (w_mem w1) (sb_data sb) 0 t) as (o1 & v1 & c1 & t1 & E1). rewrite E1.
        intros Ec. injection Ec as <- <- <-. split; [reflexivity|]. intros u -> [F|F]; [contradiction|].
        destruct (F (v_len (sb_data sb)) (w_mem w1) (sb_data sb) 0 t q Rq) as (o2 & v2 & c2 & t2 & bs2 & E2 & _ & D).
        rewrite E1 in E2. injection E2 as <- _ _ _. destruct D as [[? D]|(? & ? & D)]; discriminate. }
    do 3 eexists. split; [reflexivity|]. rewrite set_mem_same. split; [assumption|]. intros u Eu F. destruct (NU u Eu F).
  - do 3 eexists. split; [reflexivity|]. split; [assumption|]. intros u0 F. discriminate.
  - do 3 eexists. split; [reflexivity|]. split; [assumption|]. intros u0 _ _.
    destruct (reply_of (w_ctl w) req) as [| | |got]; [destruct O as [? O]; discriminate|discriminate O|destruct O as [? O]; discriminate|].
    destruct O as [(sv & a & q & resp' & A & Er & _)|[[C O]|(_ & _ & ? & O)]]; try discriminate. exists got. auto.
  - do 3 eexists. split; [reflexivity|]. split; [assumption|]. intros u0 F. discriminate.
Qed.

(** ** Sizes of the requests *)
Lemma len_rr_request sv p d : len (rr_request sv p d) = 17 + len p + len d.
Proof. unfold rr_request, rr, cpf, items, item, router_request. cbn [flat_map fst snd]. rewrite ?len_app, ?len_le, ?len_cons, ?len_nil, ?len_app, ?len_le. lia. Qed.
Lemma fits_request cmd id payload : cmd < 65536 -> fits 4 id -> len payload < 65536 -> frame_fits cmd id 0 0 0 0 payload.
Proof. intros C I L. unfold frame_fits. repeat split; try assumption; try reflexivity. Qed.
Lemma len_open_message v s n i o t : len (open_message v s n i o t) = 48.
Proof. unfold open_message, forward_open. rewrite ?len_app, ?len_le, ?len_epath, ?len_cons, ?len_nil. reflexivity. Qed.
Lemma len_close_message a b c d e ss : len ss = 2 -> len (forward_close a b c d e ss) = 16.
Proof. intros L. unfold forward_close. rewrite ?len_app, ?len_le, ?len_epath, ?len_cons, ?len_nil, L. reflexivity. Qed.

(** ** What stays true *)
Lemma user_kept u w w' : user_memory u w -> mem_kept w w' -> w_rbuf w' = w_rbuf w -> user_memory u w'.
Proof.
  intros [H N1] K E. split; [|rewrite E; assumption]. intros b bl B.
  apply K; [intros ->; exact (N1 _ B)|]. apply H. assumption.
Qed.
Lemma ctl_talk_app a b : ctl_talk (a ++ b) = ctl_talk a ++ ctl_talk b.
Proof. apply flat_map_app. Qed.
Lemma ctl_talk_events k bs : exists n, ctl_talk (events k bs) = [ESend Ctl bs n] \/ exists got, ctl_talk (events k bs) = [ESend Ctl bs n; ERecv Ctl got].
Proof.
  unfold events, talk. destruct (sent k bs) as [n|]; [exists (Some n)|exists None; left; reflexivity].
  destruct (so_recv k) as [|[d|] r]; [left; reflexivity|right; eexists; reflexivity|right; eexists; reflexivity].
Qed.
Lemma ctl_talk_closing c i : ctl_talk (closing c i) = [].
Proof. unfold closing. destruct (close_fails c); reflexivity. Qed.
Lemma session_keeps w o r w' : session_ok w -> rbuf_ok w' -> step o w = (r, w') -> fits 4 (se_id (w_se w')) -> session_ok w'.
Proof.
  intros (_ & _ & F) R E I. split; [assumption|]. split; [assumption|]. apply step_moved in E. destruct E as (_ & _ & E).
  destruct o; try (rewrite E; assumption).
  - destruct E as [(_ & id & ->)|(_ & ->)]; assumption.
  - destruct E as [(_ & ->)|(_ & ->)]; assumption.
  - destruct E as (_ & _ & _ & [(c & _ & -> & _ & T1 & T2)|(_ & ->)]); [|assumption].
    apply Forall_app. split; [assumption|]. constructor; [|constructor]. rewrite T1, T2. split; reflexivity.
  - destruct E as [(_ & _ & ->)|(_ & ->)]; [|assumption]. cbn [se_conns set_conns]. rewrite Forall_forall in *.
    intros x X. apply F. eapply list_remove_in; eassumption.
Qed.
Lemma mbind_unit {A B} (x : M A) (f : A -> B) w o w' : x w = (o, w') ->
  (let* a := x in mret (f a)) w = (match o with Ret a => Ret (f a) | Throw c s => Throw c s | Undef u => Undef u | Stuck => Stuck end, w').
Proof. intros E. unfold mbind. rewrite E. destruct o; reflexivity. Qed.

Definition step_good (u : heap) (o : op) (w : world) (r : outcome result) (w' : world) : Prop :=
  rbuf_ok w' /\ mem_kept w w' /\ w_rbuf w' = w_rbuf w /\ fits 4 (se_id (w_se w')) /\ one_frame u o w w' /\
  (match o with OpGet T c _ _ _ _ => c_sb c <> None \/ tame_cls c | _ => True end -> forall ub, r = Undef ub -> crash_cause o w).
Lemma one_exchange u o w w' bs cmd payload : ~ silent o w -> request_of u o (w_se w) bs ->
  bs = frame cmd (handle_of o (w_se w)) 0 0 0 0 payload -> frame_fits cmd (handle_of o (w_se w)) 0 0 0 0 payload ->
  w_net w' = w_net w ++ events (w_ctl w) bs -> one_frame u o w w'.
Proof.
  intros S R E F N1. exists (events (w_ctl w) bs). split; [assumption|]. right. split; [assumption|].
  destruct (ctl_talk_events (w_ctl w) bs) as [n T]. exists bs, cmd, payload, n. auto.
Qed.
Lemma step_one u o w r w' : session_ok w -> user_memory u w -> op_ok u o -> step o w = (r, w') -> step_good u o w r w'.
Proof.
  intros (R & I & F) U K. destruct U as [UH UN]. unfold step_good.
  destruct o as [h p q| |T c t x y z|x y z d|a b|n| |p]; cbn [step op_ok] in *.
  - destruct (session_open_spec w h p q R) as (o & w1 & E & Rb & Ro & Mk & S).
    rewrite (mbind_unit _ (fun _ => RUnit) _ _ _ E). intros H. injection H as <- <-.
    split; [assumption|]. split; [assumption|]. split; [assumption|].
    destruct (open_fails (w_ctl w)) eqn:F1; [|destruct (open_fails (w_io w)) eqn:F2].
    + destruct S as (S1 & (s & ->) & ->). split; [assumption|]. split; [|discriminate].
      eexists. split; [exact S1|]. left. split; [left; assumption|reflexivity].
    + destruct S as (S1 & (s & ->) & ->). split; [assumption|]. split; [|discriminate].
      eexists. split; [exact S1|]. left. split; [right; assumption|reflexivity].
    + destruct S as (tail & O & S1).
      assert (ctl_talk tail = [] /\ fits 4 (se_id (w_se w1)) /\ (forall ub, o = Undef ub -> crash_cause (OpOpen h p q) w)) as (T0 & I1 & C1).
      { unfold open_outcome in O. unfold crash_cause. destruct (reply_of (w_ctl w) register_request) as [| | |got].
        - destruct O as ((s & ->) & -> & ->). split; [reflexivity|]. split; [assumption|discriminate].
        - destruct O as (-> & -> & ->). split; [reflexivity|]. split; [assumption|discriminate].
        - destruct O as ((s & ->) & -> & ->). split; [reflexivity|]. split; [assumption|discriminate].
        - destruct O as [(ses & G & -> & -> & ->)|[(G & -> & -> & ->)|(_ & _ & -> & -> & O)]].
          + split; [reflexivity|]. split; [|discriminate]. destruct G as (pl & (st & c0 & c1 & oo & rest & Ff & _) & _). cbn [se_id set_id]. apply Ff.
          + split; [reflexivity|]. split; [assumption|]. intros ub _. exists got. auto.
          + split; [apply ctl_talk_closing|]. split; [assumption|]. intros ub ->. destruct (closed _ _); destruct O as [? O]; discriminate. }
      split; [assumption|]. split.
      * eexists. split; [exact S1|]. right. split; [intros [?|?]; congruence|].
        destruct (ctl_talk_events (w_ctl w) register_request) as [n T]. exists register_request, 0x65, (registration 1 0), n.
        split; [reflexivity|]. split; [reflexivity|]. split; [apply fits_request; reflexivity|].
        rewrite !ctl_talk_app, T0, app_nil_r. cbn [ctl_talk flat_map app]. exact T.
      * intros _ ub. destruct o; intros Eu; try discriminate. eapply C1. reflexivity.
  - destruct (session_close_spec w R) as (o & w1 & E & Rb & Ro & Mk & S).
    rewrite (mbind_unit _ (fun _ => RUnit) _ _ _ E). intros H. injection H as <- <-.
    split; [assumption|]. split; [assumption|]. split; [assumption|].
    assert (FF : frame_fits 0x66 (se_id (w_se w)) 0 0 0 0 []) by (apply fits_request; [reflexivity|assumption|reflexivity]).
    destruct (sent (w_ctl w) (unregister (se_id (w_se w)))) as [n|].
    + destruct S as (S1 & S2). assert (fits 4 (se_id (w_se w1)) /\ (forall ub, o <> Undef ub)) as [I1 NU].
      { destruct (closed _ _).
        - destruct S2 as [-> ->]. split; [reflexivity|discriminate].
        - destruct S2 as [[s ->] ->]. split; [assumption|discriminate]. }
      split; [assumption|]. split.
      * eexists. split; [exact S1|]. right. split; [auto|]. exists (unregister (se_id (w_se w))), 0x66, [], (Some n).
        split; [reflexivity|]. split; [reflexivity|]. split; [assumption|]. left. rewrite ctl_talk_app, ctl_talk_closing. reflexivity.
      * intros _ ub. destruct o; intros Eu; try discriminate. destruct (NU u0 eq_refl).
    + destruct S as ((s & ->) & Es & _ & S1). rewrite Es. split; [assumption|]. split; [|discriminate].
      eexists. split; [exact S1|]. right. split; [auto|]. exists (unregister (se_id (w_se w))), 0x66, [], None.
      split; [reflexivity|]. split; [reflexivity|]. split; [assumption|]. left. reflexivity.
  - destruct K as (Kx & Ky & Kz & Kc).
    destruct (get_any c t w x y z R Kx Ky Kz Kc) as (o & t' & w1 & E & X & C). rewrite E.
    destruct X as (X1 & X2 & X3 & X4 & X5 & X6 & X7). intros H.
    assert (w' = w1 /\ (forall ub, r = Undef ub -> exists ub', o = Undef ub')) as [-> RO].
    { destruct o; injection H as <- <-; (split; [reflexivity|]); intros ub Eu; try discriminate. eexists. reflexivity. }
    split; [assumption|]. split; [assumption|]. split; [assumption|]. rewrite X1. split; [assumption|]. split.
    + eapply one_exchange with (cmd := 0x6F); [intros []|reflexivity|reflexivity| |exact X6].
      apply fits_request; [reflexivity|assumption|]. rewrite len_rr_request. unfold attribute_path. rewrite len_epath. reflexivity.
    + intros Tc ub Eu. destruct (RO _ Eu) as [ub' Eo]. exact (C _ Eo Tc).
  - destruct K as (Kx & Ky & Kz & bs & Kd & Kl).
    destruct (set_attribute w x y z d bs R Kx Ky Kz (carries_opt_hext _ _ _ _ UH Kd)) as (o & w1 & E & X & C).
    rewrite (mbind_unit _ (fun _ => RUnit) _ _ _ E). intros H. injection H as <- <-.
    destruct X as (X1 & X2 & X3 & X4 & X5 & X6 & X7).
    split; [assumption|]. split; [assumption|]. split; [assumption|]. rewrite X1. split; [assumption|]. split.
    + eapply one_exchange with (cmd := 0x6F); [intros []|exists bs; split; [assumption|reflexivity]|reflexivity| |exact X6].
      apply fits_request; [reflexivity|assumption|]. rewrite len_rr_request. unfold attribute_path. rewrite len_epath.
      change (len [SClass x; SInstance y; SAttribute z]) with 3. clear - Kl. lia.
    + intros _ ub. destruct o; intros Eu; try discriminate. cbn [crash_cause]. exists bs.
      destruct (reply_of _ _) as [| | |got]; [destruct C as [? C]; discriminate|discriminate C|destruct C as [? C]; discriminate|].
      destruct C as [[_ C]|[[C _]|(_ & _ & ? & C)]]; try discriminate. exists got. auto.
  - destruct K as [Ka Kb].
    destruct (create_connection w a b R Ka Kb) as (o & w1 & E & X & Nm & C).
    rewrite (mbind_unit _ (fun n => RNumber n) _ _ _ E). intros H. injection H as <- <-.
    destruct X as (X2 & X3 & X4 & X5 & X6 & X7).
    split; [assumption|]. split; [assumption|]. split; [assumption|]. destruct Nm as (-> & _). split; [assumption|]. split.
    + eapply one_exchange with (cmd := 0x6F); [intros []|reflexivity|reflexivity| |exact X6].
      apply fits_request; [reflexivity|assumption|]. rewrite len_rr_request, len_open_message. unfold manager_path. rewrite len_epath. reflexivity.
    + intros _ ub. destruct o; intros Eu; try discriminate. cbn [crash_cause]. unfold create_outcome in C.
      destruct (reply_of _ _) as [| | |got]; [destruct C as [[? C] _]; discriminate|destruct C as [C _]; discriminate|destruct C as [[? C] _]; discriminate|].
      exists got. split; [reflexivity|].
      destruct C as [(?&?&?&?&?&?&?&?&_&_&_&C&_)|(_ & [(?&?&?&?&?&?&?&?&?&?&?&_&_&_&C)|[(?&?&?&?&_&_&_&C)|[[C _]|(_&_&?&C)]]])]; try discriminate. exact C.
  - destruct (nth_error (se_conns (w_se w)) (N.to_nat n)) as [c|] eqn:En.
    + rewrite Forall_forall in F. destruct (F c) as [F1 F2]; [eapply nth_error_In; eassumption|].
      destruct (close_connection w n c R En F1 F2) as (o & w1 & E & X & C).
      rewrite (mbind_unit _ (fun _ => RUnit) _ _ _ E). intros H. injection H as <- <-.
      destruct X as (X2 & X3 & X4 & X5 & X6 & X7).
      split; [assumption|]. split; [assumption|]. split; [assumption|].
      assert (se_id (w_se w1) = se_id (w_se w)) as ->.
      { apply drop_se in E. destruct E as [(_ & _ & ->)|(_ & ->)]; reflexivity. }
      split; [assumption|]. split.
      * eapply one_exchange with (cmd := 0x6F); [cbn [silent]; congruence|exists c; split; [assumption|reflexivity]|reflexivity| |exact X6].
        apply fits_request; [reflexivity|assumption|]. rewrite len_rr_request, len_close_message by reflexivity. unfold manager_path. rewrite len_epath. reflexivity.
      * intros _ ub. destruct o; intros Eu; try discriminate. cbn [crash_cause]. rewrite En. unfold drop_conn_outcome in C.
        destruct (reply_of _ _) as [| | |got]; [destruct C as [[? C] _]; discriminate|destruct C as [C _]; discriminate|destruct C as [[? C] _]; discriminate|].
        exists got. split; [reflexivity|].
        destruct C as [(?&?&?&_&_&C&_)|(_ & [(?&?&?&?&?&?&?&_&_&_&C)|[(?&?&?&?&_&_&_&C)|[[C _]|(_&_&?&C)]]])]; try discriminate. exact C.
    + rewrite (mbind_unit _ (fun _ => RUnit) _ _ _ (close_connection_bad w n En)). intros H. injection H as <- <-.
      split; [assumption|]. split; [intros b0 x0 _ H0; exact H0|]. split; [reflexivity|]. split; [assumption|]. split.
      * exists []. split; [symmetry; apply app_nil_r|]. left. split; [assumption|reflexivity].
      * intros _ ub _. cbn [crash_cause]. rewrite En. exact Logic.I.
  - destruct (receive_io w R) as (o & w1 & E & X1 & X2 & X3 & X4 & X5 & _ & X6 & C).
    rewrite (mbind_unit _ (fun p => RItems p) _ _ _ E). intros H. injection H as <- <-.
    split; [assumption|]. split; [assumption|]. split; [assumption|]. rewrite X1. split; [assumption|]. split.
    + eexists. split; [exact X6|]. left. split; [exact Logic.I|]. unfold io_events. destruct (so_recv (w_io w)) as [|[?|] ?]; reflexivity.
    + intros _ ub. destruct o; intros Eu; try discriminate. exfalso.
      destruct (so_recv (w_io w)) as [|[d|] ?]; [discriminate| |destruct C as [? C]; discriminate].
      destruct C as [(?&?&?&_&_&C&_)|(_&?&C)]; discriminate.
  - destruct K as (xs & K).
    destruct (send_io w p xs R (carries_hext _ _ _ _ UH K)) as (o & w1 & E & X1 & X2 & X3 & X4 & X5 & _ & C).
    rewrite (mbind_unit _ (fun _ => RUnit) _ _ _ E). intros H. injection H as <- <-.
    split; [assumption|]. split; [assumption|]. split; [assumption|]. rewrite X1. split; [assumption|]. split.
    + destruct (sent (w_io w) (cpf xs)); destruct C as [_ C]; eexists; (split; [exact C|]); left; (split; [exact Logic.I|reflexivity]).
    + intros _ ub. destruct o; intros Eu; try discriminate. exfalso. destruct (sent _ _); [destruct C as [C _]; discriminate|destruct C as [[? C] _]; discriminate].
Qed.

(** ** Histories *)
Lemma calls_one u ops : forall w, session_ok w -> user_memory u w -> Forall (op_ok u) ops ->
  Forall (fun x => match x with (o, w1, r, w2) => session_ok w1 /\ user_memory u w1 /\ op_ok u o /\ step o w1 = (r, w2) /\ step_good u o w1 r w2 end) (calls ops w).
Proof.
  induction ops as [|o ops IH]; intros w S U K; cbn [calls]; [constructor|]. inversion K as [|? ? K1 K2]; subst.
  destruct (step o w) as [r w'] eqn:E. pose proof (step_one _ _ _ _ _ S U K1 E) as G.
  constructor; [auto|]. destruct G as (G1 & G2 & G3 & G4 & _).
  assert (S' : session_ok w') by (eapply session_keeps; eassumption).
  assert (U' : user_memory u w') by (eapply user_kept; eassumption).
  destruct r; try constructor; apply IH; assumption.
Qed.
Lemma history_frames u ops w : session_ok w -> user_memory u w -> Forall (op_ok u) ops ->
  Forall (fun x => match x with (o, w1, r, w2) => one_frame u o w1 w2 end) (calls ops w).
Proof.
  intros S U K. eapply Forall_impl; [|exact (calls_one u ops w S U K)]. intros [[[o w1] r] w2] (_ & _ & _ & _ & G). apply G.
Qed.
(** The calls account for every event of the history. *)
Lemma calls_exec ops : forall w rs w', exec ops w = (rs, w') -> map (fun x => match x with (o, w1, r, w2) => r end) (calls ops w) = rs.
Proof.
  induction ops as [|o ops IH]; intros w rs w' E; [injection E as <- <-; reflexivity|].
  rewrite exec_cons in E. cbn [calls]. destruct (step o w) as [r w1]. cbn [map].
  destruct r; try (injection E as <- <-; reflexivity); destruct (exec ops w1) as [rs1 w2] eqn:E2; injection E as <- <-; f_equal; eapply IH; eassumption.
Qed.
Lemma calls_chain ops : forall w rs w', exec ops w = (rs, w') ->
  match calls ops w with [] => w' = w | (o, w1, r, w2) :: _ => w1 = w end /\
  (forall a o1 w1 r1 w2 o2 w3 r2 w4 b, calls ops w = a ++ (o1, w1, r1, w2) :: (o2, w3, r2, w4) :: b -> w3 = w2) /\
  (forall a o1 w1 r1 w2, calls ops w = a ++ [(o1, w1, r1, w2)] -> w' = w2).
Proof.
  induction ops as [|o ops IH]; intros w rs w' E.
  - injection E as <- <-. split; [reflexivity|]. split; intros; destruct a; discriminate.
  - rewrite exec_cons in E. cbn [calls]. destruct (step o w) as [r w1] eqn:E1. split; [reflexivity|].
    assert (T : forall l, l = match r with Ret _ | Throw _ _ => calls ops w1 | _ => [] end ->
      match l with [] => w' = w1 | (o, w1', r, w2) :: _ => w1' = w1 end /\
      (forall a o1 w1 r1 w2 o2 w3 r2 w4 b, l = a ++ (o1, w1, r1, w2) :: (o2, w3, r2, w4) :: b -> w3 = w2) /\
      (forall a o1 w1 r1 w2, l = a ++ [(o1, w1, r1, w2)] -> w' = w2)).
    { intros l ->. destruct r; try (injection E as <- <-; split; [reflexivity|]; split; intros; destruct a; discriminate);
        destruct (exec ops w1) as [rs1 w2] eqn:E2; injection E as <- <-; exact (IH _ _ _ E2). }
    specialize (T _ eq_refl). set (l := match r with Ret _ | Throw _ _ => calls ops w1 | _ => [] end) in *. clearbody l. destruct T as (T1 & T2 & T3). split.
    + intros a o1 v1 r1 v2 o2 v3 r2 v4 b Q. destruct a as [|x a].
      * injection Q as <- <- <- <- ->. exact T1.
      * injection Q as <- Q. eapply T2; eassumption.
    + intros a o1 v1 r1 v2 Q. destruct a as [|x a].
      * injection Q as <- <- <- <- ->. exact T1.
      * injection Q as <- Q. eapply T3; eassumption.
Qed.
Lemma crash_step u o w ub w' : session_ok w -> user_memory u w -> op_ok u o ->
  match o with OpGet T c _ _ _ _ => c_sb c <> None \/ tame_cls c | _ => True end ->
  step o w = (Undef ub, w') -> crash_cause o w.
Proof. intros S U K T E. destruct (step_one _ _ _ _ _ S U K E) as (_ & _ & _ & _ & _ & C). exact (C T _ eq_refl). Qed.
