(** * PWhole: whole lives of a session (C116). *)
From Verif Require Export Vocab22 PMachine PShare.
Local Open Scope N_scope.

(** ** Bytes of requests *)
Lemma request_head cmd id p cmd' id' p' : request cmd id p = request cmd' id' p' -> le 2 cmd = le 2 cmd' /\ le 4 id = le 4 id'.
Proof.
  unfold request, frame, header. repeat rewrite <- app_assoc. intros E.
  apply app_eq_len in E; [|rewrite !len_le; reflexivity]. destruct E as [E1 E].
  apply app_eq_len in E; [|rewrite !len_le; reflexivity]. destruct E as [_ E].
  apply app_eq_len in E; [|rewrite !len_le; reflexivity]. destruct E as [E2 _]. auto.
Qed.
Lemma request_id id p id' p' cmd : fits 4 id -> fits 4 id' -> request cmd id p = request cmd id' p' -> id = id'.
Proof. intros F F' E. apply request_head in E. destruct E as [_ E]. exact (le_inj _ _ _ F F' E). Qed.
Lemma not_register id p : request 0x6F id p <> register_request.
Proof. intros E. apply request_head in E. destruct E as [E _]. vm_compute in E. discriminate. Qed.
Lemma not_unregister id p id' : request 0x6F id p <> unregister id'.
Proof. intros E. apply request_head in E. destruct E as [E _]. vm_compute in E. discriminate. Qed.
Lemma register_not_unregister id' : register_request <> unregister id'.
Proof. intros E. apply request_head in E. destruct E as [E _]. vm_compute in E. discriminate. Qed.

(** ** One request *)
Lemma meets_none l l' : meets l [] l' -> l' = l.
Proof. intros H. inversion H; subst. reflexivity. Qed.
Lemma meets_talk l k id body l1 : fits 4 id -> meets l (events k (request 0x6F id body)) l1 ->
  (reply_of k (request 0x6F id body) = NoSend /\ l1 = l /\ events k (request 0x6F id body) = [ESend Ctl (request 0x6F id body) None]) \/
  exists got, reply_of k (request 0x6F id body) = Reply got /\ ln_up l = true /\
    events k (request 0x6F id body) = [ESend Ctl (request 0x6F id body) (Some (len (request 0x6F id body))); ERecv Ctl (Some got)] /\
    ((id = tg_session (ln_tg l) /\ id <> 0 /\ exists t1, serves (ln_tg l) (request 0x6F id body) got t1 /\ l1 = with_tg t1 l) \/
     ((id <> tg_session (ln_tg l) \/ id = 0) /\ reply_frame got 0x6F id [] /\ l1 = l)).
Proof.
  intros F. unfold events, reply_of, talk. set (bs := request 0x6F id body). destruct (sent k bs) as [n|]; cbn [fst snd].
  - destruct (so_recv k) as [|[d|] r]; cbn [fst snd app]; intros H; inversion H as [| | | | | | | |? ? bd got t1 es l' E Up Nz F' S M|? ? id' bd got es l' E Up F' D R M|? ? id' op got es l' E|? ? pl got es l' E|? ? id' es l' E|]; subst;
      try (exfalso; apply (not_unregister _ _ _ E)); try (exfalso; apply (not_register _ _ E)).
    + right. apply request_id in E as Ei; [|assumption..]. apply meets_none in M. exists (take 4096 d). split; [reflexivity|]. split; [exact Up|]. split; [congruence|].
      left. split; [exact Ei|]. split; [congruence|]. exists t1. split; assumption.
    + right. apply request_id in E as Ei; [|assumption..]. subst id'. apply meets_none in M. exists (take 4096 d). split; [reflexivity|]. split; [exact Up|]. split; [congruence|]. right. auto.
  - intros H. inversion H as [| | | | | | | | | | | | |? ? ? ? M]; subst. apply meets_none in M. left. auto.
Qed.

(** ** Calls that are not answered as in a session *)
Definition kept_by (a : wish) (w w' : world) : Prop :=
  se_id (w_se w') = se_id (w_se w) /\ se_conns (w_se w') = se_conns (w_se w) /\ se_next_sn (w_se w') = tried a (se_next_sn (w_se w)).
Definition shunned (id : N) (o : outcome told) : Prop := (id = 0 /\ exists s, o = Throw RuntimeError s) \/ (id <> 0 /\ o = Undef NullDeref).
Lemma empty_crashes id got : id <> 0 -> reply_frame got 0x6F id [] -> crashes id got.
Proof. intros Z R. exists id, []. split; [exact R|]. split; [right; auto|]. left. reflexivity. Qed.
Lemma empty_no_answer id got sv st a d : reply_frame got 0x6F id [] -> ~ answers id got sv st a d.
Proof.
  intros R (ses & pl & R' & M & X). destruct (reply_frame_inj _ _ _ _ _ _ _ R R') as (_ & <- & <-). exact (rr_reply_nonempty _ _ _ _ _ X eq_refl).
Qed.
Lemma zero_no_crash got : reply_frame got 0x6F 0 [] -> ~ crashes 0 got.
Proof. intros R (ses & pl & R' & M & X). destruct (reply_frame_inj _ _ _ _ _ _ _ R R') as (_ & <- & <-). destruct M as [[_ M]|[M _]]; auto. Qed.
Lemma perform_other u a w o w' : session_ok w -> user_memory u w -> wish_ok u a -> perform a w = (o, w') ->
  (exists n, a = AskLeave n /\ nth_error (se_conns (w_se w)) (N.to_nat n) = None /\ o = Undef VecOutOfBounds /\ w' = w) \/
  exists body, let bs := request 0x6F (se_id (w_se w)) body in
    w_net w' = w_net w ++ events (w_ctl w) bs /\ (forall n, a = AskLeave n -> nth_error (se_conns (w_se w)) (N.to_nat n) <> None) /\
    (reply_of (w_ctl w) bs = NoSend -> (exists s, o = Throw SystemError s) /\ kept_by a w w') /\
    (forall got, reply_of (w_ctl w) bs = Reply got -> reply_frame got 0x6F (se_id (w_se w)) [] -> shunned (se_id (w_se w)) o /\ kept_by a w w').
Proof.
  intros SO UM OK E. destruct SO as (RB & FI & TK). destruct a as [k junk x y z|x y z d|a b|n]; cbn [perform wish_ok] in *.
  - right. destruct OK as (X & Y & Z). destruct (get_attribute w k junk x y z RB X Y Z) as (ro & w1 & E1 & EX & OU).
    rewrite (mbind_unit _ Value _ _ _ E1) in E. apply pair_equal_spec in E. destruct E as [<- <-].
    destruct EX as (Se & _ & _ & _ & _ & Nt & _). exists (rr_request 0x0E (attribute_path x y z) []). cbv zeta. fold (get_request (se_id (w_se w)) x y z).
    split; [exact Nt|]. split; [discriminate|]. split.
    + intros Q. rewrite Q in OU. destruct OU as [s ->]. split; [exists s; reflexivity|]. unfold kept_by. rewrite Se. auto.
    + intros got Q R. rewrite Q in OU. split; [|unfold kept_by; rewrite Se; auto].
      destruct OU as [(sv & ad & v & rest & An & _)|[(sv & ad & q & s & An & _)|[(B & ->)|(_ & B & s & ->)]]].
      1-2: exfalso; exact (empty_no_answer _ _ _ _ _ _ R An).
      * right. split; [|reflexivity]. intros Z0. destruct B as [B|(sv & ad & An)]; [|exact (empty_no_answer _ _ _ _ _ _ R An)]. rewrite Z0 in *. exact (zero_no_crash _ R B).
      * left. destruct (N.eq_dec (se_id (w_se w)) 0) as [Z0|Z0]; [eauto|]. exfalso. apply B. apply empty_crashes; assumption.
  - right. destruct OK as (X & Y & Z & data & CA & L). assert (CA' := carries_opt_hext _ _ _ _ (proj1 UM) CA).
    destruct (set_attribute w x y z d data RB X Y Z CA') as (ro & w1 & E1 & EX & OU).
    rewrite (mbind_unit _ (fun _ => Done) _ _ _ E1) in E. apply pair_equal_spec in E. destruct E as [<- <-].
    destruct EX as (Se & _ & _ & _ & _ & Nt & _). exists (rr_request 0x10 (attribute_path x y z) data). cbv zeta. fold (set_request (se_id (w_se w)) x y z data).
    split; [exact Nt|]. split; [discriminate|]. split.
    + intros Q. rewrite Q in OU. destruct OU as [s ->]. split; [exists s; reflexivity|]. unfold kept_by. rewrite Se. auto.
    + intros got Q R. rewrite Q in OU. split; [|unfold kept_by; rewrite Se; auto].
      destruct OU as [((sv & ad & q & An) & _)|[(B & ->)|(_ & B & s & ->)]].
      * exfalso; exact (empty_no_answer _ _ _ _ _ _ R An).
      * right. split; [|reflexivity]. intros Z0. rewrite Z0 in *. exact (zero_no_crash _ R B).
      * left. destruct (N.eq_dec (se_id (w_se w)) 0) as [Z0|Z0]; [eauto|]. exfalso. apply B. apply empty_crashes; assumption.
  - right. destruct OK as (X & Y). destruct (create_connection w a b RB X Y) as (ro & w1 & E1 & EX & NB & OU).
    rewrite (mbind_unit _ Number _ _ _ E1) in E. apply pair_equal_spec in E. destruct E as [<- <-].
    destruct EX as (_ & _ & _ & _ & Nt & _). destruct NB as (N1 & N2 & N3 & N4 & N5). unfold create_outcome in OU.
    exists (rr_request 0x5B manager_path (open_message (se_vendor (w_se w)) (se_serial (w_se w)) (se_next_sn (w_se w)) (se_next_id (w_se w)) a b)).
    cbv zeta. fold (open_request (w_se w) a b). split; [exact Nt|]. split; [discriminate|]. split.
    + intros Q. rewrite Q in OU. destruct OU as [[s ->] Ec]. split; [exists s; reflexivity|]. unfold kept_by. auto.
    + intros got Q R. rewrite Q in OU.
      destruct OU as [(sv & ad & q & o2t & t2o & oapi & tapi & c & An & _)|(Ec & [B|[B|[B|B]]])].
      1: exfalso; exact (empty_no_answer _ _ _ _ _ _ R An).
      all: split; [|unfold kept_by; auto].
      * exfalso. destruct B as (sv & ad & q & o2t & t2o & sn & vn & os & oapi & tapi & m & An & _). exact (empty_no_answer _ _ _ _ _ _ R An).
      * exfalso. destruct B as (sv & ad & q & m & An & _). exact (empty_no_answer _ _ _ _ _ _ R An).
      * destruct B as [B ->]. right. split; [|reflexivity]. intros Z0. destruct B as [B|(sv & ad & An)]; [|exact (empty_no_answer _ _ _ _ _ _ R An)]. rewrite Z0 in *. exact (zero_no_crash _ R B).
      * destruct B as (_ & B & s & ->). left. destruct (N.eq_dec (se_id (w_se w)) 0) as [Z0|Z0]; [eauto|]. exfalso. apply B. apply empty_crashes; assumption.
  - destruct (nth_error (se_conns (w_se w)) (N.to_nat n)) as [c|] eqn:Hn.
    + right. assert (Tc : cn_tick_size c < 256 /\ cn_ticks c < 256) by (rewrite Forall_forall in TK; apply TK; eapply nth_error_In; exact Hn).
      destruct (close_connection w n c RB Hn (proj1 Tc) (proj2 Tc)) as (ro & w1 & E1 & EX & OU).
      rewrite (mbind_unit _ (fun _ => Done) _ _ _ E1) in E. apply pair_equal_spec in E. destruct E as [<- <-].
      destruct EX as (_ & _ & _ & _ & Nt & _). unfold drop_conn_outcome in OU.
      exists (rr_request 0x4E manager_path (forward_close (cn_tick_size c) (cn_ticks c) (cn_sn c) (cn_vendor c) (cn_orig_sn c) [SClass 2; SInstance 1])).
      cbv zeta. fold (close_request (w_se w) c). split; [exact Nt|]. split; [intros m [= <-]; congruence|]. split.
      * intros Q. rewrite Q in OU. destruct OU as [[s ->] Se]. split; [exists s; reflexivity|]. unfold kept_by. rewrite Se. auto.
      * intros got Q R. rewrite Q in OU. destruct OU as [(sv & ad & q & An & _)|(Se & [B|[B|[B|B]]])].
        1: exfalso; exact (empty_no_answer _ _ _ _ _ _ R An).
        all: split; [|unfold kept_by; rewrite Se; auto].
        -- exfalso. destruct B as (sv & ad & q & sn & vn & os & m & An & _). exact (empty_no_answer _ _ _ _ _ _ R An).
        -- exfalso. destruct B as (sv & ad & q & m & An & _). exact (empty_no_answer _ _ _ _ _ _ R An).
        -- destruct B as [B ->]. right. split; [|reflexivity]. intros Z0. destruct B as [B|(sv & ad & An)]; [|exact (empty_no_answer _ _ _ _ _ _ R An)]. rewrite Z0 in *. exact (zero_no_crash _ R B).
        -- destruct B as (_ & B & s & ->). left. destruct (N.eq_dec (se_id (w_se w)) 0) as [Z0|Z0]; [eauto|]. exfalso. apply B. apply empty_crashes; assumption.
    + left. pose proof (close_connection_bad w n Hn) as E1. rewrite (mbind_unit _ (fun _ => Done) _ _ _ E1) in E. apply pair_equal_spec in E. destruct E as [<- <-]. exists n. auto.
Qed.

(** ** One call *)
Lemma serves_events t k id body got t1 l : id = tg_session t -> serves t (request 0x6F id body) got t1 ->
  events k (request 0x6F id body) = [ESend Ctl (request 0x6F id body) (Some (len (request 0x6F id body))); ERecv Ctl (Some got)] -> l = t ->
  conforms l (ctl_talk (events k (request 0x6F id body))) t1.
Proof. intros -> S -> ->. cbn [ctl_talk flat_map app]. eapply conforms_exchange; [exact S|apply conforms_nil]. Qed.
Lemma key_next a s : key_fits (se_next_sn s, se_vendor s, se_serial s) -> key_fits (tried a (se_next_sn s), se_vendor s, se_serial s).
Proof.
  intros (A & B & C). unfold key_fits. cbn [fst snd] in *. split; [|auto]. destruct a; try exact A. cbn [tried]. apply N.mod_lt. discriminate.
Qed.
Lemma kept_tuned a w w' l : tuned w l -> kept_by a w w' -> se_vendor (w_se w') = se_vendor (w_se w) -> se_serial (w_se w') = se_serial (w_se w) -> tuned w' l.
Proof.
  intros ((N1 & N2 & N3) & T) (_ & K2 & K3) V S. unfold tuned, numbers_ok. rewrite K2, K3, V, S. split; [|exact T]. split; [|auto]. apply key_next. exact N1.
Qed.
Lemma leave_requests w l n : map conn_key (se_conns (w_se w)) = tg_conns (ln_tg l) ->
  nth_error (tg_conns (ln_tg l)) n = None <-> nth_error (se_conns (w_se w)) n = None.
Proof. intros <-. rewrite !nth_error_None, map_length. reflexivity. Qed.
Lemma use_machine u a w o w' es l l1 : session_ok w -> user_memory u w -> wish_ok u a -> tuned w l -> perform a w = (o, w') -> gained w w' es -> meets l es l1 ->
  happens u (se_vendor (w_se w)) (se_serial (w_se w)) (at_w w l) (Use a) o (at_w w' l1) /\ tuned w' l1 /\
  se_vendor (w_se w') = se_vendor (w_se w) /\ se_serial (w_se w') = se_serial (w_se w).
Proof.
  intros SO UM OK TU E G ME. destruct (perform_step a w o w' E) as (r & ST & _).
  destruct (step_moved _ _ _ _ ST) as (V & Sr & _). pose proof TU as (NU & CS).
  destruct (perform_other u a w o w' SO UM OK E) as [(n & -> & Hn & -> & ->)|(body & Nt & Hn & NS & UK)].
  - assert (es = []) as ->. { unfold gained in G. symmetry. apply (app_inv_head (w_net w)). rewrite app_nil_r. exact G. }
    apply meets_none in ME. subst l1. split; [|auto]. apply happens_astray. cbn [requests]. intros X. apply X. apply (leave_requests w l _ CS). exact Hn.
  - assert (RQ : requests (ln_tg l) a). { destruct a; try exact I. cbn [requests]. rewrite (leave_requests w l _ CS). apply Hn. reflexivity. }
    pose proof (gained_app _ _ _ _ Nt G) as Es. subst es. apply meets_talk in ME as TK; [|apply SO].
    destruct TK as [(Q & -> & _)|(got & Q & Up & Ev & [(Id & Nz & t1 & S & ->)|(Un & R & ->)])].
    + destruct (NS Q) as ((s & ->) & KB). split; [|split; [eapply kept_tuned; eassumption|auto]].
      unfold at_w. destruct KB as (-> & _ & ->). apply happens_unsent. exact RQ.
    + assert (AG : agrees (w_se w) (ln_tg l)) by (unfold agrees; auto).
      assert (CO : conforms (ln_tg l) (ctl_talk (events (w_ctl w) (request 0x6F (se_id (w_se w)) body))) t1) by (eapply serves_events; eauto).
      destruct (perform_runs u a w o w' _ _ _ SO UM OK E G AG NU CO) as (EX & _).
      destruct (step_target u _ w r w' _ _ _ SO UM (ask_op_ok u a OK) (ask_not_open a) ST G AG NU CO) as ((_ & Id' & CS') & NU' & _).
      assert (KI : se_id (w_se w') = se_id (w_se w)).
      { destruct (step_moved _ _ _ _ ST) as (_ & _ & MV). destruct a; cbn [op_of] in MV.
        - rewrite MV. reflexivity.
        - rewrite MV. reflexivity.
        - apply MV.
        - destruct MV as [(_ & _ & ->)|(_ & ->)]; reflexivity. }
      split; [|split; [split; [exact NU'|exact CS']|auto]].
      assert (IS : in_session (mkMachine l (se_id (w_se w)) (se_next_sn (w_se w)))) by (unfold in_session; cbn; auto).
      specialize (EX [] [] _ (runs_nil _ _ _ _ _) (fun _ => conj eq_refl (conj eq_refl eq_refl))). apply runs_single in EX.
      unfold at_w. rewrite KI. destruct EX as [D|[(_ & -> & -> & [(m & ->)|(m & ->)])|(n & -> & X & _)]].
      * apply happens_done; assumption.
      * replace (with_tg (ln_tg l) l) with l by (destruct l; reflexivity). apply happens_refused; assumption.
      * replace (with_tg (ln_tg l) l) with l by (destruct l; reflexivity). apply happens_unsent; assumption.
      * contradiction.
    + destruct (UK got Q R) as (SH & KB). split; [|split; [eapply kept_tuned; eassumption|auto]].
      unfold at_w. destruct KB as (-> & _ & ->). destruct SH as [(Z & s & ->)|(Z & ->)].
      * rewrite Z. apply happens_early; assumption.
      * apply happens_stale; try assumption. tauto.
Qed.

(** Registering, and closing. *)
Lemma meets_register l k rest l1 : (forall got es, rest <> ERecv Ctl (Some got) :: es) -> meets l (events k register_request ++ rest) l1 -> 
  (reply_of k register_request = NoSend /\ meets l rest l1) \/
  exists got, reply_of k register_request = Reply got /\ ln_up l = true /\
    ((exists id options, id <> 0 /\ reply_frame got 0x65 id (registration 1 options) /\ meets (with_tg (handle id (ln_tg l)) l) rest l1) \/
     (exists payload, reply_frame got 0x65 0 payload /\ meets l rest l1)).
Proof.
  intros NR. unfold events, reply_of, talk. destruct (sent k register_request) as [n|]; cbn [fst snd].
  - destruct (so_recv k) as [|[d|] r]; cbn [fst snd app]; intros H; inversion H as [| | | | | | | |? ? bd got t1 es l' E Up Nz F' S M|? ? id' bd got es l' E Up F' D R M|? ? id' op got es l' E Up Z Nz R M|? ? pl got es l' E Up R M|? ? id' es l' E|]; subst;
      try (exfalso; eapply NR; reflexivity); try (exfalso; exact (register_not_unregister _ E)); try (exfalso; exact (not_register _ _ (eq_sym E))).
    + right. eexists. split; [reflexivity|]. split; [assumption|]. left. eauto.
    + right. eexists. split; [reflexivity|]. split; [assumption|]. right. eauto.
  - intros H. inversion H as [| | | | | | | | | | | | |? ? ? ? M]; subst. left. auto.
Qed.
Lemma meets_closing l kc ki l1 : meets l (closing kc ki) l1 ->
  if close_fails kc then l1 = l else if close_fails ki then l1 = hung_up l else l1 = with_io false (hung_up l).
Proof.
  unfold closing. destruct (close_fails kc); [|destruct (close_fails ki); cbn [negb]]; intros H; inversion H as [| | | | |? ? ? M1|? ? ? M1|? ? ? ? M1| | | | | |]; subst.
  - apply meets_none in M1. exact M1.
  - inversion M1 as [| | | | |? ? ? M2|? ? ? M2|? ? ? ? M2| | | | | |]; subst. apply meets_none in M2. exact M2.
  - inversion M1 as [| | | | |? ? ? M2|? ? ? M2|? ? ? ? M2| | | | | |]; subst. apply meets_none in M2. exact M2.
Qed.
Lemma registration_nonempty v op : registration v op <> [].
Proof. unfold registration. intros E. apply (f_equal len) in E. rewrite len_app, !len_le in E. discriminate E. Qed.
Lemma dial_machine u h p q w o w' es l l1 : session_ok w -> user_memory u w -> tuned w l -> carry (Dial h p q) w = (o, w') -> gained w w' es -> meets l es l1 ->
  happens u (se_vendor (w_se w)) (se_serial (w_se w)) (at_w w l) (Dial h p q) o (at_w w' l1) /\ tuned w' l1 /\
  se_vendor (w_se w') = se_vendor (w_se w) /\ se_serial (w_se w') = se_serial (w_se w).
Proof.
  intros SO UM (NU & CS) E G ME. cbn [carry] in E. destruct (session_open_spec w h p q (proj1 SO)) as (ro & w1 & E1 & _ & _ & _ & S).
  rewrite (mbind_unit _ (fun _ => Done) _ _ _ E1) in E. apply pair_equal_spec in E. destruct E as [<- <-].
  assert (Same : forall l1, w_se w1 = w_se w -> tg_conns (ln_tg l1) = tg_conns (ln_tg l) ->
    tuned w1 l1 /\ se_vendor (w_se w1) = se_vendor (w_se w) /\ se_serial (w_se w1) = se_serial (w_se w)).
  { intros l2 Se C. unfold tuned. rewrite Se, C. auto. }
  assert (At : forall l2, w_se w1 = w_se w -> at_w w1 l2 = mkMachine l2 (se_id (w_se w)) (se_next_sn (w_se w))) by (intros l2 Se; unfold at_w; rewrite Se; reflexivity).
  destruct (open_fails (w_ctl w)); [|destruct (open_fails (w_io w))].
  - destruct S as (Nt & (s & ->) & Se). rewrite (gained_app _ _ _ _ Nt G) in ME. rewrite (At _ Se).
    inversion ME as [| |? ? ? ? ? M| | | | | | | | | | |]; subst.
    assert (L : l1 = l \/ l1 = hung_up l) by (destruct M as [M|M]; apply meets_none in M; auto).
    split; [apply happens_no_dial; exact L|]. apply Same; [exact Se|]. destruct L as [->| ->]; reflexivity.
  - destruct S as (Nt & (s & ->) & Se). rewrite (gained_app _ _ _ _ Nt G) in ME. rewrite (At _ Se).
    inversion ME as [|? ? ? ? ? M| | | | | | | | | | | |]; subst. inversion M as [| | | |? ? ? ? ? M1| | | | | | | | |]; subst.
    assert (L : l1 = with_io (ln_io l) (dialled l) \/ l1 = with_io true (dialled l)) by (destruct M1 as [M1|M1]; apply meets_none in M1; auto).
    split; [|apply Same; [exact Se|]; destruct L as [->| ->]; reflexivity].
    destruct L as [->| ->]; apply happens_no_io; auto.
  - destruct S as (tail & OU & Nt). rewrite (gained_app _ _ _ _ Nt G) in ME.
    inversion ME as [|? ? ? ? ? M| | | | | | | | | | | |]; subst. inversion M as [| | |? ? ? ? ? Io M1| | | | | | | | | |]; subst.
    assert (NRT : forall got es, tail <> ERecv Ctl (Some got) :: es).
    { assert (T : tail = [] \/ tail = closing (w_ctl w) (w_io w)).
      { unfold open_outcome in OU. destruct (reply_of _ _); cbv zeta in OU.
        - left. apply OU.
        - left. apply OU.
        - left. apply OU.
        - destruct OU as [(? & OU)|[OU|OU]]; [left; apply OU|left; apply OU|right; apply OU]. }
      intros got es2. destruct T as [->| ->]; [discriminate|]. unfold closing. destruct (close_fails _); discriminate. }
    apply meets_register in M1; [|exact NRT]. unfold open_outcome in OU. cbv zeta in OU. cbn [dialled ln_io] in Io.
    destruct M1 as [(Q & M1)|(got & Q & Up & [(id & op & Nz & R & M1)|(pl & R & M1)])]; rewrite Q in OU.
    + destruct OU as ((s & ->) & -> & Se). apply meets_none in M1. subst l1. rewrite (At _ Se). split; [apply happens_mute; exact Io|]. apply Same; [exact Se|reflexivity].
    + destruct OU as [(ses & (pl & R' & MA & _) & -> & -> & Se)|[((ses & R' & MA) & _)|(NR & _ & Se & -> & OU)]].
      * destruct (reply_frame_inj _ _ _ _ _ _ _ R R') as (_ & <- & _). apply meets_none in M1. subst l1. unfold at_w. rewrite Se. cbn [se_id se_next_sn se_vendor se_serial set_id].
        split; [|unfold tuned, numbers_ok; rewrite Se; cbn [se_id se_conns se_next_sn se_vendor se_serial set_id]; auto].
        apply (happens_open _ _ _ l); try assumption. destruct MA as [[MA _]|[_ MA]]; auto.
      * exfalso. destruct (reply_frame_inj _ _ _ _ _ _ _ R R') as (_ & _ & X). exact (registration_nonempty _ _ X).
      * apply meets_closing in M1. rewrite (At _ Se). unfold closed in OU. destruct (close_fails (w_ctl w)); [|destruct (close_fails (w_io w))]; cbn [negb andb] in OU; destruct OU as [s ->]; subst l1.
        -- split; [|apply Same; [exact Se|reflexivity]]. change (with_io true (dialled l)) with (mkLine true true (handle 0 (ln_tg l))).
           apply (happens_unclosed _ _ _ l _ _ _ _ _ _ (handle id (ln_tg l))); [exact Io|]. exists id. reflexivity.
        -- split; [|apply Same; [exact Se|reflexivity]]. exact (happens_half_closed _ _ _ l _ _ _ _ _ _ Io).
        -- split; [|apply Same; [exact Se|reflexivity]]. apply happens_rejected; [exact Io|reflexivity].
    + destruct OU as [(ses & (pl' & R' & MA & _) & _)|[((ses & R' & MA) & _)|(NR & _ & Se & -> & OU)]].
      1-2: exfalso; destruct (reply_frame_inj _ _ _ _ _ _ _ R R') as (_ & <- & _); destruct MA as [[_ MA]|[MA1 MA]]; congruence.
      apply meets_closing in M1. rewrite (At _ Se). unfold closed in OU. destruct (close_fails (w_ctl w)); [|destruct (close_fails (w_io w))]; cbn [negb andb] in OU; destruct OU as [s ->]; subst l1.
      * split; [|apply Same; [exact Se|reflexivity]]. apply (happens_unclosed _ _ _ l _ _ _ _ _ _ (handle 0 (ln_tg l))); [exact Io|]. exists 0. reflexivity.
      * split; [|apply Same; [exact Se|reflexivity]]. exact (happens_half_closed _ _ _ l _ _ _ _ _ _ Io).
      * split; [|apply Same; [exact Se|reflexivity]]. apply happens_rejected; [exact Io|reflexivity].
Qed.
Lemma hang_machine u w o w' es l l1 : session_ok w -> user_memory u w -> tuned w l -> carry HangUp w = (o, w') -> gained w w' es -> meets l es l1 ->
  happens u (se_vendor (w_se w)) (se_serial (w_se w)) (at_w w l) HangUp o (at_w w' l1) /\ tuned w' l1 /\
  se_vendor (w_se w') = se_vendor (w_se w) /\ se_serial (w_se w') = se_serial (w_se w).
Proof.
  intros SO UM (NU & CS) E G ME. cbn [carry] in E. destruct (session_close_spec w (proj1 SO)) as (ro & w1 & E1 & _ & _ & _ & S).
  rewrite (mbind_unit _ (fun _ => Done) _ _ _ E1) in E. apply pair_equal_spec in E. destruct E as [<- <-].
  assert (Same : forall l1, w_se w1 = w_se w -> tg_conns (ln_tg l1) = tg_conns (ln_tg l) ->
    tuned w1 l1 /\ se_vendor (w_se w1) = se_vendor (w_se w) /\ se_serial (w_se w1) = se_serial (w_se w)).
  { intros l2 Se C. unfold tuned. rewrite Se, C. auto. }
  assert (At : forall l2, w_se w1 = w_se w -> at_w w1 l2 = mkMachine l2 (se_id (w_se w)) (se_next_sn (w_se w))) by (intros l2 Se; unfold at_w; rewrite Se; reflexivity).
  destruct (sent (w_ctl w) (unregister (se_id (w_se w)))) as [n|].
  - destruct S as (Nt & S). rewrite (gained_app _ _ _ _ Nt G) in ME. cbn [app] in ME.
    assert (exists l2, ln_up l = true /\ meets l2 (closing (w_ctl w) (w_io w)) l1 /\
      l2 = with_tg (handle (if se_id (w_se w) =? tg_session (ln_tg l) then 0 else tg_session (ln_tg l)) (ln_tg l)) l) as (l2 & Up & M & L2).
    { assert (X : forall es', closing (w_ctl w) (w_io w) <> ERecv Ctl (Some es') :: [] /\ forall es2, closing (w_ctl w) (w_io w) <> ERecv Ctl (Some es') :: es2)
        by (intros es'; unfold closing; destruct (close_fails _); split; discriminate).
      inversion ME as [| | | | | | | |? ? ? got ? ? ? ? ? ? ? ? ? Y|? ? ? ? got ? ? ? ? ? ? ? ? Y|? ? ? ? got ? ? ? ? ? ? ? ? Y|? ? ? got ? ? ? ? ? ? Y|? ? id' ? ? EQ Up F M|]; subst.
      1-4: exfalso; eapply (proj2 (X _)); symmetry; eassumption.
      assert (se_id (w_se w) = id') by (eapply request_id; [apply SO|exact F|exact EQ]). subst id'. eauto. }
    apply meets_closing in M. unfold closed in S. destruct (close_fails (w_ctl w)); [|destruct (close_fails (w_io w))]; cbn [negb andb] in S.
    + destruct S as [(s & ->) Se]. rewrite (At _ Se). subst l1 l2. split; [apply happens_close_unclosed; exact Up|]. apply Same; [exact Se|reflexivity].
    + destruct S as [(s & ->) Se]. rewrite (At _ Se). subst l1 l2. split; [exact (happens_close_half _ _ _ l _ _ _ Up)|]. apply Same; [exact Se|reflexivity].
    + destruct S as [-> Se]. subst l1 l2. unfold at_w. rewrite Se. split; [exact (happens_close _ _ _ l _ _ Up)|].
      cbn [se_vendor se_serial set_id]. split; [|auto]. split; [rewrite Se; exact NU|]. rewrite Se. exact CS.
  - destruct S as ((s & ->) & Se & _ & Nt). rewrite (gained_app _ _ _ _ Nt G) in ME. rewrite (At _ Se).
    inversion ME as [| | | | | | | | | | | | |? ? ? ? M]; subst. apply meets_none in M. subst l1. split; [apply happens_no_close|]. apply Same; [exact Se|reflexivity].
Qed.

(** ** Whole programs *)
Definition errand_op (e : errand) : op := match e with Use a => op_of a | Dial h p q => OpOpen h p q | HangUp => OpClose end.
Lemma carry_step e w o w' : carry e w = (o, w') -> exists r, step (errand_op e) w = (r, w').
Proof.
  destruct e as [a|h p q|]; cbn [carry errand_op step].
  - intros E. destruct (perform_step a w o w' E) as (r & R & _). eauto.
  - unfold mbind. destruct (session_open h p q w) as [[] w1]; intros E; apply pair_equal_spec in E; destruct E as [_ <-]; eexists; reflexivity.
  - unfold mbind. destruct (session_close w) as [[] w1]; intros E; apply pair_equal_spec in E; destruct E as [_ <-]; eexists; reflexivity.
Qed.
Lemma carry_kept u e w o w' : session_ok w -> user_memory u w -> errand_ok u e -> carry e w = (o, w') -> session_ok w' /\ user_memory u w'.
Proof.
  intros SO UM OK E. destruct (carry_step _ _ _ _ E) as (r & R).
  assert (O : op_ok u (errand_op e)) by (destruct e; [apply ask_op_ok; exact OK|exact I..]).
  destruct (step_kept u _ w r w' SO UM O R) as (A & B & _). auto.
Qed.
Lemma call_machine u e w o w' es l l1 : session_ok w -> user_memory u w -> errand_ok u e -> tuned w l -> carry e w = (o, w') -> gained w w' es -> meets l es l1 ->
  happens u (se_vendor (w_se w)) (se_serial (w_se w)) (at_w w l) e o (at_w w' l1) /\ tuned w' l1 /\
  se_vendor (w_se w') = se_vendor (w_se w) /\ se_serial (w_se w') = se_serial (w_se w).
Proof.
  destruct e as [a|h p q|]; intros SO UM OK TU E G ME; [eapply use_machine|eapply dial_machine|eapply hang_machine]; eassumption.
Qed.
Lemma story_machine u c w l r w' l' : session_ok w -> user_memory u w -> story_ok u c -> tuned w l -> telling c w l r w' l' ->
  happen u (se_vendor (w_se w)) (se_serial (w_se w)) (at_w w l) r (at_w w' l') /\ tuned w' l' /\ session_ok w' /\ user_memory u w'.
Proof.
  intros SO UM OK TU T. induction T as [c w l|e next w l o w1 es l1 r w' l' E G M T IH].
  - split; [constructor|auto].
  - destruct OK as (O1 & O2). destruct (carry_kept u _ _ _ _ SO UM O1 E) as (S1 & U1).
    destruct (call_machine u _ _ _ _ _ _ _ SO UM O1 TU E G M) as (H & T1 & V & Sr). rewrite V, Sr in IH.
    assert (O3 : story_ok u (next_of next o)) by (destruct o; cbn [next_of story_ok]; auto).
    destruct (IH S1 U1 O3 T1) as (R & T2). split; [|exact T2]. econstructor; [exact H| |exact R].
    destruct o; cbn [stops]; try exact I; cbn [next_of] in T; inversion T; reflexivity.
Qed.

(** ** Orderly programs *)
Lemma does_session u v s t sn a o t1 sn1 : does u v s (t, sn) a o (t1, sn1) -> tg_session t1 = tg_session t.
Proof. intros D. inversion D; reflexivity. Qed.
Lemma use_session u v s m a o m1 : in_session m -> happens u v s m (Use a) o m1 -> in_session m1.
Proof.
  intros IS H. inversion H as [l id sn a' o' t1 sn1 I1 D| | | | | | | | | | | | | | | |]; subst; try exact IS.
  destruct IS as (A & B & C). cbn in *. unfold in_session. cbn. split; [exact A|]. split; [exact B|]. rewrite (does_session _ _ _ _ _ _ _ _ _ D). exact C.
Qed.
Lemma dial_session u v s m h p q o m1 : m_id m = 0 -> happens u v s m (Dial h p q) o m1 -> match o with Ret _ => in_session m1 | _ => m_id m1 = 0 end.
Proof. intros Z H. inversion H; subst; cbn in *; try exact Z. split; [reflexivity|]. auto. Qed.
Lemma hang_session u v s m o m1 x : happens u v s m HangUp o m1 -> o = Ret x -> m_id m1 = 0.
Proof. intros H ->. inversion H; subst; reflexivity. Qed.
Lemma happen_app u v s r1 r2 : forall m m', happen u v s m (r1 ++ r2) m' -> exists m1, happen u v s m r1 m1 /\ happen u v s m1 r2 m'.
Proof.
  induction r1 as [|[e o] r1 IH]; intros m m' H; [exists m; split; [constructor|exact H]|].
  cbn [app] in H. inversion H as [|? ? ? m1 ? ? H1 ST H2]; subst. destruct (IH _ _ H2) as (m2 & A & B). exists m2. split; [|exact B].
  econstructor; [exact H1| |exact A]. destruct o; try exact I; cbn in *; destruct r1; [reflexivity|discriminate ST|reflexivity|discriminate ST].
Qed.
Lemma orderly_split u v s c w l r w' l' : telling c w l r w' l' -> forall b m m', orderly b c -> (if b then in_session m else m_id m = 0) ->
  happen u v s m r m' -> forall r1 a o r2, r = r1 ++ (Use a, o) :: r2 ->
  exists m1 m2, happen u v s m r1 m1 /\ in_session m1 /\ happens u v s m1 (Use a) o m2 /\ in_session m2 /\ happen u v s m2 r2 m'.
Proof.
  intros T. induction T as [c w l|e next w l o0 w1 es l1 r w' l' E G M T IH]; intros b m m' TI ST H r1 a o r2 R; [destruct r1; discriminate|].
  inversion H as [|? ? ? m1 ? ? H1 SP H2]; subst. destruct r1 as [|[e1 o1] r1]; cbn [app] in R.
  - injection R as -> -> ->. destruct TI as (-> & TI). exists m, m1. split; [constructor|]. split; [exact ST|]. split; [exact H1|].
    split; [eapply use_session; eassumption|exact H2].
  - injection R as -> -> ->.
    assert (X : exists b', orderly b' (next_of next o1) /\ if b' then in_session m1 else m_id m1 = 0).
    { destruct o1 as [x|k x|x|]; cbn [next_of].
      3-4: exfalso; cbn in SP; destruct r1; discriminate SP.
      - destruct e1 as [a1|h p q|]; cbn [orderly] in TI.
        + destruct TI as (-> & TI). exists true. split; [apply TI|]. eapply use_session; eassumption.
        + destruct TI as (-> & TI). exists true. split; [exact (TI (Ret x))|]. exact (dial_session _ _ _ _ _ _ _ _ _ ST H1).
        + destruct TI as (-> & TI & _). exists false. split; [apply TI|]. eapply hang_session; [exact H1|reflexivity].
      - destruct e1 as [a1|h p q|]; cbn [orderly] in TI.
        + destruct TI as (-> & TI). exists true. split; [apply TI|]. eapply use_session; eassumption.
        + destruct TI as (-> & TI). exists false. split; [exact (TI (Throw k x))|]. exact (dial_session _ _ _ _ _ _ _ _ _ ST H1).
        + destruct TI as (-> & _ & TI). rewrite TI in *. cbn [next_of] in T. rewrite TI in T. inversion T; subst. destruct r1; discriminate. }
    destruct X as (b' & TI' & ST'). destruct (IH b' m1 m' TI' ST' H2 r1 a o r2 eq_refl) as (ma & mb & A & B & C & D & F).
    exists ma, mb. split; [|auto]. econstructor; [exact H1| |exact A]. destruct o1; try exact I; cbn in SP; destruct r1; discriminate SP.
Qed.
Lemma story_orderly u c w l r w' l' r1 a o r2 : session_ok w -> user_memory u w -> story_ok u c -> tuned w l -> orderly false c -> se_id (w_se w) = 0 ->
  telling c w l r w' l' -> r = r1 ++ (Use a, o) :: r2 ->
  exists m1 m2, happen u (se_vendor (w_se w)) (se_serial (w_se w)) (at_w w l) r1 m1 /\ in_session m1 /\
    happens u (se_vendor (w_se w)) (se_serial (w_se w)) m1 (Use a) o m2 /\ in_session m2 /\ happen u (se_vendor (w_se w)) (se_serial (w_se w)) m2 r2 (at_w w' l') /\
    (forall ub, o = Undef ub -> (exists n, a = AskLeave n /\ ~ requests (ln_tg (m_line m1)) a) \/
       exists k junk x y z, a = AskGet k junk x y z /\ tg_attr (ln_tg (m_line m1)) (x, y, z) = Some []).
Proof.
  intros SO UM OK TU TI Z T R. destruct (story_machine _ _ _ _ _ _ _ SO UM OK TU T) as (H & _).
  destruct (orderly_split _ _ _ _ _ _ _ _ _ T false (at_w w l) _ TI Z H _ _ _ _ R) as (m1 & m2 & A & B & C & D & F).
  exists m1, m2. do 5 (split; [assumption|]). intros ub ->.
  inversion C as [l0 id sn a' o' t1 sn1 I1 DO| | |l0 id sn n NR| |l0 id sn a' Up Nz NE| | | | | | | | | | |]; subst.
  - right. inversion DO; subst. cbn. eauto 8.
  - left. eauto.
  - exfalso. destruct B as (_ & _ & B). cbn in B. contradiction.
Qed.

(** ** What was written is read back, also in a later session *)
Lemma happens_attr u v s m e o m1 x y z : happens u v s m e o m1 -> ~ wrote x y z (e, o) ->
  tg_attr (ln_tg (m_line m1)) (x, y, z) = tg_attr (ln_tg (m_line m)) (x, y, z).
Proof.
  intros H W. inversion H as [l id sn a' o' t1 sn1 I1 D| | | | | |? ? ? ? ? ? ? ? [->| ->]| | | | |? ? ? ? ? ? ? ? ? [? ->]| | | | |]; subst; try reflexivity.
  inversion D; subst; try reflexivity. cbn [m_line with_tg ln_tg put_attr tg_attr]. destruct (triple_dec (x, y, z) (x0, y0, z0)) as [Q|]; [|reflexivity]. injection Q as -> -> ->.
  exfalso. apply W. unfold wrote. eauto.
Qed.
Lemma happen_attr u v s m r m' x y z : happen u v s m r m' -> Forall (fun c => ~ wrote x y z c) r ->
  tg_attr (ln_tg (m_line m')) (x, y, z) = tg_attr (ln_tg (m_line m)) (x, y, z).
Proof.
  intros H. induction H as [m|m e o m1 r m' H1 SP H2 IH]; intros F; [reflexivity|]. inversion_clear F as [|? ? F1 F2]. rewrite IH by assumption.
  eapply happens_attr; eassumption.
Qed.
Lemma story_remembers u c w l w' l' r1 x y z d val r2 k junk v r3 data : session_ok w -> user_memory u w -> story_ok u c -> tuned w l ->
  telling c w l (r1 ++ (Use (AskSet x y z d), Ret val) :: r2 ++ (Use (AskGet k junk x y z), Ret (Value v)) :: r3) w' l' ->
  carries_opt u d data -> Forall (fun c => ~ wrote x y z c) r2 -> fits k v /\ exists rest, data = le k v ++ rest.
Proof.
  intros SO UM OK TU T CA F. destruct (story_machine _ _ _ _ _ _ _ SO UM OK TU T) as (H & _).
  apply happen_app in H. destruct H as (m1 & _ & H). inversion H as [|? ? ? m2 ? ? H1 _ H2]; subst. apply happen_app in H2. destruct H2 as (m3 & H2 & H3).
  apply (happen_attr _ _ _ _ _ _ x y z) in H2; [|exact F]. inversion H3 as [|? ? ? m4 ? ? H4 _ _]; subst.
  inversion H1 as [la ia sa aa oa ta sna _ D1| | | | | | | | | | | | | | | |]; subst. inversion D1; subst. cbn [m_line with_tg ln_tg put_attr tg_attr] in H2.
  destruct (triple_dec (x, y, z) (x, y, z)) as [_|Q]; [|congruence].
  inversion H4 as [lb ib sb ab ob tb snb _ D2| | | | | | | | | | | | | | | |]; subst. inversion D2; subst. cbn [m_line with_tg ln_tg] in H2.
  match goal with A : tg_attr (ln_tg lb) _ = Some (le k v ++ ?rest) |- _ => rewrite A in H2; injection H2 as H2; split; [assumption|exists rest] end.
  match goal with C : carries_opt _ d ?d2 |- _ => match d2 with data => fail 1 | _ => assert (d2 = data) as -> by (eapply carries_opt_inj; eassumption) end end. congruence.
Qed.

(** ** Two sessions in a row, and opening twice *)
Definition w0 (ctl : list rx) (opens_io : list bool) : world := session_make [] (mkSock [] [] ctl []) (mkSock opens_io [] [] []) 0x195 0x4321 7 100.
Lemma session_ok_w0 c i : session_ok (w0 c i).
Proof. split; [exact (rbuf_make _ _ _ _ _ _ _)|split; [reflexivity|constructor]]. Qed.
Lemma user_memory_w0 c i : user_memory [] (w0 c i).
Proof. split; [intros b bl E; destruct b; discriminate|intros bl E; cbn in E; discriminate]. Qed.
Definition idle : line := mkLine false false (mkTarget 0 no_attrs []).
Lemma tuned_w0 c i l : tg_conns (ln_tg l) = [] -> tuned (w0 c i) l.
Proof. intros E. split; [split; [repeat split; reflexivity|split; constructor]|]. rewrite E. reflexivity. Qed.
Definition set3 : wish := AskSet 1 2 3 (Some (prim_ser 2 513)).
Definition get3 : wish := AskGet 2 0 1 2 3.
Lemma set3_ok : wish_ok [] set3.
Proof. repeat split; try reflexivity. exists (le 2 513). split; [exact (carries_prim _ 2 513)|reflexivity]. Qed.
Lemma get3_ok : wish_ok [] get3.
Proof. repeat split; reflexivity. Qed.
Definition then_if (e : errand) (c : story) : story := Then e (fun o => match o with Ret _ => c | _ => End end).
Definition dial : errand := Dial "plc" "44818" "2222".
Definition twice : story := then_if dial (then_if (Use set3) (then_if HangUp (then_if dial (then_if (Use get3) End)))).
Lemma twice_ok : story_ok [] twice /\ orderly false twice.
Proof.
  assert (T : forall e c, errand_ok [] e -> story_ok [] c -> story_ok [] (then_if e c)) by (intros e c A B; split; [exact A|intros []; try exact I; exact B]).
  split; [unfold twice; repeat (apply T; [first [exact I|exact set3_ok|exact get3_ok]|]); exact I|].
  unfold twice, then_if. cbn [orderly dial]. split; [reflexivity|]. intros []; try exact I. split; [reflexivity|]. intros []; try exact I. split; [reflexivity|].
  split; [|reflexivity]. intros _. split; [reflexivity|]. intros []; try exact I. split; [reflexivity|]. intros []; exact I.
Qed.
Lemma registered_frame id : fits 4 id -> reply_frame (registered id) 0x65 id (registration 1 0).
Proof. intros F. exists 0, 0, 0, 0, []. rewrite app_nil_r. split; [|reflexivity]. repeat split; try reflexivity; assumption. Qed.
Definition nothing (id : N) : list byte := request 0x6F id [].
Lemma nothing_frame id : fits 4 id -> reply_frame (nothing id) 0x6F id [].
Proof. intros F. exists 0, 0, 0, 0, []. rewrite app_nil_r. split; [|reflexivity]. repeat split; try reflexivity; assumption. Qed.
Definition twice_world : world :=
  w0 [RxData (registered 9); RxData (explicit_reply 9 0x90 0 []); RxData (registered 10); RxData (explicit_reply 10 0x8E 0 (le 2 513))] [].
Definition after (e : errand) (w : world) : world := snd (carry e w).
Definition opening (id : N) : list event :=
  [EOpen Ctl "plc" "44818" true; EOpen Io "plc" "2222" true; ESend Ctl register_request (Some (len register_request)); ERecv Ctl (Some (registered id))].
Lemma meets_opening l id l1 : fits 4 id -> id <> 0 -> ln_io l = false -> l1 = with_tg (handle id (ln_tg l)) (with_io true (dialled l)) -> meets l (opening id) l1.
Proof.
  intros F Z IO ->. apply meets_dial. apply meets_io; [exact IO|]. eapply (meets_registered _ _ id 0); try reflexivity; [exact Z|apply registered_frame; exact F|]. apply meets_nil.
Qed.
Definition told_twice : list (errand * outcome told) :=
  [(dial, Ret Done); (Use set3, Ret Done); (HangUp, Ret Done); (dial, Ret Done); (Use get3, Ret (Value 513))].
Lemma twice_telling : exists w' l', telling twice twice_world idle told_twice w' l'.
Proof.
  set (w1 := after dial twice_world). set (w2 := after (Use set3) w1). set (w3 := after HangUp w2). set (w4 := after dial w3). set (w5 := after (Use get3) w4).
  set (l1 := mkLine true true (mkTarget 9 no_attrs [])). set (l2 := mkLine true true tg_a). set (l3 := mkLine false false (handle 0 tg_a)).
  set (l4 := mkLine true true (handle 10 tg_a)). exists w5, l4.
  apply (telling_call _ _ _ _ _ w1 (opening 9) l1); [vm_compute; reflexivity|vm_compute; reflexivity|apply meets_opening; try reflexivity; discriminate|]. cbn [next_of].
  apply (telling_call _ _ _ _ _ w2 [ESend Ctl (set_request 9 1 2 3 (le 2 513)) (Some (len (set_request 9 1 2 3 (le 2 513)))); ERecv Ctl (Some (explicit_reply 9 0x90 0 []))] l2);
    [vm_compute; reflexivity|vm_compute; reflexivity| |].
  { eapply (meets_served l1 _ _ _ tg_a); [reflexivity|reflexivity|discriminate|reflexivity| |apply meets_nil].
    apply (serves_set tg9 1 2 3 (le 2 513) 0x90 [] []); try reflexivity. apply (answers_9 0x90 0 []); reflexivity. }
  cbn [next_of]. apply (telling_call _ _ _ _ _ w3 [ESend Ctl (unregister 9) (Some (len (unregister 9))); EClose Ctl true; EClose Io true] l3);
    [vm_compute; reflexivity|vm_compute; reflexivity| |].
  { eapply (meets_bye l2 _ 9); try reflexivity. apply meets_hang_up. apply meets_io_shut. apply meets_nil. }
  cbn [next_of]. apply (telling_call _ _ _ _ _ w4 (opening 10) l4); [vm_compute; reflexivity|vm_compute; reflexivity|apply meets_opening; try reflexivity; discriminate|]. cbn [next_of].
  apply (telling_call _ _ _ _ _ w5 [ESend Ctl (get_request 10 1 2 3) (Some (len (get_request 10 1 2 3))); ERecv Ctl (Some (explicit_reply 10 0x8E 0 (le 2 513)))] l4);
    [vm_compute; reflexivity|vm_compute; reflexivity| |apply telling_stop].
  eapply (meets_served l4 _ _ _ (handle 10 tg_a)); [reflexivity|reflexivity|discriminate|reflexivity| |apply meets_nil].
  apply (serves_get (handle 10 tg_a) 1 2 3 0x8E [] (le 2 513)); try reflexivity. apply (answers_10 0x8E 0); reflexivity.
Qed.

(** Open, open again, read. *)
Definition again : story := Then dial (fun _ => Then dial (fun _ => Then (Use get3) (fun _ => End))).
Lemma again_ok : story_ok [] again.
Proof. split; [exact I|]. intros _. split; [exact I|]. intros _. split; [exact get3_ok|]. intros _. exact I. Qed.
Definition has3 : line := mkLine false false (mkTarget 0 (tg_attr tg_a) []).
Lemma again_crashes : exists w s w' l', session_ok w /\ user_memory [] w /\ tuned w has3 /\ se_id (w_se w) = 0 /\
  telling again w has3 [(dial, Ret Done); (dial, Throw SystemError s); (Use get3, Undef NullDeref)] w' l' /\
  tg_attr (ln_tg l') (1, 2, 3) = Some (le 2 513).
Proof.
  exists (w0 [RxData (registered 9); RxData (nothing 9)] [false; true]).
  set (w := w0 _ _). set (w1 := after dial w). set (w2 := after dial w1). set (w3 := after (Use get3) w2).
  set (l1 := mkLine true true (mkTarget 9 (tg_attr tg_a) [])). set (l2 := mkLine true true (mkTarget 0 (tg_attr tg_a) [])).
  eexists. exists w3, l2. split; [apply session_ok_w0|]. split; [apply user_memory_w0|]. split; [apply tuned_w0; reflexivity|]. split; [reflexivity|]. split; [|reflexivity].
  apply (telling_call _ _ _ _ _ w1 (opening 9) l1); [vm_compute; reflexivity|vm_compute; reflexivity|apply meets_opening; try reflexivity; discriminate|]. cbn [next_of].
  eapply (telling_call _ _ _ _ _ w2 [EOpen Ctl "plc" "44818" true; EOpen Io "plc" "2222" false] l2); [vm_compute; reflexivity|vm_compute; reflexivity| |].
  { apply meets_dial. apply meets_no_io. left. apply meets_nil. }
  cbn [next_of]. apply (telling_call _ _ _ _ _ w3 [ESend Ctl (get_request 9 1 2 3) (Some (len (get_request 9 1 2 3))); ERecv Ctl (Some (nothing 9))] l2);
    [vm_compute; reflexivity|vm_compute; reflexivity| |apply telling_stop].
  eapply (meets_unknown l2 _ 9); try reflexivity; [left; discriminate|apply nothing_frame; reflexivity|apply meets_nil].
Qed.
(** A second open in a session always fails, and leaves a session that no longer works. *)
Lemma reopen_breaks u v s m h p q o m1 : in_session m -> ln_io (m_line m) = true -> happens u v s m (Dial h p q) o m1 ->
  (exists x, o = Throw SystemError x) /\ (m1 = m \/ (~ in_session m1 /\ m_id m1 = m_id m)).
Proof.
  intros IS IO H. inversion H as [| | | | | |l id sn ? ? ? x l' L|l id sn ? ? ? x b B|l id sn ? ? ? x B|l id sn ? ? ? new B|l id sn ? ? ? x l' B|l id sn ? ? ? x t B|l id sn ? ? ? x B| | | |]; subst; cbn in IO;
    try (exfalso; congruence).
  - split; [eauto|]. destruct L as [->| ->]; [left; reflexivity|]. right. split; [|reflexivity]. intros (A & _). discriminate A.
  - split; [eauto|]. right. split; [|reflexivity]. intros (_ & A & A2). apply A. exact A2.
Qed.
Lemma broken_use u v s m a o m1 : ~ in_session m -> m_id m <> 0 -> happens u v s m (Use a) o m1 -> ((exists x, o = Throw SystemError x) \/ exists ub, o = Undef ub) /\ m_id m1 = m_id m /\ ~ in_session m1.
Proof.
  intros NS NZ H. inversion H as [l id sn a' o' t1 sn1 I1 D|l id sn a' x I1| | | | | | | | | | | | | | |]; subst; try contradiction.
  - split; [left; eauto|]. split; [reflexivity|exact NS].
  - split; [right; eauto|]. split; [reflexivity|exact NS].
  - split; [right; eauto|]. split; [reflexivity|exact NS].
Qed.
Lemma story_reopen u v s m h p q o m1 : in_session m -> ln_io (m_line m) = true -> happens u v s m (Dial h p q) o m1 ->
  (exists x, o = Throw SystemError x) /\
  (m1 = m \/ forall r m2, happen u v s m1 r m2 -> Forall (fun c => exists a, fst c = Use a) r -> Forall (fun c => (exists x, snd c = Throw SystemError x) \/ exists ub, snd c = Undef ub) r).
Proof.
  intros IS IO H. destruct (reopen_breaks _ _ _ _ _ _ _ _ _ IS IO H) as (T & [->|(NS & ID)]); split; try exact T; [left; reflexivity|]. right.
  assert (NZ : m_id m1 <> 0) by (rewrite ID; apply IS). clear H IS IO ID T. intros r m2 R.
  induction R as [m0|m0 e o0 m3 r m' H1 SP H2 IH]; intros F; [constructor|]. inversion_clear F as [|? ? (a & F1) F2]. cbn in F1. subst e.
  destruct (broken_use _ _ _ _ _ _ _ NS NZ H1) as (A & B & C). constructor; [exact A|]. apply IH; [exact C|rewrite B; exact NZ|exact F2].
Qed.
