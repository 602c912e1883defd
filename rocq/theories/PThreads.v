(** Interleavings. *)
From Verif Require Export PIo.

(** ** One command by itself *)
Lemma alone req : forall n b w o w', sendCommand req w = (o, w') ->
  interleave (repeat false (3 + n)) (PCmdSend req) b w = (PCmdDone o, b, w').
Proof.
  intros n b w o w' E.
  assert (D : forall r k x, interleave (repeat false k) (PCmdDone r) b x = (PCmdDone r, b, x)).
  { intros r k. induction k; intros x; [reflexivity|]. cbn [repeat interleave thread_step]. apply IHk. }
  unfold sendCommand, mbind in E.
  change (repeat false (3 + n)) with (false :: false :: false :: repeat false n).
  cbn [interleave thread_step]. destruct (sc_send req w) as [[a|c s|u|] w1].
  2,3,4: injection E as <- <-; cbn [next cmd_fail thread_step]; apply D.
  cbn [next thread_step]. destruct (sc_recv w1) as [[k|c s|u|] w2].
  2,3,4: injection E as <- <-; cbn [next cmd_fail thread_step]; apply D.
  cbn [next thread_step]. rewrite E. apply D.
Qed.
Lemma alone2 req : forall n a w o w', sendCommand req w = (o, w') ->
  interleave (repeat true (3 + n)) a (PCmdSend req) w = (a, PCmdDone o, w').
Proof.
  intros n b w o w' E.
  assert (D : forall r k x, interleave (repeat true k) b (PCmdDone r) x = (b, PCmdDone r, x)).
  { intros r k. induction k; intros x; [reflexivity|]. cbn [repeat interleave thread_step]. apply IHk. }
  unfold sendCommand, mbind in E.
  change (repeat true (3 + n)) with (true :: true :: true :: repeat true n).
  cbn [interleave thread_step]. destruct (sc_send req w) as [[a|c s|u|] w1].
  2,3,4: injection E as <- <-; cbn [next cmd_fail thread_step]; apply D.
  cbn [next thread_step]. destruct (sc_recv w1) as [[k|c s|u|] w2].
  2,3,4: injection E as <- <-; cbn [next cmd_fail thread_step]; apply D.
  cbn [next thread_step]. rewrite E. apply D.
Qed.
Lemma interleave_app s1 : forall s2 a b w, interleave (s1 ++ s2) a b w =
  (let '(a', b', w') := interleave s1 a b w in interleave s2 a' b' w').
Proof.
  induction s1 as [|[|] s1 IH]; intros s2 a b w; [reflexivity|..]; cbn [app interleave].
  - destruct (thread_step b w) as [b' w']. apply IH.
  - destruct (thread_step a w) as [a' w']. apply IH.
Qed.
Lemma serial_commands ra rb n k w oa wa ob wb : sendCommand ra w = (oa, wa) -> sendCommand rb wa = (ob, wb) ->
  interleave (repeat false (3 + n) ++ repeat true (3 + k)) (PCmdSend ra) (PCmdSend rb) w = (PCmdDone oa, PCmdDone ob, wb).
Proof.
  intros Ea Eb. rewrite interleave_app. rewrite (alone ra n (PCmdSend rb) w oa wa Ea). exact (alone2 rb k (PCmdDone oa) wa ob wb Eb).
Qed.

(** ** One command among I/O sends *)
Lemma parse_reply req w got : reads (w_mem w) (view_take (recv_view w) (len got)) got ->
  exists o, sc_parse req (len got) w = (o, w) /\
  ((exists ses payload p, reply_frame got (h_command (ep_header req)) ses payload /\ matches (se_id (w_se w)) ses /\
      o = Ret p /\ h_session (ep_header p) = ses /\ holds (w_mem w) (ep_payload p) payload) \/
   ((forall ses payload, reply_frame got (h_command (ep_header req)) ses payload -> ~ matches (se_id (w_se w)) ses) /\
     exists e s, is_a e LogicError = true /\ o = Throw e s)).
Proof.
  intros R. unfold sc_parse, mbind at 1, m_decode.
  destruct (packet_decode (w_mem w) _ 0 (ep_make0 0 0) _ R) as [(cmd & ses & st & c0 & c1 & o & pl & rest & p & F & Eg & D & _ & Hh & Hp)|[N (s & r & p & D)]]; rewrite D; rewrite set_mem_same.
  - assert (H : reply_frame got cmd ses pl) by (do 5 eexists; split; [exact F|exact Eg]).
    cbn [fst]. unfold mbind at 1. destruct (N.eq_dec cmd (h_command (ep_header req))) as [Ec|Ec].
    + destruct (matches_dec (se_id (w_se w)) ses) as [Hm|Hm].
      * rewrite (check_ok p); [|rewrite Hh; exact Ec|rewrite Hh; exact Hm].
        eexists. split; [reflexivity|]. left. exists ses, pl, p. subst cmd. rewrite Hh. auto.
      * destruct (check_bad p (h_command (ep_header req)) w) as [s Ck]; [rewrite Hh; intros _; exact Hm|].
        rewrite Ck. eexists. split; [reflexivity|]. right. split; [|do 2 eexists; split; [|reflexivity]; reflexivity].
        intros ses' pl' H'. destruct (reply_frame_inj _ _ _ _ _ _ _ H H') as (_ & <- & _). exact Hm.
    + destruct (check_bad p (h_command (ep_header req)) w) as [s Ck]; [rewrite Hh; intros X; contradiction|].
      rewrite Ck. eexists. split; [reflexivity|]. right. split; [|do 2 eexists; split; [|reflexivity]; reflexivity].
      intros ses' pl' H'. destruct (reply_frame_inj _ _ _ _ _ _ _ H H') as (X & _). contradiction.
  - eexists. split; [reflexivity|]. right. split; [|do 2 eexists; split; [|reflexivity]; reflexivity].
    intros ses pl (a1 & a2 & a3 & a4 & rest & F & X). exfalso. exact (N _ _ _ _ _ _ _ _ F X).
Qed.

(** Where the command is, seen from the world [w0] it started in. *)
Definition stage (w0 : world) (req : encap_packet) (bs : list byte) (a : phase) (w : world) (es : list event) : Prop :=
  match a with
  | PCmdSend r => r = req /\ w_ctl w = w_ctl w0 /\ ctl_talk es = []
  | PCmdRecv r => r = req /\ exists n, sent (w_ctl w0) bs = Some n /\ w_ctl w = next_send (w_ctl w0) /\ ctl_talk es = [ESend Ctl bs (Some n)]
  | PCmdParse r n => r = req /\ exists got, reply_of (w_ctl w0) bs = Reply got /\ n = len got /\
      reads (w_mem w) (view_take (recv_view w) (len got)) got /\ w_ctl w = left_of (w_ctl w0) bs /\ ctl_talk es = events (w_ctl w0) bs
  | PCmdDone o => command_outcome w0 (h_command (ep_header req)) bs o w /\ w_ctl w = left_of (w_ctl w0) bs /\ ctl_talk es = events (w_ctl w0) bs
  | _ => False
  end.
Definition among (u : heap) (w0 : world) (req : encap_packet) (bs : list byte) (ps : list cpf_packet) (fs : list (list byte))
  (a b : phase) (w : world) : Prop :=
  exists es done rest, gained w0 w es /\ stage w0 req bs a w es /\ b = PIoSends rest /\
    ps = done ++ rest /\ io_sends es = take (len done) fs /\
    w_se w = w_se w0 /\ w_rbuf w = w_rbuf w0 /\ rbuf_ok w /\ user_memory u w /\ mem_kept w0 w.

Lemma io_sends_app a b : io_sends (a ++ b) = io_sends a ++ io_sends b.
Proof. unfold io_sends. apply flat_map_app. Qed.
Lemma reads_hext m m' v bs : hext m m' -> reads m v bs -> reads m' v bs.
Proof.
  unfold reads, load_view, load. intros H R. destruct (v_len v =? 0); [exact R|].
  destruct (nth_error m (v_blk v)) as [[bl|]|] eqn:E; try discriminate. rewrite (H _ _ E). exact R.
Qed.
Lemma holds_hext m m' p bs : hext m m' -> holds m p bs -> holds m' p bs.
Proof.
  intros H. destruct p as [s|]; cbn; [|auto]. intros (Z & sb & E & R). split; [exact Z|]. exists sb. split; [exact E|]. eapply reads_hext; eassumption.
Qed.
Lemma outcome_hext w0 cmd bs o w w' : command_outcome w0 cmd bs o w -> hext (w_mem w) (w_mem w') -> command_outcome w0 cmd bs o w'.
Proof.
  unfold command_outcome. intros C H. destruct (reply_of _ _); try exact C.
  destruct C as [(ses & pl & p & A & B & C & D & E)|C]; [left|right; exact C]. exists ses, pl, p. repeat split; try assumption. eapply holds_hext; eassumption.
Qed.

Definition io_bytes (u : heap) (p : cpf_packet) (f : list byte) : Prop := carries u (cpf_ser p) f /\ exists xs, f = cpf xs.

Lemma stage_io w0 req bs a w w' es bs' n : stage w0 req bs a w es -> w_ctl w' = w_ctl w -> w_rbuf w' = w_rbuf w ->
  hext (w_mem w) (w_mem w') -> stage w0 req bs a w' (es ++ [ESend Io bs' n]).
Proof.
  intros S C Rb H. assert (T : ctl_talk (es ++ [ESend Io bs' n]) = ctl_talk es) by (rewrite ctl_talk_app; apply app_nil_r).
  destruct a; cbn [stage] in *; try exact S; rewrite T, C.
  - exact S.
  - exact S.
  - destruct S as (E & got & A & B & R & D). split; [exact E|]. exists got. split; [exact A|]. split; [exact B|].
    split; [|exact D]. replace (recv_view w') with (recv_view w) by (unfold recv_view; congruence). eapply reads_hext; eassumption.
  - destruct S as (A & B). split; [eapply outcome_hext; eassumption|exact B].
Qed.
Lemma take_done {A} (done rest : list cpf_packet) (fs : list A) R p f :
  Forall2 R (done ++ p :: rest) fs -> R p f -> (forall g, R p g -> g = f) ->
  take (len (done ++ [p])) fs = take (len done) fs ++ [f].
Proof.
  intros F Rp U. apply Forall2_app_inv_l in F. destruct F as (f1 & f2 & F1 & F2 & ->).
  inversion F2 as [|? g ? f3 Rg F3]; subst. rewrite (U g Rg).
  assert (L : len done = len f1) by (unfold len; rewrite (Forall2_len _ _ _ F1); reflexivity).
  rewrite L, take_app_len. rewrite len_app, L. replace (f1 ++ f :: f3) with ((f1 ++ [f]) ++ f3) by (rewrite <- app_assoc; reflexivity).
  change (len [p]) with 1. replace (len f1 + 1) with (len (f1 ++ [f])) by (rewrite len_app; reflexivity). apply take_app_len.
Qed.
Lemma carries_inj m s a b : carries m s a -> carries m s b -> a = b.
Proof.
  intros [_ A] [_ B]. destruct (write_agree _ _ _ A) as [Ea _]. destruct (write_agree _ _ _ B) as [Eb _].
  specialize (Ea []). specialize (Eb []). rewrite Ea in Eb. cbn [app] in Eb. congruence.
Qed.
Lemma among_io u w0 req bs ps fs a b w : Forall2 (io_bytes u) ps fs -> among u w0 req bs ps fs a b w ->
  among u w0 req bs ps fs a (fst (thread_step b w)) (snd (thread_step b w)).
Proof.
  intros F (es & done & rest & G & S & -> & Ep & Ei & Hs & Hr & B & U & K).
  destruct rest as [|p rest].
  - cbn [thread_step fst snd]. exists es, done, []. repeat (split; try assumption).
  - cbn [thread_step fst snd].
    assert (X : exists f, io_bytes u p f).
    { rewrite Ep in F. apply Forall2_app_inv_l in F. destruct F as (f1 & f2 & _ & F2 & _). inversion F2; subst. eauto. }
    destruct X as (f & Hc & xs & Ef).
    assert (C : carries (w_mem w) (cpf_ser p) (cpf xs)) by (rewrite <- Ef; eapply carries_hext; [exact (proj1 U)|exact Hc]).
    destruct (send_io w p xs B C) as (o & w' & E & X1 & X2 & X3 & X4 & X5 & _ & X6).
    pose proof (send_io_keeps w p xs o w' C E) as H. rewrite E. cbn [snd].
    assert (X : exists n, w_net w' = w_net w ++ [ESend Io f n]).
    { rewrite Ef. destruct (sent (w_io w) (cpf xs)); destruct X6 as [_ X6]; eauto. }
    destruct X as (n & X). exists (es ++ [ESend Io f n]), (done ++ [p]), rest.
    split; [unfold gained in *; rewrite X, G, <- app_assoc; reflexivity|].
    split; [eapply stage_io; eassumption|]. split; [reflexivity|]. split; [rewrite Ep, <- app_assoc; reflexivity|]. split.
    { rewrite io_sends_app, Ei. symmetry. apply (take_done done rest fs (io_bytes u)); [rewrite <- Ep; exact F|split; [exact Hc|eauto]|].
      intros g [Hg _]. eapply carries_inj; eassumption. }
    split; [congruence|]. split; [congruence|]. split; [assumption|]. split; [eapply user_kept; [exact U|exact X4|congruence]|].
    eapply mem_kept_trans; [|exact K|exact X4]. congruence.
Qed.
Definition progress (a : phase) : nat := match a with PCmdSend _ => 0 | PCmdRecv _ => 1 | PCmdParse _ _ => 2 | _ => 3 end.
Lemma among_cmd u w0 req bs ps fs a b w : carries u (ep_ser req) bs -> among u w0 req bs ps fs a b w ->
  among u w0 req bs ps fs (fst (thread_step a w)) b (snd (thread_step a w)) /\
  (min 3 (progress a + 1) <= progress (fst (thread_step a w)))%nat.
Proof.
  intros C (es & done & rest & G & S & -> & Ep & Ei & Hs & Hr & B & U & K).
  destruct a as [r|r|r n| |n|ps0|o|o]; cbn [stage] in S; try contradiction.
  - destruct S as (-> & Sc & St). cbn [thread_step].
    assert (Cw : carries (w_mem w) (ep_ser req) bs) by (eapply carries_hext; [exact (proj1 U)|exact C]).
    unfold sc_send. rewrite (send_ctl _ _ _ Cw). set (w1 := mkW _ _ _ _ _ _).
    destruct (rbuf_grow w w1 B eq_refl eq_refl) as [B1 K1].
    assert (X : among u w0 req bs ps fs (next (match sent (w_ctl w) bs with Some n => Ret n | None => Throw SystemError "send" end) (fun _ => PCmdRecv req) cmd_fail) (PIoSends rest) w1).
    { exists (es ++ [ESend Ctl bs (sent (w_ctl w) bs)]), done, rest.
      split; [unfold gained in *; unfold w1; cbn [w_net]; rewrite G, <- app_assoc; reflexivity|]. split.
      - rewrite Sc. destruct (sent (w_ctl w0) bs) as [n|] eqn:Sn; cbn [next cmd_fail stage].
        + split; [reflexivity|]. exists n. split; [exact Sn|]. split; [unfold w1; cbn [w_ctl]; rewrite Sc; reflexivity|].
          rewrite ctl_talk_app, St. reflexivity.
        + unfold command_outcome, left_of, events, reply_of, talk. rewrite Sn. cbn [fst snd]. split; [eauto|]. split; [unfold w1; cbn [w_ctl]; rewrite Sc; reflexivity|].
          rewrite ctl_talk_app, St. reflexivity.
      - split; [reflexivity|]. split; [exact Ep|]. split; [rewrite io_sends_app, Ei; apply app_nil_r|].
        split; [exact Hs|]. split; [exact Hr|]. split; [exact B1|]. split; [eapply user_kept; [exact U|exact K1|reflexivity]|].
        eapply mem_kept_trans; [|exact K|exact K1]. congruence. }
    destruct (sent (w_ctl w) bs); cbn [next cmd_fail fst snd progress] in *; (split; [exact X|lia]).
  - destruct S as (-> & n & Sn & Sc & St). cbn [thread_step]. unfold sc_recv.
    destruct (so_recv (w_ctl w0)) as [|[d|] rs] eqn:Rv.
    + assert (Rw : so_recv (get_sock Ctl w) = []) by (cbn [get_sock]; rewrite Sc; unfold next_send; cbn [so_recv]; exact Rv).
      rewrite (recv_block Ctl w) by exact Rw. cbn [next cmd_fail fst snd]. split; [|first [apply PeanoNat.Nat.le_min_l | cbn; lia]].
      exists es, done, rest. split; [exact G|]. split; [|repeat (split; try assumption)]. cbn [cmd_fail stage].
      unfold command_outcome, left_of, events, reply_of, talk. rewrite Sn, Rv. cbn [fst snd]. split; [reflexivity|]. split; [rewrite Sc; unfold next_send; rewrite Rv; reflexivity|exact St].
    + assert (Rw : so_recv (get_sock Ctl w) = RxData d :: rs) by (cbn [get_sock]; rewrite Sc; unfold next_send; cbn [so_recv]; exact Rv).
      destruct (recv_data Ctl w d rs B Rw) as (m' & E & R & (bl & Hb & Lb) & Ko & Ln). rewrite E. cbn [next fst snd]. split; [|first [apply PeanoNat.Nat.le_min_l | cbn; lia]].
      exists (es ++ [ERecv Ctl (Some (take 4096 d))]), done, rest. set (w2 := emit _ _).
      assert (K2 : mem_kept w w2) by (intros b0 x0 Nb Hx; change (w_mem w2) with m'; rewrite Ko by exact Nb; exact Hx).
      split; [unfold gained in *; unfold w2; cbn [w_net emit set_mem with_recv set_sock]; rewrite G, <- app_assoc; reflexivity|].
      split; [|split; [reflexivity|]; split; [exact Ep|]; split; [rewrite io_sends_app, Ei; apply app_nil_r|]; split; [exact Hs|]; split; [exact Hr|];
        split; [exists bl; split; [exact Hb|exact Lb]|]; split; [eapply user_kept; [exact U|exact K2|reflexivity]|]; eapply mem_kept_trans; [|exact K|exact K2]; congruence].
      cbn [stage]. split; [reflexivity|]. exists (take 4096 d). unfold left_of, events, reply_of, talk. rewrite Sn, Rv. cbn [fst snd].
      split; [reflexivity|]. split; [reflexivity|]. split; [exact R|]. split.
      * unfold w2. cbn [w_ctl emit set_mem with_recv set_sock get_sock]. rewrite Sc. reflexivity.
      * rewrite ctl_talk_app, St. reflexivity.
    + assert (Rw : so_recv (get_sock Ctl w) = RxFail :: rs) by (cbn [get_sock]; rewrite Sc; unfold next_send; cbn [so_recv]; exact Rv).
      rewrite (recv_fail Ctl w _ rs) by exact Rw. cbn [next cmd_fail fst snd]. split; [|first [apply PeanoNat.Nat.le_min_l | cbn; lia]].
      exists (es ++ [ERecv Ctl None]), done, rest. set (w2 := emit _ _).
      split; [unfold gained in *; unfold w2; cbn [w_net emit set_mem with_recv set_sock]; rewrite G, <- app_assoc; reflexivity|].
      split; [|split; [reflexivity|]; split; [exact Ep|]; split; [rewrite io_sends_app, Ei; apply app_nil_r|]; split; [exact Hs|]; split; [exact Hr|];
        split; [exact B|]; split; [exact U|exact K]].
      cbn [cmd_fail stage]. unfold command_outcome, left_of, events, reply_of, talk. rewrite Sn, Rv. cbn [fst snd].
      split; [eauto|]. split.
      * unfold w2. cbn [w_ctl emit set_mem with_recv set_sock get_sock]. rewrite Sc. reflexivity.
      * rewrite ctl_talk_app, St. reflexivity.
  - destruct S as (-> & got & Rp & -> & R & Sc & St). cbn [thread_step].
    destruct (parse_reply req w got R) as (o & E & O). rewrite E. cbn [fst snd]. split; [|first [apply PeanoNat.Nat.le_min_l | cbn; lia]].
    exists es, done, rest. split; [exact G|]. split; [|repeat (split; try assumption)]. cbn [cmd_fail stage].
    split; [|split; assumption]. unfold command_outcome. rewrite Rp. rewrite <- Hs. exact O.
  - cbn [thread_step fst snd]. split; [|first [apply PeanoNat.Nat.le_min_l | cbn; lia]]. exists es, done, rest. split; [exact G|]. split; [exact S|]. repeat (split; try assumption).
Qed.

Lemma command_among_sends u req bs ps fs : carries u (ep_ser req) bs -> Forall2 (io_bytes u) ps fs ->
  forall sched w0 a b w, among u w0 req bs ps fs a b w ->
  forall a' b' w', interleave sched a b w = (a', b', w') ->
  among u w0 req bs ps fs a' b' w' /\ (min 3 (progress a + turns false sched) <= progress a')%nat.
Proof.
  intros C F sched. induction sched as [|[|] s IH]; intros w0 a b w I a' b' w' E.
  - injection E as <- <- <-. split; [exact I|]. unfold turns. cbn [filter List.length]. rewrite PeanoNat.Nat.add_0_r. destruct a; cbn [progress]; lia.
  - cbn [interleave] in E. pose proof (among_io _ _ _ _ _ _ _ _ _ F I) as I'. destruct (thread_step b w) as [b1 w1]. cbn [fst snd] in I'.
    destruct (IH _ _ _ _ I' _ _ _ E) as [A B]. split; [exact A|]. exact B.
  - cbn [interleave] in E. pose proof (among_cmd _ _ _ _ _ _ _ _ _ C I) as [I' P]. destruct (thread_step a w) as [a1 w1]. cbn [fst snd] in I', P.
    destruct (IH _ _ _ _ I' _ _ _ E) as [A B]. split; [exact A|]. unfold turns in *. cbn [filter Bool.eqb List.length].
    lia.
Qed.
Lemma command_with_sends u req bs ps fs sched w a b w' : rbuf_ok w -> user_memory u w -> carries u (ep_ser req) bs -> Forall2 (io_bytes u) ps fs ->
  interleave sched (PCmdSend req) (PIoSends ps) w = (a, b, w') -> (3 <= turns false sched)%nat ->
  exists o es done rest, a = PCmdDone o /\ gained w w' es /\ command_outcome w (h_command (ep_header req)) bs o w' /\
    w_ctl w' = left_of (w_ctl w) bs /\ ctl_talk es = events (w_ctl w) bs /\ w_se w' = w_se w /\
    b = PIoSends rest /\ ps = done ++ rest /\ io_sends es = take (len done) fs.
Proof.
  intros B U C F E T.
  assert (I : among u w req bs ps fs (PCmdSend req) (PIoSends ps) w).
  { exists [], [], ps. split; [unfold gained; rewrite app_nil_r; reflexivity|]. split; [cbn; auto|]. split; [reflexivity|]. split; [reflexivity|].
    split; [reflexivity|]. split; [reflexivity|]. split; [reflexivity|]. split; [exact B|]. split; [exact U|]. intros b0 x0 _ H0. exact H0. }
  destruct (command_among_sends u req bs ps fs C F sched w _ _ w I a b w' E) as [(es & done & rest & G & S & Eb & Ep & Ei & Hs & _) P].
  cbn [progress] in P. destruct a; cbn [stage progress] in S, P; try contradiction; try lia.
  destruct S as (S1 & S2 & S3). exists r, es, done, rest. auto 10.
Qed.
