(** * PMachine: a client program against a conforming target (C112). *)
From Verif Require Export Vocab19 PTarget.
Local Open Scope N_scope.

Definition op_of (a : wish) : op :=
  match a with
  | AskGet k junk x y z => OpGet N (prim_cls k) junk x y z
  | AskSet x y z d => OpSet x y z d
  | AskJoin a b => OpCreate a b
  | AskLeave n => OpCloseConnection n
  end.
Lemma ask_op_ok u a : wish_ok u a -> op_ok u (op_of a).
Proof. destruct a; cbn; auto. intros (? & ? & ?). repeat split; try assumption. right. apply keeps_all. Qed.
Lemma ask_not_open a : ~ is_open_close (op_of a).
Proof. destruct a; cbn; auto. Qed.
Definition settled {A} (o : outcome A) : Prop := match o with Ret _ | Throw _ _ => True | _ => False end.
Lemma perform_step a w o w' : perform a w = (o, w') -> exists r, step (op_of a) w = (r, w') /\ (settled o <-> settled r).
Proof.
  destruct a as [k junk x y z|x y z d|a b|n]; cbn [perform op_of step]; unfold mbind, mret.
  - unfold getSingleAttribute. destruct (getSingleAttributeSerializable (prim_cls k) x y z junk w) as [[[] v] w1];
      intros E; apply pair_equal_spec in E; destruct E as [<- <-]; eexists; (split; [reflexivity|cbn; tauto]).
  - destruct (setSingleAttributeSerializable x y z d w) as [[] w1]; intros E; apply pair_equal_spec in E; destruct E as [<- <-]; eexists; (split; [reflexivity|cbn; tauto]).
  - destruct (createConnection a b w) as [[] w1]; intros E; apply pair_equal_spec in E; destruct E as [<- <-]; eexists; (split; [reflexivity|cbn; tauto]).
  - destruct (closeConnection n w) as [[] w1]; intros E; apply pair_equal_spec in E; destruct E as [<- <-]; eexists; (split; [reflexivity|cbn; tauto]).
Qed.

Lemma conforms_talk t k bs t' : conforms t (ctl_talk (events k bs)) t' ->
  (reply_of k bs = NoSend /\ t' = t /\ ctl_talk (events k bs) = [ESend Ctl bs None]) \/
  exists got, reply_of k bs = Reply got /\ serves t bs got t' /\ ctl_talk (events k bs) = [ESend Ctl bs (Some (len bs)); ERecv Ctl (Some got)].
Proof.
  unfold events, reply_of, talk. destruct (sent k bs) as [n|]; [|cbn; intros H; inversion H as [| |? ? ? ? H1]; subst; inversion H1; subst; auto].
  destruct (so_recv k) as [|[d|] r]; cbn; intros H; inversion H as [|? ? ? ? ? ? S C| ]; subst. inversion C; subst. eauto.
Qed.

(** ** One call *)
Definition extends (u : heap) (id vendor serial : N) (s : state) (a : wish) (o : outcome told) (es : list event) (s1 : state) : Prop :=
  forall l es2 s', runs u id vendor serial s1 l es2 s' -> (~ settled o -> l = [] /\ es2 = [] /\ s' = s1) -> runs u id vendor serial s ((a, o) :: l) (es ++ es2) s'.
Lemma perform_runs u a w o w' es t t' : session_ok w -> user_memory u w -> wish_ok u a -> perform a w = (o, w') -> gained w w' es ->
  agrees (w_se w) t -> numbers_ok (w_se w) -> conforms t (ctl_talk es) t' ->
  extends u (se_id (w_se w)) (se_vendor (w_se w)) (se_serial (w_se w)) (t, se_next_sn (w_se w)) a o (ctl_talk es) (t', se_next_sn (w_se w')) /\ o <> Stuck.
Proof.
  intros SO UM OK E G AG NU CO. destruct SO as (RB & FI & TK). pose proof AG as (Nz & Id & Cs).
  destruct a as [k junk x y z|x y z d|a b|n]; cbn [perform wish_ok] in *.
  - destruct OK as (X & Y & Z). destruct (get_attribute w k junk x y z RB X Y Z) as (ro & w1 & E1 & EX & OU).
    rewrite (mbind_unit _ Value _ _ _ E1) in E. apply pair_equal_spec in E. destruct E as [<- <-].
    destruct EX as (Se & _ & _ & _ & _ & Nt & _). rewrite Se. rewrite (gained_app _ _ _ _ Nt G) in *. apply conforms_talk in CO.
    destruct CO as [(Q & -> & ->)|(got & Q & S & ->)]; rewrite Q in OU.
    + destruct OU as [m ->]. split; [|discriminate]. intros l es2 s' R _. apply runs_unsent; [exact I|exact R].
    + rewrite <- Id in S. apply serves_get_inv in S; try assumption. rewrite Id in S. destruct S as [-> [(sv & ad & v & A & An)|(sv & st & ad & d & Ns & An)]].
      * destruct OU as [(sv' & ad' & v' & rest & An' & Fi & Ne & ->)|[(sv' & ad' & d & s & An' & L & ->)|[(B & ->)|(B & _)]]].
        -- destruct (answers_inj _ _ _ _ _ _ _ _ _ _ An An') as (_ & _ & _ & ->). split; [|discriminate]. intros l es2 s' R _.
           eapply runs_served; [|exact An|exact R]. eapply does_get; eassumption.
        -- destruct (answers_inj _ _ _ _ _ _ _ _ _ _ An An') as (_ & _ & _ & ->). split; [|discriminate]. intros l es2 s' R _.
           eapply runs_served; [|exact An|exact R]. eapply does_get_short; [eassumption| |lia]. intros ->. destruct L as [L _]. discriminate L.
        -- destruct B as [B|(sv' & ad' & An')]; [exfalso; exact (answers_not_crash _ _ _ _ _ _ An B)|].
           destruct (answers_inj _ _ _ _ _ _ _ _ _ _ An An') as (_ & _ & _ & ->). split; [|discriminate]. intros l es2 s' R _.
           eapply runs_served; [|exact An|exact R]. apply does_get_empty. exact A.
        -- exfalso. exact (B _ _ _ An).
      * assert (O : exists s, ro = Throw RuntimeError s).
        { destruct OU as [(sv' & ad' & v' & rest & An' & _)|[(sv' & ad' & d' & s & An' & _)|[([B|(sv' & ad' & An')] & _)|(_ & _ & B)]]]; [exfalso..|exact B].
          - destruct (answers_inj _ _ _ _ _ _ _ _ _ _ An An') as (_ & H & _). congruence.
          - destruct (answers_inj _ _ _ _ _ _ _ _ _ _ An An') as (_ & H & _). congruence.
          - exact (answers_not_crash _ _ _ _ _ _ An B).
          - destruct (answers_inj _ _ _ _ _ _ _ _ _ _ An An') as (_ & H & _). congruence. }
        destruct O as [m ->]. split; [|discriminate]. intros l es2 s' R _. eapply runs_refused; [exact I|exact Ns|exact An|exact R].
  - destruct OK as (X & Y & Z & data & CA & L). assert (CA' := carries_opt_hext _ _ _ _ (proj1 UM) CA).
    destruct (set_attribute w x y z d data RB X Y Z CA') as (ro & w1 & E1 & EX & OU).
    rewrite (mbind_unit _ (fun _ => Done) _ _ _ E1) in E. apply pair_equal_spec in E. destruct E as [<- <-].
    destruct EX as (Se & _ & _ & _ & _ & Nt & _). rewrite Se. rewrite (gained_app _ _ _ _ Nt G) in *. apply conforms_talk in CO.
    destruct CO as [(Q & -> & ->)|(got & Q & S & ->)]; rewrite Q in OU.
    + destruct OU as [m ->]. split; [|discriminate]. intros l es2 s' R _. apply runs_unsent; [exact I|exact R].
    + rewrite <- Id in S. apply serves_set_inv in S; try assumption. rewrite Id in S. destruct S as [(-> & sv & ad & q & An)|(-> & sv & st & ad & q & Ns & An)].
      * destruct OU as [(_ & ->)|[(B & _)|(B & _)]]; [|exfalso; exact (answers_not_crash _ _ _ _ _ _ An B)|exfalso; exact (B _ _ _ An)].
        split; [|discriminate]. intros l es2 s' R _. eapply runs_served; [|exact An|exact R]. apply does_set. exact CA.
      * destruct OU as [((sv' & ad' & q' & An') & _)|[(B & _)|(_ & _ & m & ->)]].
        -- destruct (answers_inj _ _ _ _ _ _ _ _ _ _ An An') as (_ & H & _). congruence.
        -- exfalso; exact (answers_not_crash _ _ _ _ _ _ An B).
        -- split; [|discriminate]. intros l es2 s' R _. eapply runs_refused; [exact I|exact Ns|exact An|exact R].
  - destruct OK as (X & Y). destruct (create_connection w a b RB X Y) as (ro & w1 & E1 & EX & NB & OU).
    rewrite (mbind_unit _ Number _ _ _ E1) in E. apply pair_equal_spec in E. destruct E as [<- <-].
    destruct EX as (_ & _ & _ & _ & Nt & _). rewrite (gained_app _ _ _ _ Nt G) in *. apply conforms_talk in CO.
    destruct NB as (N1 & N2 & N3 & N4 & N5). rewrite N4. unfold create_outcome in OU.
    destruct CO as [(Q & -> & ->)|(got & Q & S & ->)]; rewrite Q in OU.
    + destruct OU as [[m ->] _]. split; [|discriminate]. intros l es2 s' R _. apply runs_unsent; [exact I|exact R].
    + apply serves_open_inv in S; [|assumption|apply NU]. rewrite Id in S.
      destruct S as [(-> & Ni & sv & ad & dd & o2t & t2o & oapi & tapi & An & Op)|(-> & sv & st & ad & dd & Ns & An)].
      * destruct OU as [(sv' & ad' & d' & o2t' & t2o' & oapi' & tapi' & c & An' & Op' & Re & -> & Ec)|(_ & [B|[B|[B|B]]])]; [|exfalso..].
        -- split; [|discriminate]. intros l es2 s' R _. eapply runs_served; [|exact An|exact R].
           replace (len (se_conns (w_se w))) with (len (tg_conns t)) by (rewrite <- Cs; unfold len; now rewrite map_length). apply does_join. exact Ni.
        -- destruct B as (sv' & ad' & d' & o2t' & t2o' & sn & vn & os & oapi' & tapi' & m & An' & Op' & Ne & _).
           destruct (answers_inj _ _ _ _ _ _ _ _ _ _ An An') as (_ & _ & _ & <-). apply Ne. symmetry. exact (opened_inj _ _ _ _ _ _ _ _ _ _ _ _ _ _ _ Op Op').
        -- destruct B as (sv' & ad' & d' & m & An' & _ & No & _). destruct (answers_inj _ _ _ _ _ _ _ _ _ _ An An') as (_ & _ & _ & <-). exact (No _ _ _ _ _ _ _ Op).
        -- destruct B as [[B|(sv' & ad' & An')] _]; [exact (answers_not_crash _ _ _ _ _ _ An B)|].
           destruct (answers_inj _ _ _ _ _ _ _ _ _ _ An An') as (_ & _ & _ & ->). destruct Op as (rs & app & re & _ & B). symmetry in B. unfold forward_open_reply in B. discriminate B.
        -- destruct B as (B & _). exact (B _ _ _ An).
      * destruct OU as [(sv' & ad' & d' & o2t' & t2o' & oapi' & tapi' & c & An' & _)|(_ & [B|[B|[B|B]]])]; [exfalso..|].
        -- destruct (answers_inj _ _ _ _ _ _ _ _ _ _ An An') as (_ & H & _). congruence.
        -- destruct B as (sv' & ad' & d' & o2t' & t2o' & sn & vn & os & oapi' & tapi' & m & An' & _). destruct (answers_inj _ _ _ _ _ _ _ _ _ _ An An') as (_ & H & _). congruence.
        -- destruct B as (sv' & ad' & d' & m & An' & _). destruct (answers_inj _ _ _ _ _ _ _ _ _ _ An An') as (_ & H & _). congruence.
        -- destruct B as [[B|(sv' & ad' & An')] _]; [exact (answers_not_crash _ _ _ _ _ _ An B)|]. destruct (answers_inj _ _ _ _ _ _ _ _ _ _ An An') as (_ & H & _). congruence.
        -- destruct B as (_ & _ & m & ->). split; [|discriminate]. intros l es2 s' R _. eapply runs_refused; [exact I|exact Ns|exact An|exact R].
  - destruct (nth_error (se_conns (w_se w)) (N.to_nat n)) as [c|] eqn:Hn.
    + assert (Tc : cn_tick_size c < 256 /\ cn_ticks c < 256) by (rewrite Forall_forall in TK; apply TK; eapply nth_error_In; exact Hn).
      assert (Ht : nth_error (tg_conns t) (N.to_nat n) = Some (conn_key c)) by (rewrite <- Cs, nth_error_map, Hn; reflexivity).
      assert (Rq : requests t (AskLeave n)) by (cbn; rewrite Ht; discriminate).
      destruct (close_connection w n c RB Hn (proj1 Tc) (proj2 Tc)) as (ro & w1 & E1 & EX & OU).
      rewrite (mbind_unit _ (fun _ => Done) _ _ _ E1) in E. apply pair_equal_spec in E. destruct E as [<- <-].
      destruct EX as (_ & _ & _ & _ & Nt & _). rewrite (gained_app _ _ _ _ Nt G) in *. apply conforms_talk in CO.
      assert (Kc : key_fits (conn_key c)). { destruct NU as (_ & F & _). rewrite Forall_forall in F. apply F. eapply nth_error_In. exact Hn. }
      unfold drop_conn_outcome in OU. destruct CO as [(Q & -> & ->)|(got & Q & S & ->)]; rewrite Q in OU.
      * destruct OU as [[m ->] ->]. split; [|discriminate]. intros l es2 s' R _. apply runs_unsent; [exact Rq|exact R].
      * apply serves_close_inv in S; [|assumption|assumption]. rewrite Id in S.
        destruct S as [(-> & sv & ad & dd & An & Op)|(-> & sv & st & ad & dd & Ns & An)].
        -- destruct OU as [(sv' & ad' & d' & An' & Op' & -> & Ec)|(_ & [B|[B|[B|B]]])]; [|exfalso..].
           ++ split; [|discriminate]. intros l es2 s' R _. rewrite Ec in R. eapply runs_served; [|exact An|exact R]. apply does_leave. exact Ht.
           ++ destruct B as (sv' & ad' & d' & sn & vn & os & m & An' & Op' & Ne & _). destruct (answers_inj _ _ _ _ _ _ _ _ _ _ An An') as (_ & _ & _ & <-).
              apply Ne. symmetry. exact (closed_inj _ _ _ _ _ _ _ Op Op').
           ++ destruct B as (sv' & ad' & d' & m & An' & _ & No & _). destruct (answers_inj _ _ _ _ _ _ _ _ _ _ An An') as (_ & _ & _ & <-). exact (No _ _ _ Op).
           ++ destruct B as [[B|(sv' & ad' & An')] _]; [exact (answers_not_crash _ _ _ _ _ _ An B)|].
              destruct (answers_inj _ _ _ _ _ _ _ _ _ _ An An') as (_ & _ & _ & ->). destruct Op as (rs & app & re & _ & B). symmetry in B. unfold forward_close_reply in B. discriminate B.
           ++ destruct B as (B & _). exact (B _ _ _ An).
        -- destruct OU as [(sv' & ad' & d' & An' & _)|(Ec & [B|[B|[B|B]]])]; [exfalso..|].
           ++ destruct (answers_inj _ _ _ _ _ _ _ _ _ _ An An') as (_ & H & _). congruence.
           ++ destruct B as (sv' & ad' & d' & sn & vn & os & m & An' & _). destruct (answers_inj _ _ _ _ _ _ _ _ _ _ An An') as (_ & H & _). congruence.
           ++ destruct B as (sv' & ad' & d' & m & An' & _). destruct (answers_inj _ _ _ _ _ _ _ _ _ _ An An') as (_ & H & _). congruence.
           ++ destruct B as [[B|(sv' & ad' & An')] _]; [exact (answers_not_crash _ _ _ _ _ _ An B)|]. destruct (answers_inj _ _ _ _ _ _ _ _ _ _ An An') as (_ & H & _). congruence.
           ++ destruct B as (_ & _ & m & ->). rewrite Ec. split; [|discriminate]. intros l es2 s' R _. eapply runs_refused; [exact Rq|exact Ns|exact An|exact R].
    + pose proof (close_connection_bad w n Hn) as E1. rewrite (mbind_unit _ (fun _ => Done) _ _ _ E1) in E. apply pair_equal_spec in E. destruct E as [<- <-].
      unfold gained in G. rewrite <- (app_nil_r (w_net w)) in G at 1. apply app_inv_head in G. subst es. inversion CO; subst. split; [|discriminate].
      intros l es2 s' R Z. destruct Z as (-> & -> & ->); [intros []|]. apply runs_astray. cbn. rewrite <- Cs, nth_error_map, Hn. cbn. auto.
Qed.

(** ** Programs *)
Lemma play_exec u c : forall w l w', client_ok u c -> play c w = (l, w') ->
  exists rs, exec (map (fun x => op_of (fst x)) l) w = (rs, w') /\ Forall (op_ok u) (map (fun x => op_of (fst x)) l).
Proof.
  induction c as [|a next IH]; intros w l w' K E; cbn [play client_ok] in *.
  - injection E as <- <-. exists []. split; [reflexivity|constructor].
  - destruct K as [K1 K2]. destruct (perform a w) as [o w1] eqn:P. destruct (perform_step _ _ _ _ P) as (r & St & Se).
    assert (Go : forall l1, settled o -> play (next o) w1 = (l1, w') -> l = (a, o) :: l1 ->
      exists rs, exec (map (fun x => op_of (fst x)) l) w = (rs, w') /\ Forall (op_ok u) (map (fun x => op_of (fst x)) l)).
    { intros l1 S1 E1 ->. destruct (IH o w1 l1 w' (K2 o) E1) as (rs & X & F). cbn [map fst]. rewrite exec_cons, St, X.
      destruct r; [|..|cbn in Se; tauto|cbn in Se; tauto]; (eexists; split; [reflexivity|]; constructor; [apply ask_op_ok; exact K1|exact F]). }
    assert (End : ~ settled o -> l = [(a, o)] -> w' = w1 ->
      exists rs, exec (map (fun x => op_of (fst x)) l) w = (rs, w') /\ Forall (op_ok u) (map (fun x => op_of (fst x)) l)).
    { intros S1 -> ->. cbn [map fst]. rewrite exec_cons, St. destruct r; try (cbn in Se; tauto); (eexists; split; [reflexivity|]; constructor; [apply ask_op_ok; exact K1|constructor]). }
    destruct o as [v|e m|ub|].
    + destruct (play (next (Ret v)) w1) as [l1 w2] eqn:E2. apply pair_equal_spec in E. destruct E as [E <-]. symmetry in E. eapply Go; [exact I|reflexivity|exact E].
    + destruct (play (next (Throw e m)) w1) as [l1 w2] eqn:E2. apply pair_equal_spec in E. destruct E as [E <-]. symmetry in E. eapply Go; [exact I|reflexivity|exact E].
    + apply pair_equal_spec in E. destruct E as [E <-]. symmetry in E. apply End; auto.
    + apply pair_equal_spec in E. destruct E as [E <-]. symmetry in E. apply End; auto.
Qed.
Lemma play_runs u c : forall w l w' es t t', session_ok w -> user_memory u w -> client_ok u c -> play c w = (l, w') -> gained w w' es ->
  agrees (w_se w) t -> numbers_ok (w_se w) -> conforms t (ctl_talk es) t' ->
  runs u (se_id (w_se w)) (se_vendor (w_se w)) (se_serial (w_se w)) (t, se_next_sn (w_se w)) l (ctl_talk es) (t', se_next_sn (w_se w')) /\
  agrees (w_se w') t' /\ numbers_ok (w_se w').
Proof.
  induction c as [|a next IH]; intros w l w' es t t' SO UM K E G AG NU CO; cbn [play client_ok] in *.
  - injection E as <- <-. unfold gained in G. rewrite <- (app_nil_r (w_net w)) in G at 1. apply app_inv_head in G. subst es. inversion CO; subst.
    split; [constructor|]. split; assumption.
  - destruct K as [K1 K2]. destruct (perform a w) as [o w1] eqn:P. destruct (perform_step _ _ _ _ P) as (r & St & Se).
    destruct (step_kept u _ w r w1 SO UM (ask_op_ok _ _ K1) St) as (S1 & U1 & OF). pose proof OF as (e1 & G1 & _).
    assert (Step : forall t1, conforms t (ctl_talk e1) t1 ->
      extends u (se_id (w_se w)) (se_vendor (w_se w)) (se_serial (w_se w)) (t, se_next_sn (w_se w)) a o (ctl_talk e1) (t1, se_next_sn (w_se w1)) /\ o <> Stuck /\
      agrees (w_se w1) t1 /\ numbers_ok (w_se w1)).
    { intros t1 C1. destruct (perform_runs u a w o w1 e1 t t1 SO UM K1 P G1 AG NU C1) as [X1 X2].
      destruct (step_target u _ w r w1 e1 t t1 SO UM (ask_op_ok _ _ K1) (ask_not_open a) St G1 AG NU C1) as (X3 & X4 & _). auto. }
    assert (Same : se_vendor (w_se w1) = se_vendor (w_se w) /\ se_serial (w_se w1) = se_serial (w_se w)) by (apply step_moved in St; destruct St as (? & ? & _); auto).
    assert (Go : forall l1, play (next o) w1 = (l1, w') -> l = (a, o) :: l1 -> settled o ->
      runs u (se_id (w_se w)) (se_vendor (w_se w)) (se_serial (w_se w)) (t, se_next_sn (w_se w)) l (ctl_talk es) (t', se_next_sn (w_se w')) /\
      agrees (w_se w') t' /\ numbers_ok (w_se w')).
    { intros l1 E1 -> St1. destruct (play_exec u _ _ _ _ (K2 o) E1) as (rs & X & F).
      destruct (exec_grows u _ _ _ _ S1 U1 F X) as (_ & _ & e2 & G2 & H2).
      assert (es = e1 ++ e2) as -> by (unfold gained in *; rewrite G2, G1, <- app_assoc in G; apply app_inv_head in G; auto).
      rewrite ctl_talk_app in *. destruct (conforms_split _ _ _ _ (one_frame_talk _ _ _ _ _ OF G1) H2 CO) as (t1 & C1 & C2).
      destruct (Step t1 C1) as (EX & _ & A1 & N1). destruct (IH o w1 l1 w' e2 t1 t' S1 U1 (K2 o) E1 G2 A1 N1 C2) as (R & A2 & N2).
      split; [|auto]. destruct A1 as (_ & I1 & _). destruct AG as (_ & I0 & _).
      assert (se_id (w_se w1) = se_id (w_se w)) as Id1.
      { apply step_moved in St. destruct St as (_ & _ & M). destruct a; cbn [op_of moved] in M; [congruence|congruence|tauto|].
        destruct M as [(_ & _ & M)|(_ & M)]; rewrite M; reflexivity. }
      destruct Same as [V1 V2]. rewrite Id1, V1, V2 in R. apply EX; [exact R|tauto]. }
    assert (End : ~ settled o -> l = [(a, o)] -> w' = w1 ->
      runs u (se_id (w_se w)) (se_vendor (w_se w)) (se_serial (w_se w)) (t, se_next_sn (w_se w)) l (ctl_talk es) (t', se_next_sn (w_se w')) /\
      agrees (w_se w') t' /\ numbers_ok (w_se w')).
    { intros Ns -> ->. assert (es = e1) as -> by (exact (gained_app _ _ _ _ G1 G)). destruct (Step t' CO) as (EX & _ & A1 & N1).
      split; [|auto]. rewrite <- (app_nil_r (ctl_talk e1)). apply EX; [constructor|auto]. }
    destruct o as [v|e m|ub|].
    + destruct (play (next (Ret v)) w1) as [l1 w2] eqn:E2. apply pair_equal_spec in E. destruct E as [E <-]. symmetry in E. eapply Go; [reflexivity|exact E|exact I].
    + destruct (play (next (Throw e m)) w1) as [l1 w2] eqn:E2. apply pair_equal_spec in E. destruct E as [E <-]. symmetry in E. eapply Go; [reflexivity|exact E|exact I].
    + apply pair_equal_spec in E. destruct E as [E <-]. symmetry in E. apply End; auto.
    + apply pair_equal_spec in E. destruct E as [E <-]. symmetry in E. apply End; auto.
Qed.

(** ** A program that uses what it is told *)
Definition chat_client : client :=
  Call (AskSet 1 2 3 (Some (prim_ser 2 513))) (fun _ =>
  Call (AskJoin ci0 ci0) (fun o =>
    match o with
    | Ret (Number n) =>
        Call (AskSet 1 2 4 (Some (prim_ser 2 7))) (fun o2 =>
          match o2 with
          | Throw _ _ => Call (AskJoin ci0 ci0) (fun _ => Call (AskLeave n) (fun _ => Call (AskGet 2 0 1 2 3) (fun _ => Stop)))
          | _ => Stop
          end)
    | _ => Stop
    end)).
Lemma chat_client_ok : client_ok [] chat_client.
Proof.
  assert (K1 : wish_ok [] (AskSet 1 2 3 (Some (prim_ser 2 513)))) by (repeat split; try reflexivity; exists (le 2 513); split; [exact (carries_prim _ 2 513)|reflexivity]).
  assert (K2 : wish_ok [] (AskSet 1 2 4 (Some (prim_ser 2 7)))) by (repeat split; try reflexivity; exists (le 2 7); split; [exact (carries_prim _ 2 7)|reflexivity]).
  split; [exact K1|]. intros _. split; [split; reflexivity|]. intros [[v| |n]|e s|ub|]; try exact I.
  split; [exact K2|]. intros [r|e s|ub|]; try exact I. split; [split; reflexivity|]. intros _. split; [exact I|]. intros _. split; [repeat split; reflexivity|]. intros _. exact I.
Qed.
Lemma chat_plays : exists s l w', play chat_client chat_world = (l, w') /\
  map snd l = [Ret Done; Ret (Number 0); Throw RuntimeError s; Ret (Number 1); Ret Done; Ret (Value 513)] /\
  gained chat_world w' (chat_set ++ chat_rest ++ chat_get) /\ ctl_talk (chat_set ++ chat_rest ++ chat_get) = chat_set ++ chat_rest ++ chat_get.
Proof. do 3 eexists. split; [vm_compute; reflexivity|]. split; [vm_compute; reflexivity|]. split; vm_compute; reflexivity. Qed.
