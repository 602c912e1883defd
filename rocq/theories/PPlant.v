(** * PPlant: proofs about sessions on the sockets of one process, C117. *)
From Verif Require Import PNet PTarget PIo2 PSession2 PSession3 PSession4 PSend2 Vocab23 PWhole.
Local Open Scope N_scope.

(** ** The events of a call *)
Definition plain (ev : event) : Prop := match ev with ESend _ _ _ | ERecv _ _ => True | _ => False end.
Lemma events_plain k bs : Forall plain (events k bs).
Proof. unfold events, talk. destruct (sent k bs); [destruct (so_recv k) as [|[]]|]; cbn [fst]; repeat constructor. Qed.

Definition op_events (o : op) (w : world) (r : outcome result) (w' : world) (es : list event) : Prop :=
  match o with
  | OpOpen n p q =>
      (exists s, r = Throw SystemError s /\ w_se w' = w_se w /\ (es = [EOpen Ctl n p false] \/ es = [EOpen Ctl n p true; EOpen Io n q false])) \/
      exists mid tail, Forall plain mid /\ es = [EOpen Ctl n p true; EOpen Io n q true] ++ mid ++ tail /\ (forall v, r = Ret v -> tail = [])
  | OpClose => True
  | _ => Forall plain es
  end.

Lemma step_events u o w r w' es : session_ok w -> user_memory u w -> op_ok u o -> step o w = (r, w') -> gained w w' es -> op_events o w r w' es.
Proof.
  intros SO UM OK E G. destruct SO as (RB & FI & TK).
  destruct o as [h p q| |T c v x y z|x y z d|a b|n| |p]; cbn [op_events]; cbn [op_ok] in OK.
  - destruct (session_open_spec w h p q RB) as (ro & w1 & E1 & _ & _ & _ & X). cbn [step] in E. rewrite (mbind_unit _ (fun _ => RUnit) _ _ _ E1) in E.
    assert (w1 = w') by congruence. subst w1.
    destruct (open_fails (w_ctl w)); [destruct X as (Nt & (s & ->) & Se)|destruct (open_fails (w_io w)); [destruct X as (Nt & (s & ->) & Se)|destruct X as (tail & OU & Nt)]];
      rewrite (gained_app _ _ _ _ Nt G).
    + left. exists s. split; [congruence|]. auto.
    + left. exists s. split; [congruence|]. auto.
    + right. exists (events (w_ctl w) register_request), tail. split; [apply events_plain|]. split; [reflexivity|]. intros v Ev.
      unfold open_outcome in OU. destruct (reply_of _ _); cbv zeta in OU; try tauto.
      destruct OU as [(ses & _ & _ & T & _)|[(_ & _ & T & _)|(_ & _ & _ & _ & OU)]]; try exact T.
      exfalso. destruct (closed _ _); destruct OU as [s ->]; congruence.
  - exact I.
  - destruct OK as (X & Y & Z & K). destruct (get_any c v w x y z RB X Y Z K) as (ro & v' & w1 & E1 & EX & _). cbn [step] in E. rewrite E1 in E.
    assert (w1 = w') by (destruct ro; congruence). subst w1. destruct EX as (_ & _ & _ & _ & _ & Nt & _).
    rewrite (gained_app _ _ _ _ Nt G). apply events_plain.
  - destruct OK as (X & Y & Z & data & CA & L). assert (CA' := carries_opt_hext _ _ _ _ (proj1 UM) CA).
    destruct (set_attribute w x y z d data RB X Y Z CA') as (ro & w1 & E1 & EX & _). cbn [step] in E. rewrite (mbind_unit _ (fun _ => RUnit) _ _ _ E1) in E.
    assert (w1 = w') by congruence. subst w1. destruct EX as (_ & _ & _ & _ & _ & Nt & _).
    rewrite (gained_app _ _ _ _ Nt G). apply events_plain.
  - destruct OK as (X & Y). destruct (create_connection w a b RB X Y) as (ro & w1 & E1 & EX & _). cbn [step] in E. rewrite (mbind_unit _ RNumber _ _ _ E1) in E.
    assert (w1 = w') by congruence. subst w1. destruct EX as (_ & _ & _ & _ & Nt & _).
    rewrite (gained_app _ _ _ _ Nt G). apply events_plain.
  - destruct (nth_error (se_conns (w_se w)) (N.to_nat n)) as [c|] eqn:Hn.
    + assert (Tc : cn_tick_size c < 256 /\ cn_ticks c < 256) by (rewrite Forall_forall in TK; apply TK; eapply nth_error_In; exact Hn).
      destruct (close_connection w n c RB Hn (proj1 Tc) (proj2 Tc)) as (ro & w1 & E1 & EX & _).
      cbn [step] in E. rewrite (mbind_unit _ (fun _ => RUnit) _ _ _ E1) in E.
      assert (w1 = w') by congruence. subst w1. destruct EX as (_ & _ & _ & _ & Nt & _). rewrite (gained_app _ _ _ _ Nt G). apply events_plain.
    + cbn [step] in E. rewrite (mbind_unit _ (fun _ => RUnit) _ _ _ (close_connection_bad w n Hn)) in E. assert (w' = w) by congruence. subst w'.
      rewrite (gained_app w w [] es) by (first [exact G | now rewrite app_nil_r]). constructor.
  - destruct (receive_io w RB) as (ro & w1 & E1 & _ & _ & _ & _ & _ & _ & Nt & _). cbn [step] in E. rewrite (mbind_unit _ _ _ _ _ E1) in E.
    assert (w1 = w') by congruence. subst w1. rewrite (gained_app _ _ _ _ Nt G). unfold io_events. destruct (so_recv (w_io w)) as [|[]]; repeat constructor.
  - destruct OK as (xs & CA). destruct (send_io w p xs RB (carries_hext _ _ _ _ (proj1 UM) CA)) as (ro & w1 & E1 & _ & _ & _ & _ & _ & _ & X).
    cbn [step] in E. rewrite (mbind_unit _ (fun _ => RUnit) _ _ _ E1) in E. assert (w1 = w') by congruence. subst w1.
    destruct (sent _ _); destruct X as (_ & Nt); rewrite (gained_app _ _ _ _ Nt G); repeat constructor.
Qed.

(** ** Sockets *)
Lemma nth_some {A} (l : list A) i : (i < List.length l)%nat -> exists x, nth_error l i = Some x.
Proof. intros H. destruct (nth_error l i) eqn:E; [eauto|]. apply nth_error_None in E. lia. Qed.
Lemma nth_lt {A} (l : list A) i x : nth_error l i = Some x -> (i < List.length l)%nat.
Proof. intros H. apply nth_error_Some. rewrite H. discriminate. Qed.
Lemma call_fwd e c h o h' j v : do_call e c h = (o, h') -> udp_at h j v -> exists v', udp_at h' j v' /\ fd_step e c h o j v v'.
Proof.
  intros D U. destruct (nth_some (ho_udp h') j) as [v' U']; [rewrite (open_length _ _ _ _ _ D); eapply nth_lt; exact U|].
  destruct (step_at _ _ _ _ _ _ _ D U') as (v0 & U0 & F). exists v'. split; [exact U'|]. unfold udp_at in *. replace v with v0 by congruence. exact F.
Qed.
(** UDP socket [u] is bound to its own endpoint [a]. *)
Definition ready (h : host) (u : nat) (a : endpoint) : Prop := exists v, udp_at h u v /\ us_fd v = FBound a /\ us_local v = a.
Lemma call_ready e c h o h' u a : do_call e c h = (o, h') -> ready h u a -> c <> UClose u -> ready h' u a.
Proof.
  intros D (v & U & F & L) N. destruct (call_fwd _ _ _ _ _ _ _ D U) as (v' & U' & Lo & X). exists v'. split; [exact U'|]. split; [|congruence].
  destruct X as [(X & _)|[(X & _)|[(? & ? & _ & X & _)|[(? & ? & ? & _ & X & _)|(? & _ & X & _)]]]]; congruence.
Qed.
Lemma plays_ready k h es h' u a : plays k h es h' -> ready h u a -> (po_udp k = u -> forall b, ~ In (EClose Io b) es) -> ready h' u a.
Proof.
  induction 1 as [h|h ev c e o h1 es h' Ca D W P IH|h bs n es h' Up P IH|h d es h' Up P IH|h d es h' Up P IH]; intros R N; [exact R|..].
  - apply IH.
    + eapply call_ready; [exact D|exact R|]. intros ->. destruct ev as [[] ? ? ?|[] ? ?|[] ?|[] b]; try discriminate Ca. injection Ca as Ca. exact (N Ca b (or_introl eq_refl)).
    + intros Q b In. exact (N Q b (or_intror In)).
  - apply IH; [exact R|]. intros Q b In. exact (N Q b (or_intror In)).
  - apply IH; [exact R|]. intros Q b In. exact (N Q b (or_intror In)).
  - apply IH; [exact R|]. intros Q b In. exact (N Q b (or_intror In)).
Qed.
Lemma plays_local k h es h' : plays k h es h' -> forall j v, udp_at h j v -> exists v', udp_at h' j v' /\ us_local v' = us_local v.
Proof.
  induction 1 as [h|h ev c e o h1 es h' Ca D W P IH|h bs n es h' Up P IH|h d es h' Up P IH|h d es h' Up P IH]; intros j v U; try (apply IH; exact U); [eauto|].
  destruct (call_fwd _ _ _ _ _ _ _ D U) as (v1 & U1 & L1 & _). destruct (IH _ _ U1) as (v2 & U2 & L2). exists v2. split; [exact U2|congruence].
Qed.
Lemma set_tcp_len i t h : List.length (ho_tcp (ho_set_tcp i t h)) = List.length (ho_tcp h).
Proof. cbn. apply PMem.length_list_set. Qed.
Lemma tcp_length e c h o h' : do_call e c h = (o, h') -> List.length (ho_tcp h') = List.length (ho_tcp h).
Proof.
  destruct c as [i n p|i|i bs|i n p|i]; cbn [do_call]; intros D.
  - unfold udp_open in D. destruct (nth_error (ho_udp h) i); [|injection D as <- <-; reflexivity]. destruct (en_resolve e n p); [injection D as <- <-; reflexivity|].
    destruct (us_fd _); [destruct (existsb _ _)|..]; injection D as <- <-; reflexivity.
  - unfold udp_close in D. destruct (nth_error (ho_udp h) i); injection D as <- <-; reflexivity.
  - unfold udp_send in D. destruct (nth_error (ho_udp h) i); [|injection D as <- <-; reflexivity]. destruct (us_fd _); [injection D as <- <-; reflexivity|..]; destruct (_ <? _); injection D as <- <-; reflexivity.
  - unfold tcp_open in D. destruct (nth_error (ho_tcp h) i); [|injection D as <- <-; reflexivity]. destruct (en_resolve e n p); [injection D as <- <-; reflexivity|].
    destruct (tcp_connect _ _ _). injection D as <- <-. apply set_tcp_len.
  - unfold tcp_close in D. destruct (nth_error (ho_tcp h) i); injection D as <- <-; [apply set_tcp_len|reflexivity].
Qed.
Lemma plays_sizes k h es h' : plays k h es h' -> List.length (ho_tcp h') = List.length (ho_tcp h) /\ List.length (ho_udp h') = List.length (ho_udp h).
Proof.
  induction 1 as [h|h ev c e o h1 es h' Ca D W P IH|h bs n es h' Up P IH|h d es h' Up P IH|h d es h' Up P IH]; auto.
  rewrite <- (tcp_length _ _ _ _ _ D), <- (open_length _ _ _ _ _ D). exact IH.
Qed.

(** ** Working *)
Lemma list_set_nth {A} (l : list A) i x y : nth_error l i = Some x -> forall j, nth_error (list_set l i y) j = if Nat.eqb i j then Some y else nth_error l j.
Proof. revert i. induction l as [|a l IH]; intros [|i] H [|j]; try discriminate; try reflexivity. cbn. apply IH. exact H. Qed.
Lemma set_map {A B} (f : A -> B) (l : list A) i x y : nth_error l i = Some x -> f y = f x -> map f (list_set l i y) = map f l.
Proof. revert i. induction l as [|a l IH]; intros [|i] H F; try discriminate; cbn. - injection H as ->. rewrite F. reflexivity. - f_equal. apply IH; assumption. Qed.
Lemma call_kept h ks i k o r w es h1 : Forall (post_ok h) ks -> nth_error ks i = Some k -> op_ok (po_mem k) o -> step o (po_world k) = (r, w) -> plays k h es h1 ->
  Forall (post_ok h1) (list_set ks i (with_world w k)).
Proof.
  intros F H O E P. destruct (plays_sizes _ _ _ _ P) as [L1 L2]. apply Forall_forall. intros x In. apply In_nth_error in In. destruct In as [j Hj].
  assert (St : forall y, post_ok h y -> (exists t, tcp_at h1 (po_tcp y) t) /\ exists u, udp_at h1 (po_udp y) u).
  { intros y (_ & _ & (t & T) & u & U). split; apply nth_some; [rewrite L1|rewrite L2]; eapply nth_lt; eassumption. }
  rewrite Forall_forall in F. rewrite (list_set_nth _ _ _ _ H) in Hj. destruct (Nat.eqb i j).
  - injection Hj as <-. pose proof (F _ (nth_error_In _ _ H)) as K. pose proof K as (SO & UM & _).
    destruct (step_kept _ _ _ _ _ SO UM O E) as (SO1 & UM1 & _). split; [exact SO1|]. split; [exact UM1|]. exact (St _ K).
  - pose proof (F _ (nth_error_In _ _ Hj)) as K. destruct K as (SO & UM & X). split; [exact SO|]. split; [exact UM|]. apply (St x). split; [exact SO|]. split; [exact UM|exact X].
Qed.
Lemma closes_same ks i k w u c : nth_error ks i = Some k -> closes_udp (list_set ks i (with_world w k)) u c -> closes_udp ks u c.
Proof.
  intros H (x & Hx & U & C). rewrite (list_set_nth _ _ _ _ H) in Hx. destruct (Nat.eqb i (fst (fst c))) eqn:Q.
  - apply PeanoNat.Nat.eqb_eq in Q. injection Hx as <-. exists k. rewrite <- Q. auto.
  - exists x. auto.
Qed.
(** A call that is not a close by the owner leaves the port bound. *)
Lemma call_port h ks i k o r w es h1 u a : Forall (post_ok h) ks -> nth_error ks i = Some k -> op_ok (po_mem k) o -> step o (po_world k) = (r, w) -> gained (po_world k) w es -> plays k h es h1 ->
  ready h u a -> ~ closes_udp ks u (i, o, r) -> ready h1 u a.
Proof.
  intros F H O E G P R C. rewrite Forall_forall in F. destruct (F _ (nth_error_In _ _ H)) as (SO & UM & _).
  pose proof (step_events _ _ _ _ _ _ SO UM O E G) as X. eapply plays_ready; [exact P|exact R|]. intros Q b Hin.
  assert (Pl : Forall plain es -> False). { intros Pl. rewrite Forall_forall in Pl. exact (Pl _ Hin). }
  destruct o; cbn [op_events] in X; try (exact (Pl X)).
  - destruct X as [(s & _ & _ & [->| ->])|(mid & tail & _ & -> & _)]; cbn [In] in Hin.
    + destruct Hin as [Hin|[]]; discriminate.
    + destruct Hin as [Hin|[Hin|[]]]; discriminate.
    + cbn [app] in P. inversion P; subst; try discriminate. match goal with X : call_of k (EOpen Ctl _ _ _) = Some ?c, D : do_call _ ?c h = _, P1 : plays k ?h1 (EOpen Io _ _ _ :: _) _ |- _ =>
        injection X as <-; pose proof (call_ready _ _ _ _ _ _ _ D R ltac:(discriminate)) as R1; inversion P1; subst; try discriminate end.
      match goal with X : call_of k (EOpen Io _ _ _) = Some ?c, D : do_call _ ?c _ = (?o, _), W : went _ ?o |- _ =>
        injection X as <-; destruct R1 as (v & U & Fd & _); destruct W as [x W]; rewrite W in D; destruct (call_fwd _ _ _ _ _ _ _ D U) as (v' & _ & _ & Y) end.
      destruct Y as [(_ & _ & Y)|[(Y & _)|[(? & ? & _ & Y & _)|[(? & ? & ? & _ & Y & _)|(? & _ & Y & _)]]]]; try congruence.
      destruct (Y _ _ eq_refl) as [? Z]. discriminate.
  - apply C. exists k. auto.
Qed.
Lemma working_port h ks l h' ks' : working h ks l h' ks' -> forall u a, Forall (post_ok h) ks -> ready h u a -> Forall (fun c => ~ closes_udp ks u c) l -> ready h' u a.
Proof.
  induction 1 as [h ks|h ks i k o r w es h1 l h' ks' H O E G P W IH]; intros u a F R C; [exact R|].
  inversion_clear C as [|? ? C1 C2]. apply IH.
  - eapply call_kept; eassumption.
  - eapply call_port; eassumption.
  - eapply Forall_impl; [|exact C2]. intros c N X. apply N. eapply closes_same; eassumption.
Qed.
Lemma working_app h ks l1 l2 h' ks' : working h ks (l1 ++ l2) h' ks' -> exists h1 ks1, working h ks l1 h1 ks1 /\ working h1 ks1 l2 h' ks'.
Proof.
  revert h ks. induction l1 as [|c l1 IH]; intros h ks W; [do 2 eexists; split; [constructor|exact W]|].
  inversion W; subst. destruct (IH _ _ ltac:(eassumption)) as (h2 & ks2 & W1 & W2). exists h2, ks2. split; [|exact W2]. econstructor; eassumption.
Qed.
Lemma working_kept h ks l h' ks' : working h ks l h' ks' -> Forall (post_ok h) ks -> Forall (post_ok h') ks' /\ map po_udp ks' = map po_udp ks /\ map po_tcp ks' = map po_tcp ks /\
  (forall j v, udp_at h j v -> exists v', udp_at h' j v' /\ us_local v' = us_local v).
Proof.
  induction 1 as [h ks|h ks i k o r w es h1 l h' ks' H O E G P W IH]; intros F; [split; [exact F|]; split; [reflexivity|]; split; [reflexivity|eauto]|].
  destruct IH as (F1 & M1 & M2 & L); [eapply call_kept; eassumption|]. split; [exact F1|].
  split; [rewrite M1; eapply set_map; [exact H|reflexivity]|]. split; [rewrite M2; eapply set_map; [exact H|reflexivity]|].
  intros j v U. destruct (plays_local _ _ _ _ P _ _ U) as (v1 & U1 & L1). destruct (L _ _ U1) as (v2 & U2 & L2). exists v2. split; [exact U2|congruence].
Qed.
Lemma map_nth_some {A} (f : A -> nat) l l' i x : map f l' = map f l -> nth_error l i = Some x -> exists y, nth_error l' i = Some y /\ f y = f x.
Proof.
  intros M H. assert (Q : nth_error (map f l') i = Some (f x)) by (rewrite M; apply map_nth_error; exact H).
  destruct (nth_error l' i) as [y|] eqn:Hy; [|apply nth_error_None in Hy; rewrite (proj2 (nth_error_None _ _)) in Q; [discriminate|rewrite map_length; exact Hy]].
  exists y. split; [reflexivity|]. rewrite (map_nth_error f _ _ Hy) in Q. congruence.
Qed.
(** What an open that returned has done to the sockets. *)
Lemma open_sockets k h n p q es h' : plays k h ([EOpen Ctl n p true; EOpen Io n q true] ++ es) h' ->
  exists h1 h2 e1 e2 r v, udp_at h (po_udp k) v /\ us_fd v = FClosed /\ ~ owned e2 h (po_udp k) (us_local v) /\ ready h2 (po_udp k) (us_local v) /\
    first_accepting e1 (en_resolve e1 n p) r /\ tcp_at h2 (po_tcp k) (TConnected r) /\ plays k h2 es h' /\ ho_udp h1 = ho_udp h.
Proof.
  cbn [app]. intros P. inversion P as [|? ? c1 e1 o1 h1 ? ? C1 D1 W1 P1| | |]; subst; try discriminate. inversion P1 as [|? ? c2 e2 o2 h2 ? ? C2 D2 W2 P2| | |]; subst; try discriminate.
  injection C1 as <-. injection C2 as <-. cbn [went] in W1, W2. destruct W1 as [x1 ->], W2 as [x2 ->]. cbn [do_call] in D1, D2.
  assert (T : exists t, tcp_at h (po_tcp k) t). { unfold tcp_at. destruct (nth_error (ho_tcp h) (po_tcp k)) eqn:Q; [eauto|]. unfold tcp_open in D1. rewrite Q in D1. discriminate. }
  destruct T as [t T]. destruct (tcp_exact e1 n p _ _ _ T) as [(r & g & FA & X & Ot)|(_ & s & g & X & _)]; rewrite X in D1; [|discriminate]. injection D1 as _ <-. destruct Ot as (Ta & _ & Uh & _).
  assert (U : exists v, udp_at g (po_udp k) v). { unfold udp_at. destruct (nth_error (ho_udp g) (po_udp k)) eqn:Q; [eauto|]. unfold udp_open in D2. rewrite Q in D2. discriminate. }
  destruct U as [v U]. pose proof (open_exact e2 n q _ _ _ U) as Y. destruct (en_resolve e2 n q) as [|r0 rs]; [destruct Y as [s Y]; rewrite Y in D2; discriminate|].
  destruct Y as (Y1 & Y2 & Y3). destruct (us_fd v) eqn:Fd.
  2-3: destruct (Y3 ltac:(discriminate)) as (s & g2 & Y & _); rewrite Y in D2; discriminate.
  destruct (existsb (clash (us_local v)) (in_use e2 g)) eqn:Cl.
  - apply (in_use_owned e2 g (po_udp k) v _ U Fd) in Cl. destruct (Y2 eq_refl Cl) as (s & g2 & Y & _). rewrite Y in D2. discriminate.
  - assert (NO : ~ owned e2 g (po_udp k) (us_local v)). { intros O. apply (in_use_owned e2 g (po_udp k) v _ U Fd) in O. congruence. }
    destruct (Y1 eq_refl NO) as (g2 & Y & Ou). rewrite Y in D2. injection D2 as _ <-. destruct Ou as (Ua & _ & Th & _).
    exists g, g2, e1, e2, r, v. unfold udp_at in *. rewrite Uh in U. split; [exact U|]. split; [exact Fd|].
    split. { intros [O|(j & v2 & b & O)]; apply NO; [left; exact O|right; exists j, v2, b]. unfold udp_at. rewrite Uh. exact O. }
    split; [eexists; split; [exact Ua|]; split; reflexivity|]. split; [exact FA|]. split; [unfold tcp_at in *; rewrite Th; exact Ta|]. split; [exact P2|exact Uh].
Qed.

Lemma one_port h ks l h' ks' l1 i n p q v l2 j n2 p2 q2 r l3 k k2 u u2 : Forall (post_ok h) ks -> working h ks l h' ks' ->
  l = l1 ++ (i, OpOpen n p q, Ret v) :: l2 ++ (j, OpOpen n2 p2 q2, r) :: l3 -> nth_error ks i = Some k -> nth_error ks j = Some k2 ->
  udp_at h (po_udp k) u -> udp_at h (po_udp k2) u2 -> po_udp k = po_udp k2 \/ same_port (us_local u) (us_local u2) ->
  Forall (fun c => ~ closes_udp ks (po_udp k) c) l2 -> exists s, r = Throw SystemError s.
Proof.
  intros F W -> Hi Hj U U2 Sa C. destruct (working_app _ _ _ _ _ _ W) as (h1 & ks1 & W1 & W2). destruct (working_kept _ _ _ _ _ W1 F) as (F1 & M1 & _ & L1).
  destruct (map_nth_some _ _ _ _ _ M1 Hi) as (k' & Hi1 & Ki). destruct (L1 _ _ U) as (u' & U' & Lu).
  inversion W2 as [|? ? ? ki ? ? w es g ? ? ? Hk O E G P W3]; subst. assert (ki = k') by congruence. subst ki.
  rewrite Forall_forall in F1. destruct (F1 _ (nth_error_In _ _ Hi1)) as (SO & UM & _). pose proof (step_events _ _ _ _ _ _ SO UM O E G) as X. cbn [op_events] in X.
  destruct X as [(s & X & _)|(mid & tail & Pl & -> & Tl)]; [discriminate|]. rewrite (Tl _ eq_refl), app_nil_r in P. clear Tl.
  destruct (open_sockets _ _ _ _ _ _ _ P) as (ga & gb & ea & eb & ra & va & Ua & _ & _ & R & _ & _ & P' & _).
  assert (va = u') by (unfold udp_at in *; congruence). subst va. rewrite Ki, Lu in R.
  assert (R1 : ready g (po_udp k) (us_local u)). { eapply plays_ready; [exact P'|exact R|]. intros _ b In. rewrite Forall_forall in Pl. exact (Pl _ In). }
  assert (F2 : Forall (post_ok g) (list_set ks1 i (with_world w k'))). { eapply call_kept; [apply Forall_forall; exact F1|exact Hi1|exact O|exact E|exact P]. }
  assert (M2 : map po_udp (list_set ks1 i (with_world w k')) = map po_udp ks) by (rewrite <- M1; eapply set_map; [exact Hi1|reflexivity]).
  destruct (plays_local _ _ _ _ P _ _ U') as (u1 & U1 & Lu1).
  destruct (working_app _ _ _ _ _ _ W3) as (h3 & ks3 & W4 & W5).
  assert (R2 : ready h3 (po_udp k) (us_local u)).
  { eapply working_port; [exact W4|exact F2|exact R1|]. eapply Forall_impl; [|exact C]. intros c N (x & Hx & Ux & Cx). apply N.
    destruct (map_nth_some _ _ _ _ _ (eq_sym M2) Hx) as (y & Hy & Ky). exists y. split; [exact Hy|]. split; congruence. }
  destruct (working_kept _ _ _ _ _ W4 F2) as (F3 & M3 & _ & L3). rewrite M2 in M3. destruct (map_nth_some _ _ _ _ _ M3 Hj) as (k3 & Hj3 & Kj).
  inversion W5 as [|? ? ? kj ? ? w2 es2 g2 ? ? ? Hk2 O2 E2 G2 P2 W6]; subst. assert (kj = k3) by congruence. subst kj.
  rewrite Forall_forall in F3. destruct (F3 _ (nth_error_In _ _ Hj3)) as (SO3 & UM3 & _). pose proof (step_events _ _ _ _ _ _ SO3 UM3 O2 E2 G2) as X. cbn [op_events] in X.
  destruct X as [(s & X & _)|(mid2 & tail2 & _ & -> & _)]; [eauto|]. exfalso.
  destruct (open_sockets _ _ _ _ _ _ _ P2) as (ga2 & gb2 & ea2 & eb2 & ra2 & v2 & Uj & Fj & NO & _). destruct R2 as (vk & Uk & Fk & Lk). rewrite Kj in Uj, NO.
  destruct (PeanoNat.Nat.eq_dec (po_udp k) (po_udp k2)) as [Q|Q].
  - unfold udp_at in *. rewrite Q in Uk. congruence.
  - destruct Sa as [Sa|Sa]; [contradiction|].
    destruct (L1 _ _ U2) as (y1 & Y1 & Z1). destruct (plays_local _ _ _ _ P _ _ Y1) as (y2 & Y2 & Z2). destruct (L3 _ _ Y2) as (y3 & Y3 & Z3).
    assert (y3 = v2) by (unfold udp_at in *; congruence). subst y3. apply NO. right. exists (po_udp k), vk, (us_local u). split; [exact Q|]. split; [exact Uk|]. split; [exact Fk|].
    rewrite Z3, Z2, Z1. apply same_port_sym. exact Sa.
Qed.

(** ** An open to another host in the middle of a session *)
Lemma left_target h ks i n p q v h1 ks1 n2 p2 q2 r h2 ks2 k1 : Forall (post_ok h) ks -> working h ks [(i, OpOpen n p q, Ret v)] h1 ks1 ->
  working h1 ks1 [(i, OpOpen n2 p2 q2, r)] h2 ks2 -> nth_error ks1 i = Some k1 ->
  exists s w2, r = Throw SystemError s /\ nth_error ks2 i = Some (with_world w2 k1) /\ w_se w2 = w_se (po_world k1) /\
   ((exists e x, first_accepting e (en_resolve e n2 p2) x /\ tcp_at h2 (po_tcp k1) (TConnected x)) \/
    (exists e, (forall x, In x (en_resolve e n2 p2) -> en_accepts e x = false) /\ (en_resolve e n2 p2 <> [] -> tcp_at h2 (po_tcp k1) TOpen))).
Proof.
  intros F W1 W2 H1. destruct (working_kept _ _ _ _ _ W1 F) as (F1 & M1 & M2 & _).
  assert (Hk : exists k, nth_error ks i = Some k) by (inversion W1; eauto). destruct Hk as [k Hk].
  destruct (map_nth_some _ _ _ _ _ M1 Hk) as (k' & Hk' & Uk). assert (k' = k1) by congruence. subst k'.
  assert (Th : exists s, r = Throw SystemError s).
  { rewrite Forall_forall in F. destruct (F _ (nth_error_In _ _ Hk)) as (_ & _ & _ & u & U).
    refine (one_port h ks _ h2 ks2 [] i n p q v [] i n2 p2 q2 r [] k k u u _ _ eq_refl Hk Hk U U (or_introl eq_refl) _); [apply Forall_forall; exact F| |constructor].
    cbn [app]. inversion W1; subst. match goal with X : working ?a ?b [] h1 ks1 |- _ => inversion X; subst end. econstructor; eassumption. }
  destruct Th as [s ->]. inversion W2 as [|? ? ? kj ? ? w2 es2 g2 ? ? ? Hj O2 E2 G2 P2 W3]; subst. inversion W3; subst. assert (kj = k1) by congruence. subst kj.
  rewrite Forall_forall in F1. destruct (F1 _ (nth_error_In _ _ H1)) as (SO & UM & (t & T) & _). pose proof (step_events _ _ _ _ _ _ SO UM O2 E2 G2) as X. cbn [op_events] in X.
  exists s, w2. split; [reflexivity|]. split; [rewrite (list_set_nth _ _ _ _ H1), PeanoNat.Nat.eqb_refl; reflexivity|].
  destruct X as [(s' & _ & Se & X)|(mid & tail & _ & -> & _)].
  - split; [exact Se|]. destruct X as [->| ->].
    + right. inversion P2 as [|? ? c e o g ? ? Cc D W P3| | |]; subst; try discriminate. injection Cc as <-. inversion P3; subst; try discriminate. cbn [do_call went] in *. destruct W as [m ->].
      exists e. destruct (tcp_exact e n2 p2 _ _ _ T) as [(x & g & _ & X & _)|(A & m2 & g & X & Y)]; rewrite X in D; [discriminate|]. injection D as _ <-. split; [exact A|].
      intros Ne. destruct Y as [(Y & _)|(_ & Y & _)]; [contradiction|exact Y].
    + left. inversion P2 as [|? ? c e o g ? ? Cc D W P3| | |]; subst; try discriminate. injection Cc as <-. cbn [do_call went] in *. destruct W as [m ->].
      inversion P3 as [|? ? c3 e3 o3 g3 ? ? Cc3 D3 W3' P4| | |]; subst; try discriminate. injection Cc3 as <-. inversion P4; subst; try discriminate.
      destruct (tcp_exact e n2 p2 _ _ _ T) as [(x & g' & FA & X & Ot & _)|(A & m2 & g' & X & Y)]; rewrite X in D; [|discriminate]. injection D as _ <-.
      exists e, x. split; [exact FA|]. cbn [do_call] in D3. unfold tcp_at in *. unfold udp_open in D3. destruct (nth_error (ho_udp g') _); [|injection D3 as <- <-; exact Ot].
      destruct (en_resolve e3 n2 q2); [injection D3 as <- <-; exact Ot|]. destruct (us_fd _); [destruct (existsb _ _)|..]; injection D3 as <- <-; exact Ot.
  - (* the UDP socket is already open *) exfalso.
    destruct (open_sockets _ _ _ _ _ _ _ P2) as (ga2 & gb2 & ea2 & eb2 & ra2 & v2 & Uj & Fj & _).
    inversion W1 as [|? ? ? ki ? ? w es g ? ? ? Hki O E G P W4]; subst. inversion W4; subst. assert (ki = k) by congruence. subst ki.
    rewrite Forall_forall in F. destruct (F _ (nth_error_In _ _ Hk)) as (SO0 & UM0 & _). pose proof (step_events _ _ _ _ _ _ SO0 UM0 O E G) as X. cbn [op_events] in X.
    destruct X as [(s1 & X & _)|(mid1 & tail1 & Pl & -> & Tl)]; [discriminate|]. rewrite (Tl _ eq_refl), app_nil_r in P.
    destruct (open_sockets _ _ _ _ _ _ _ P) as (ga & gb & ea & eb & ra & va & Ua & _ & _ & R & _ & _ & P' & _).
    assert (R1 : ready h1 (po_udp k) (us_local va)). { eapply plays_ready; [exact P'|exact R|]. intros _ b In. rewrite Forall_forall in Pl. exact (Pl _ In). }
    destruct R1 as (x & X1 & X2 & _). unfold udp_at in *. rewrite Uk in Uj. congruence.
Qed.


(** ** Sessions that share nothing *)
Lemma own_call e c h o h1 : do_call e c h = (o, h1) -> own_ports h -> own_ports h1.
Proof.
  intros D (A & B). split.
  - intros i j u v U V N X. destruct (step_at _ _ _ _ _ _ _ D U) as (u0 & U0 & L0 & _). destruct (step_at _ _ _ _ _ _ _ D V) as (v0 & V0 & L1 & _).
    apply (A i j u0 v0 U0 V0 N). rewrite <- L0, <- L1. exact X.
  - intros i u a U F. destruct (step_at _ _ _ _ _ _ _ D U) as (u0 & U0 & L0 & X).
    destruct X as [(X & _)|[(_ & X & _)|[(? & ? & _ & _ & X & _)|[(? & ? & ? & _ & _ & X & _)|(? & _ & _ & X)]]]]; try congruence.
    + rewrite L0. apply (B i u0 a U0). congruence.
    + left. congruence.
    + right. congruence.
Qed.
Lemma existsb_false {A} (f : A -> bool) l : (forall x, In x l -> f x = false) -> existsb f l = false.
Proof. induction l as [|a l IH]; intros H; [reflexivity|]. cbn. rewrite (H a (or_introl eq_refl)). apply IH. intros x X. apply H. right. exact X. Qed.
Lemma clash_free e h i u : own_ports h -> udp_at h i u -> us_fd u = FClosed -> existsb (clash (us_local u)) (in_use e h) = existsb (clash (us_local u)) (en_taken e).
Proof.
  intros (A & B) U F. unfold in_use. rewrite existsb_app. rewrite (existsb_false _ (flat_map _ _)); [apply orb_false_r|].
  intros b Hb. apply in_flat_map in Hb. destruct Hb as (v & Hv & Hb). apply In_nth_error in Hv. destruct Hv as [j Hj].
  unfold bound_of in Hb. destruct (us_fd v) as [| |a] eqn:Fv; try contradiction. destruct Hb as [<-|[]].
  destruct (clash (us_local u) a) eqn:Cl; [|reflexivity]. exfalso. apply clash_spec in Cl.
  assert (N : i <> j). { intros ->. unfold udp_at in U. congruence. }
  destruct (B j v a Hj Fv) as [->| ->]; [exact (A i j u v U Hj N Cl)|]. destruct Cl as (Q & Nz & _). cbn in Q. contradiction.
Qed.
Lemma list_set_one {A} (x y : A) : list_set [x] 0 y = [y]. Proof. reflexivity. Qed.
Lemma alone_call e k ev c c0 h g o h1 o0 g1 : own_ports h -> only_its k h g -> call_of k ev = Some c -> call_of (at_home k) ev = Some c0 ->
  do_call e c h = (o, h1) -> do_call e c0 g = (o0, g1) -> o = o0 /\ only_its k h1 g1.
Proof.
  intros OP (t & u & T & U & Gt & Gu) C C0 D D0. pose proof (clash_free e h _ u OP U) as CF.
  assert (T0 : nth_error (ho_tcp g) 0 = Some t) by (rewrite Gt; reflexivity). assert (U0 : nth_error (ho_udp g) 0 = Some u) by (rewrite Gu; reflexivity).
  assert (SU : forall u', only_its k (ho_set_udp (po_udp k) u' h) (ho_set_udp 0 u' g)).
  { intros u'. exists t, u'. split; [exact T|]. split; [unfold udp_at; cbn; rewrite (list_set_nth _ _ _ _ U), PeanoNat.Nat.eqb_refl; reflexivity|]. cbn. rewrite Gt, Gu. split; reflexivity. }
  assert (ST : forall t', only_its k (ho_set_tcp (po_tcp k) t' h) (ho_set_tcp 0 t' g)).
  { intros t'. exists t', u. split; [unfold tcp_at; cbn; rewrite (list_set_nth _ _ _ _ T), PeanoNat.Nat.eqb_refl; reflexivity|]. split; [exact U|]. cbn. rewrite Gt, Gu. split; reflexivity. }
  assert (SA : only_its k h g) by (exists t, u; auto).
  destruct ev as [[] n p b|[] bs n|[] d|[] b]; try discriminate C; injection C as <-; injection C0 as <-; cbn [do_call at_home po_tcp po_udp] in D, D0.
  - unfold tcp_open in D, D0. unfold tcp_at in T. rewrite T in D. rewrite T0 in D0. destruct (en_resolve e n p) as [|r rs]; [injection D as <- <-; injection D0 as <- <-; auto|].
    destruct (tcp_connect e (r :: rs) t) as [oo t']. unfold on_unit in D, D0. destruct oo; injection D as <- <-; injection D0 as <- <-; split; try reflexivity; apply ST.
  - unfold udp_open in D, D0. unfold udp_at in U. rewrite U in D. rewrite U0 in D0. destruct (en_resolve e n p) as [|r rs]; [injection D as <- <-; injection D0 as <- <-; auto|].
    cbn [us_set_remote us_fd us_local] in D, D0. destruct (us_fd u) eqn:Fd.
    + rewrite (CF eq_refl) in D. assert (Q : in_use e g = en_taken e) by (unfold in_use; rewrite Gu; cbn; unfold bound_of; rewrite Fd; apply app_nil_r). rewrite Q in D0.
      destruct (existsb _ _); injection D as <- <-; injection D0 as <- <-; split; try reflexivity; apply SU.
    + injection D as <- <-; injection D0 as <- <-; split; [reflexivity|apply SU].
    + injection D as <- <-; injection D0 as <- <-; split; [reflexivity|apply SU].
  - unfold udp_send in D, D0. unfold udp_at in U. rewrite U in D. rewrite U0 in D0. destruct (us_fd u) eqn:Fd; [injection D as <- <-; injection D0 as <- <-; auto|..];
      destruct (_ <? _); injection D as <- <-; injection D0 as <- <-; (split; [reflexivity|]); try exact SA.
    + destruct (SU (us_set_fd (FBound (mkEnd 0 0)) u)) as (t2 & u2 & X). exists t2, u2. exact X.
    + destruct (SU (us_set_fd (FBound l) u)) as (t2 & u2 & X). exists t2, u2. exact X.
  - unfold tcp_close in D, D0. unfold tcp_at in T. rewrite T in D. rewrite T0 in D0. injection D as <- <-; injection D0 as <- <-; split; [reflexivity|apply ST].
  - unfold udp_close in D, D0. unfold udp_at in U. rewrite U in D. rewrite U0 in D0. injection D as <- <-; injection D0 as <- <-; split; [reflexivity|apply SU].
Qed.
Lemma home_call k ev c : call_of k ev = Some c -> exists c0, call_of (at_home k) ev = Some c0.
Proof. destruct ev as [[] n p b|[] bs n|[] d|[] b]; try discriminate; intros _; eexists; reflexivity. Qed.
Lemma home_call_inv k ev c : call_of (at_home k) ev = Some c -> exists c0, call_of k ev = Some c0.
Proof. destruct ev as [[] n p b|[] bs n|[] d|[] b]; try discriminate; intros _; eexists; reflexivity. Qed.
Lemma alone_tcp k h g r : only_its k h g -> tcp_at h (po_tcp k) (TConnected r) <-> tcp_at g 0 (TConnected r).
Proof. intros (t & u & T & U & Gt & Gu). unfold tcp_at in *. rewrite T, Gt. cbn. tauto. Qed.
Lemma alone_udp k h g u : only_its k h g -> udp_at h (po_udp k) u <-> udp_at g 0 u.
Proof. intros (t & u0 & T & U & Gt & Gu). unfold udp_at in *. rewrite U, Gu. cbn. tauto. Qed.

Lemma plays_alone k h es h' : plays k h es h' -> forall g, own_ports h -> only_its k h g -> own_ports h' /\ exists g', plays (at_home k) g es g' /\ only_its k h' g'.
Proof.
  induction 1 as [h|h ev c e o h1 es h' Ca D W P IH|h bs n es h' Up P IH|h d es h' Up P IH|h d es h' Up P IH]; intros g OP AL.
  - split; [exact OP|]. exists g. split; [constructor|exact AL].
  - destruct (home_call _ _ _ Ca) as [c0 C0]. destruct (do_call e c0 g) as [o0 g1] eqn:D0. destruct (alone_call _ _ _ _ _ _ _ _ _ _ _ OP AL Ca C0 D D0) as [<- A1].
    destruct (IH g1 (own_call _ _ _ _ _ D OP) A1) as (OP' & g' & P' & A'). split; [exact OP'|]. exists g'. split; [|exact A']. econstructor; eassumption.
  - destruct (IH g OP AL) as (OP' & g' & P' & A'). split; [exact OP'|]. exists g'. split; [|exact A']. apply plays_send; [|exact P'].
    intros N. destruct (Up N) as [r R]. exists r. apply (alone_tcp k h g r AL). exact R.
  - destruct (IH g OP AL) as (OP' & g' & P' & A'). split; [exact OP'|]. exists g'. split; [|exact A']. apply plays_recv; [|exact P'].
    intros N. destruct (Up N) as [r R]. exists r. apply (alone_tcp k h g r AL). exact R.
  - destruct (IH g OP AL) as (OP' & g' & P' & A'). split; [exact OP'|]. exists g'. split; [|exact A']. apply plays_datagram; [|exact P'].
    intros N. destruct (Up N) as (u & a & R & B). exists u, a. split; [|exact B]. apply (alone_udp k h g u AL). exact R.
Qed.
Lemma plays_company k g es g' : plays (at_home k) g es g' -> forall h, own_ports h -> only_its k h g -> own_ports h /\ exists h', plays k h es h' /\ own_ports h' /\ only_its k h' g'.
Proof.
  intros P. remember (at_home k) as k0 eqn:K0. induction P as [g|g ev c e o g1 es g' Ca D W P IH|g bs n es g' Up P IH|g d es g' Up P IH|g d es g' Up P IH]; intros h OP AL; subst k0; (split; [exact OP|]).
  - exists h. split; [constructor|]. split; [exact OP|exact AL].
  - destruct (home_call_inv _ _ _ Ca) as [c0 C0]. destruct (do_call e c0 h) as [o0 h1] eqn:D0. destruct (alone_call _ _ _ _ _ _ _ _ _ _ _ OP AL C0 Ca D0 D) as [<- A1].
    destruct (IH h1 (own_call _ _ _ _ _ D0 OP) A1) as (OP1 & h' & P' & OP' & A'). exists h'. split; [|split; [exact OP'|exact A']]. econstructor; eassumption.
  - destruct (IH h OP AL) as (_ & h' & P' & OP' & A'). exists h'. split; [|split; [exact OP'|exact A']]. apply plays_send; [|exact P'].
    intros N. destruct (Up N) as [r R]. exists r. apply (alone_tcp k h g r AL). exact R.
  - destruct (IH h OP AL) as (_ & h' & P' & OP' & A'). exists h'. split; [|split; [exact OP'|exact A']]. apply plays_recv; [|exact P'].
    intros N. destruct (Up N) as [r R]. exists r. apply (alone_tcp k h g r AL). exact R.
  - destruct (IH h OP AL) as (_ & h' & P' & OP' & A'). exists h'. split; [|split; [exact OP'|exact A']]. apply plays_datagram; [|exact P'].
    intros N. destruct (Up N) as (u & a & R & B). exists u, a. split; [|exact B]. apply (alone_udp k h g u AL). exact R.
Qed.
(** The events of another session change nothing for this one. *)
Lemma other_call e k k2 ev c h g o h1 : po_tcp k2 <> po_tcp k -> po_udp k2 <> po_udp k -> call_of k2 ev = Some c -> do_call e c h = (o, h1) -> only_its k h g -> only_its k h1 g.
Proof.
  intros Nt Nu C D (t & u & T & U & Gt & Gu).
  assert (SU : forall u', only_its k (ho_set_udp (po_udp k2) u' h) g).
  { intros u'. exists t, u. split; [exact T|]. split; [unfold udp_at; cbn; rewrite PMem.nth_error_set_other by exact Nu; exact U|auto]. }
  assert (ST : forall t', only_its k (ho_set_tcp (po_tcp k2) t' h) g).
  { intros t'. exists t, u. split; [unfold tcp_at; cbn; rewrite PMem.nth_error_set_other by exact Nt; exact T|]. split; [exact U|auto]. }
  assert (SA : only_its k h g) by (exists t, u; auto).
  destruct ev as [[] n p b|[] bs n|[] d|[] b]; try discriminate C; injection C as <-; cbn [do_call] in D.
  - unfold tcp_open in D. destruct (nth_error (ho_tcp h) _); [|injection D as <- <-; exact SA]. destruct (en_resolve e n p); [injection D as <- <-; exact SA|].
    destruct (tcp_connect _ _ _). injection D as <- <-. apply ST.
  - unfold udp_open in D. destruct (nth_error (ho_udp h) _); [|injection D as <- <-; exact SA]. destruct (en_resolve e n p); [injection D as <- <-; exact SA|].
    destruct (us_fd _); [destruct (existsb _ _)|..]; injection D as <- <-; apply SU.
  - unfold udp_send in D. destruct (nth_error (ho_udp h) _) as [x|]; [|injection D as <- <-; exact SA]. destruct (us_fd _); [injection D as <- <-; exact SA|..];
      destruct (_ <? _); injection D as <- <-; try exact SA.
    + destruct (SU (us_set_fd (FBound (mkEnd 0 0)) x)) as (t2 & u2 & X). exists t2, u2. exact X.
    + destruct (SU (us_set_fd (FBound l) x)) as (t2 & u2 & X). exists t2, u2. exact X.
  - unfold tcp_close in D. destruct (nth_error (ho_tcp h) _); injection D as <- <-; [apply ST|exact SA].
  - unfold udp_close in D. destruct (nth_error (ho_udp h) _); injection D as <- <-; [apply SU|exact SA].
Qed.
Lemma plays_other k k2 h es h' : plays k2 h es h' -> forall g, po_tcp k2 <> po_tcp k -> po_udp k2 <> po_udp k -> own_ports h -> only_its k h g -> own_ports h' /\ only_its k h' g.
Proof.
  induction 1 as [h|h ev c e o h1 es h' Ca D W P IH|h bs n es h' Up P IH|h d es h' Up P IH|h d es h' Up P IH]; intros g N1 N2 OP AL; auto.
  apply IH; auto; [eapply own_call; eassumption|eapply other_call; eassumption].
Qed.
Lemma nodup_map_nth {A} (f : A -> nat) l i j x y : NoDup (map f l) -> nth_error l i = Some x -> nth_error l j = Some y -> i <> j -> f x <> f y.
Proof.
  intros ND Hi Hj N Q. rewrite NoDup_nth_error in ND. apply N, ND.
  - rewrite map_length. eapply nth_lt. exact Hi.
  - rewrite (map_nth_error f _ _ Hi), (map_nth_error f _ _ Hj), Q. reflexivity.
Qed.
Lemma own_sockets_set ks i k w : nth_error ks i = Some k -> own_sockets_of ks -> own_sockets_of (list_set ks i (with_world w k)).
Proof. intros H (A & B). split; [rewrite (set_map po_tcp _ _ k)|rewrite (set_map po_udp _ _ k)]; auto. Qed.

Lemma working_alone h ks l h' ks' : working h ks l h' ks' -> forall i k g, own_sockets_of ks -> own_ports h -> nth_error ks i = Some k -> only_its k h g ->
  exists w' g', nth_error ks' i = Some (with_world w' k) /\ only_its k h' g' /\ working g [at_home k] (its_calls i l) g' [at_home (with_world w' k)].
Proof.
  induction 1 as [h ks|h ks j kj o r w es h1 l h' ks' H O E G P W IH]; intros i k g OS OP Hi AL.
  - exists (po_world k), g. split; [rewrite Hi; destruct k; reflexivity|]. split; [exact AL|]. destruct k; constructor.
  - cbn [its_calls]. destruct (Nat.eqb j i) eqn:Q.
    + apply PeanoNat.Nat.eqb_eq in Q. subst j. assert (kj = k) by congruence. subst kj.
      destruct (plays_alone _ _ _ _ P g OP AL) as (OP1 & g1 & P1 & A1).
      destruct (IH i (with_world w k) g1) as (w' & g' & X1 & X2 & X3); [apply own_sockets_set; assumption|exact OP1|rewrite (list_set_nth _ _ _ _ H), PeanoNat.Nat.eqb_refl; reflexivity|exact A1|].
      exists w', g'. split; [exact X1|]. split; [exact X2|]. refine (working_call g [at_home k] 0 (at_home k) o r w es g1 _ g' _ eq_refl O E G P1 _). exact X3.
    + apply PeanoNat.Nat.eqb_neq in Q. destruct OS as [O1 O2].
      destruct (plays_other k _ _ _ _ P g) as (OP1 & A1); [exact (nodup_map_nth _ _ _ _ _ _ O1 H Hi Q)|exact (nodup_map_nth _ _ _ _ _ _ O2 H Hi Q)|exact OP|exact AL|].
      apply IH; [apply own_sockets_set; [exact H|split; assumption]|exact OP1| |exact A1].
      rewrite (list_set_nth _ _ _ _ H). destruct (Nat.eqb j i) eqn:Q2; [apply PeanoNat.Nat.eqb_eq in Q2; contradiction|exact Hi].
Qed.
Lemma working_company g l g' ks0 ks0' : working g ks0 l g' ks0' -> forall h ks i k, ks0 = [at_home k] -> own_ports h -> nth_error ks i = Some k -> only_its k h g ->
  exists l2 h' ks' w', working h ks l2 h' ks' /\ its_calls i l2 = l /\ only_its k h' g' /\ nth_error ks' i = Some (with_world w' k) /\ ks0' = [at_home (with_world w' k)] /\
    forall j, j <> i -> nth_error ks' j = nth_error ks j.
Proof.
  induction 1 as [g ks0|g ks0 j kj o r w es g1 l g' ks0' H O E G P W IH]; intros h ks i k -> OP Hi AL.
  - exists [], h, ks, (po_world k). split; [constructor|]. split; [reflexivity|]. split; [exact AL|]. split; [rewrite Hi; destruct k; reflexivity|]. split; [destruct k; reflexivity|auto].
  - destruct j as [|j]; [|destruct j; discriminate]. injection H as <-.
    destruct (plays_company _ _ _ _ P h OP AL) as (_ & h1 & P1 & OP1 & A1).
    destruct (IH h1 (list_set ks i (with_world w k)) i (with_world w k)) as (l2 & h' & ks' & w' & X1 & X2 & X3 & X4 & X5 & X6);
      [reflexivity|exact OP1|rewrite (list_set_nth _ _ _ _ Hi), PeanoNat.Nat.eqb_refl; reflexivity|exact A1|].
    exists ((i, o, r) :: l2), h', ks', w'. split; [econstructor; eassumption|]. split; [cbn; rewrite PeanoNat.Nat.eqb_refl, X2; reflexivity|]. split; [exact X3|]. split; [exact X4|]. split; [exact X5|].
    intros j N. rewrite (X6 j N), (list_set_nth _ _ _ _ Hi). destruct (Nat.eqb i j) eqn:Q; [apply PeanoNat.Nat.eqb_eq in Q; congruence|reflexivity].
Qed.

(** ** Cases *)
Definition two_plcs : env := mkEnv (fun n _ => if String.eqb n "a" then [mkEnd 1 44818] else [mkEnd 2 44818]) [] (fun _ => true).
Definition one_udp : host := mkHost [us_make 0 2222; us_make 0 2222] [TClosed; TClosed] [].
Definition two_udp : host := mkHost [us_make 0 2222; us_make 0 2223] [TClosed; TClosed] [].
Definition sits (i : nat) (w : world) : post := mkPost i i [] w.
Lemma sits_ok h i w : (i < List.length (ho_tcp h))%nat -> (i < List.length (ho_udp h))%nat -> session_ok w -> user_memory [] w -> post_ok h (sits i w).
Proof. intros A B SO UM. split; [exact SO|]. split; [exact UM|]. split; apply nth_some; assumption. Qed.
Definition opened (n : string) (id : N) : list event :=
  [EOpen Ctl n "44818" true; EOpen Io n "2222" true; ESend Ctl register_request (Some (len register_request)); ERecv Ctl (Some (registered id))].
Definition open_of (n : string) : op := OpOpen n "44818" "2222".
Definition bound (h : host) (i : nat) (a : N) (p : N) : host :=
  ho_set_udp i (mkUdp (FBound (mkEnd 0 p)) (mkEnd 0 p) (mkEnd a 44818)) (ho_set_tcp i (TConnected (mkEnd a 44818)) h).
Lemma plays_opened w n id h i h1 h2 : do_call two_plcs (TOpenC i n "44818") h = (Ret 0, h1) -> do_call two_plcs (UOpen i n "2222") h1 = (Ret 0, h2) ->
  (exists r, tcp_at h2 i (TConnected r)) -> plays (sits i w) h (opened n id) h2.
Proof.
  intros D1 D2 T. eapply plays_call; [reflexivity|exact D1|exists 0; reflexivity|]. eapply plays_call; [reflexivity|exact D2|exists 0; reflexivity|].
  apply plays_send; [intros _; exact T|]. apply plays_recv; [intros _; exact T|]. apply plays_nil.
Qed.
Lemma second_session : exists w1 w2 s h' ks', Forall (post_ok one_udp) [sits 0 w1; sits 1 w2] /\
  working one_udp [sits 0 w1; sits 1 w2] [(0%nat, open_of "a", Ret RUnit); (1%nat, open_of "b", Throw SystemError s)] h' ks'.
Proof.
  exists (w0 [RxData (registered 9)] []), (w0 [] [true]). set (wa := w0 _ _). set (wb := w0 _ _). set (wa1 := snd (step (open_of "a") wa)). set (wb1 := snd (step (open_of "b") wb)).
  eexists. set (h1 := bound one_udp 0 1 2222). exists (ho_set_udp 1 (mkUdp FOpen (mkEnd 0 2222) (mkEnd 2 44818)) (ho_set_tcp 1 (TConnected (mkEnd 2 44818)) h1)), [sits 0 wa1; sits 1 wb1].
  split; [apply Forall_cons; [|apply Forall_cons; [|apply Forall_nil]]; apply sits_ok; try (cbn; lia); first [apply session_ok_w0|apply user_memory_w0]|].
  apply (working_call _ _ 0 (sits 0 wa) _ _ wa1 (opened "a" 9) h1); [reflexivity|exact I|vm_compute; reflexivity|vm_compute; reflexivity| |].
  { eapply plays_opened; [vm_compute; reflexivity|vm_compute; reflexivity|eexists; vm_compute; reflexivity]. }
  eapply (working_call _ _ 1 (sits 1 wb) _ _ wb1 [EOpen Ctl "b" "44818" true; EOpen Io "b" "2222" false]); [reflexivity|exact I|vm_compute; reflexivity|vm_compute; reflexivity| |constructor].
  eapply (plays_call _ _ _ _ two_plcs); [reflexivity|vm_compute; reflexivity|eexists; reflexivity|].
  eapply (plays_call _ _ _ _ two_plcs); [reflexivity|vm_compute; reflexivity|eexists; reflexivity|apply plays_nil].
Qed.
(** A session with one PLC; open to another one; the read goes to the other one, with the
    handle of the first. *)
Definition read3 : op := OpGet N (prim_cls 2) 0 1 2 3.
Lemma redirected : exists w w1 w2 w3 s h1 h2 r es, post_ok one_udp (sits 0 w) /\
  working one_udp [sits 0 w] [(0%nat, open_of "a", Ret RUnit)] h1 [sits 0 w1] /\ tcp_at h1 0 (TConnected (mkEnd 1 44818)) /\ se_id (w_se w1) = 9 /\
  working h1 [sits 0 w1] [(0%nat, open_of "b", Throw SystemError s)] h2 [sits 0 w2] /\ tcp_at h2 0 (TConnected (mkEnd 2 44818)) /\ se_id (w_se w2) = 9 /\
  step read3 w2 = (r, w3) /\ gained w2 w3 es /\ In (ESend Ctl (get_request 9 1 2 3) (Some (len (get_request 9 1 2 3)))) es /\ working h2 [sits 0 w2] [(0%nat, read3, r)] h2 [sits 0 w3].
Proof.
  exists (w0 [RxData (registered 9); RxData (nothing 9)] [false; true]). set (w := w0 _ _). set (w1 := snd (step (open_of "a") w)). set (w2 := snd (step (open_of "b") w1)). set (w3 := snd (step read3 w2)).
  exists w1, w2, w3. eexists. set (h1 := bound one_udp 0 1 2222). exists h1, (bound one_udp 0 2 2222). eexists.
  exists [ESend Ctl (get_request 9 1 2 3) (Some (len (get_request 9 1 2 3))); ERecv Ctl (Some (nothing 9))].
  split; [apply sits_ok; try (cbn; lia); first [apply session_ok_w0|apply user_memory_w0]|].
  split. { apply (working_call _ _ 0 (sits 0 w) _ _ w1 (opened "a" 9) h1); [reflexivity|exact I|vm_compute; reflexivity|vm_compute; reflexivity| |constructor].
    eapply plays_opened; [vm_compute; reflexivity|vm_compute; reflexivity|eexists; vm_compute; reflexivity]. }
  split; [reflexivity|]. split; [vm_compute; reflexivity|].
  split. { eapply (working_call _ _ 0 (sits 0 w1) _ _ w2 [EOpen Ctl "b" "44818" true; EOpen Io "b" "2222" false]); [reflexivity|exact I|vm_compute; reflexivity|vm_compute; reflexivity| |constructor].
    eapply (plays_call _ _ _ _ two_plcs); [reflexivity|vm_compute; reflexivity|eexists; reflexivity|].
    eapply (plays_call _ _ _ _ two_plcs); [reflexivity|vm_compute; reflexivity|eexists; reflexivity|apply plays_nil]. }
  split; [reflexivity|]. split; [vm_compute; reflexivity|]. split; [vm_compute; reflexivity|]. split; [vm_compute; reflexivity|]. split; [left; reflexivity|].
  eapply (working_call _ _ 0 (sits 0 w2) _ _ w3 [ESend Ctl (get_request 9 1 2 3) (Some (len (get_request 9 1 2 3))); ERecv Ctl (Some (nothing 9))]);
    [reflexivity| |vm_compute; reflexivity|vm_compute; reflexivity| |constructor].
  - destruct get3_ok as (A & B & C). split; [exact A|]. split; [exact B|]. split; [exact C|]. right. apply PMore.prim_keeps.
  - apply plays_send; [intros _; eexists; reflexivity|]. apply plays_recv; [intros _; eexists; reflexivity|]. apply plays_nil.
Qed.
(** Two sessions with different ports. *)
Lemma two_sessions : exists w1 w2 h' ks', own_sockets_of [sits 0 w1; sits 1 w2] /\ own_ports two_udp /\
  working two_udp [sits 0 w1; sits 1 w2] [(0%nat, open_of "a", Ret RUnit); (1%nat, open_of "b", Ret RUnit); (0%nat, OpClose, Ret RUnit)] h' ks'.
Proof.
  exists (w0 [RxData (registered 9)] []), (w0 [RxData (registered 10)] []). set (wa := w0 _ _). set (wb := w0 _ _). set (wa1 := snd (step (open_of "a") wa)). set (wb1 := snd (step (open_of "b") wb)).
  set (wa2 := snd (step OpClose wa1)).
  set (h1 := bound two_udp 0 1 2222). set (h2 := bound h1 1 2 2223). exists (ho_set_udp 0 (mkUdp FClosed (mkEnd 0 2222) (mkEnd 1 44818)) (ho_set_tcp 0 TClosed h2)), [sits 0 wa2; sits 1 wb1].
  split; [split; repeat constructor; cbn; intuition discriminate|].
  split. { split.
    - intros [|[|i]] [|[|j]] u v U V N (Q & _); cbn in U, V; try (destruct i; discriminate); try (destruct j; discriminate); try congruence; injection U as <-; injection V as <-; discriminate.
    - intros [|[|i]] u a U F; cbn in U; try (destruct i; discriminate); injection U as <-; discriminate. }
  apply (working_call _ _ 0 (sits 0 wa) _ _ wa1 (opened "a" 9) h1); [reflexivity|exact I|vm_compute; reflexivity|vm_compute; reflexivity| |].
  { eapply plays_opened; [vm_compute; reflexivity|vm_compute; reflexivity|eexists; vm_compute; reflexivity]. }
  apply (working_call _ _ 1 (sits 1 wb) _ _ wb1 (opened "b" 10) h2); [reflexivity|exact I|vm_compute; reflexivity|vm_compute; reflexivity| |].
  { eapply plays_opened; [vm_compute; reflexivity|vm_compute; reflexivity|eexists; vm_compute; reflexivity]. }
  eapply (working_call _ _ 0 (sits 0 wa1) _ _ wa2 [ESend Ctl (unregister 9) (Some (len (unregister 9))); EClose Ctl true; EClose Io true]); [reflexivity|exact I|vm_compute; reflexivity|vm_compute; reflexivity| |constructor].
  apply plays_send; [intros _; eexists; reflexivity|].
  eapply (plays_call _ _ _ _ two_plcs); [reflexivity|vm_compute; reflexivity|eexists; reflexivity|].
  eapply (plays_call _ _ _ _ two_plcs); [reflexivity|vm_compute; reflexivity|eexists; reflexivity|apply plays_nil].
Qed.
